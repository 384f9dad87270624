(** Lemmas for C77, C103-C105. *)
From Coq Require Import String.
From Verif Require Import PyBase PyBase_Proofs Json Pandel_Model Pandel_Spec Pandel_Proofs Share_Model Share_Spec.
Open Scope nat_scope.

Scheme shows_m := Induction for shows Sort Prop
  with shows_dict_m := Induction for shows_dict Sort Prop
  with shows_list_m := Induction for shows_list Sort Prop.
Combined Scheme shows_mut from shows_m, shows_dict_m, shows_list_m.

(** ** Paths *)
Lemma paths_app : forall a b x, paths (a ++ b) x = paths a x + paths b x.
Proof. intros a b x. unfold paths. apply count_occ_app. Qed.
Lemma paths_nil : forall x, paths [] x = 0.
Proof. reflexivity. Qed.
Lemma paths_cons : forall a b x, paths (a :: b) x = paths [a] x + paths b x.
Proof. intros a b x. apply (paths_app [a] b). Qed.
Lemma paths_one : forall a x, paths [a] x = if Nat.eq_dec a x then 1 else 0.
Proof. reflexivity. Qed.
Lemma paths_in : forall l x, In x l <-> 1 <= paths l x.
Proof. intros l x. unfold paths. rewrite (count_occ_In Nat.eq_dec). lia. Qed.

Lemma shows_frame_mut : forall h h',
  (forall v j fp, shows h v j fp -> (forall x, In x fp -> nth_error h' x = nth_error h x) -> shows h' v j fp)
  /\ (forall d dj fp, shows_dict h d dj fp -> (forall x, In x fp -> nth_error h' x = nth_error h x) -> shows_dict h' d dj fp)
  /\ (forall l lj fp, shows_list h l lj fp -> (forall x, In x fp -> nth_error h' x = nth_error h x) -> shows_list h' l lj fp).
Proof.
  intros h h'.
  apply (shows_mut h
    (fun v j fp _ => (forall x, In x fp -> nth_error h' x = nth_error h x) -> shows h' v j fp)
    (fun d dj fp _ => (forall x, In x fp -> nth_error h' x = nth_error h x) -> shows_dict h' d dj fp)
    (fun l lj fp _ => (forall x, In x fp -> nth_error h' x = nth_error h x) -> shows_list h' l lj fp)).
  - intros _. constructor.
  - intros b _. constructor.
  - intros z _. constructor.
  - intros s _. constructor.
  - intros a d dj fp E _ IH K. apply (Sh_dict h' a d); [rewrite (K a (or_introl eq_refl)); exact E|]. apply IH. intros x X. apply K. right. exact X.
  - intros a l lj fp E _ IH K. apply (Sh_list h' a l); [rewrite (K a (or_introl eq_refl)); exact E|]. apply IH. intros x X. apply K. right. exact X.
  - intros _. constructor.
  - intros k v j fp d dj fp' _ IH1 _ IH2 K. constructor; [apply IH1|apply IH2]; intros x X; apply K; apply in_or_app; auto.
  - intros _. constructor.
  - intros v j fp d dj fp' _ IH1 _ IH2 K. constructor; [apply IH1|apply IH2]; intros x X; apply K; apply in_or_app; auto.
Qed.
Lemma shows_frame : forall h h' v j fp, shows h v j fp -> (forall x, In x fp -> nth_error h' x = nth_error h x) -> shows h' v j fp.
Proof. intros h h' v j fp. apply (proj1 (shows_frame_mut h h')). Qed.
Lemma shows_dict_frame : forall h h' d dj fp, shows_dict h d dj fp -> (forall x, In x fp -> nth_error h' x = nth_error h x) -> shows_dict h' d dj fp.
Proof. intros h h' d dj fp. apply (proj1 (proj2 (shows_frame_mut h h'))). Qed.
Lemma shows_list_frame : forall h h' l lj fp, shows_list h l lj fp -> (forall x, In x fp -> nth_error h' x = nth_error h x) -> shows_list h' l lj fp.
Proof. intros h h' l lj fp. apply (proj2 (proj2 (shows_frame_mut h h'))). Qed.

Lemma shows_within_mut : forall h,
  (forall v j fp, shows h v j fp -> forall x, In x fp -> x < length h)
  /\ (forall d dj fp, shows_dict h d dj fp -> forall x, In x fp -> x < length h)
  /\ (forall l lj fp, shows_list h l lj fp -> forall x, In x fp -> x < length h).
Proof.
  intros h.
  apply (shows_mut h (fun v j fp _ => forall x, In x fp -> x < length h) (fun d dj fp _ => forall x, In x fp -> x < length h)
    (fun l lj fp _ => forall x, In x fp -> x < length h)); try (intros; contradiction).
  - intros a d dj fp E _ IH x [<-|X]; [|auto]. apply nth_error_Some. congruence.
  - intros a l lj fp E _ IH x [<-|X]; [|auto]. apply nth_error_Some. congruence.
  - intros k v j fp d dj fp' _ IH1 _ IH2 x X. apply in_app_or in X. destruct X; auto.
  - intros v j fp d dj fp' _ IH1 _ IH2 x X. apply in_app_or in X. destruct X; auto.
Qed.
Lemma shows_paths : forall h v j fp x, shows h v j fp -> length h <= x -> paths fp x = 0.
Proof.
  intros h v j fp x H L. destruct (paths fp x) eqn:P; [reflexivity|]. assert (X : In x fp) by (apply paths_in; lia).
  apply (proj1 (shows_within_mut h) v j fp H) in X. lia.
Qed.
Lemma shows_dict_paths : forall h d dj fp x, shows_dict h d dj fp -> length h <= x -> paths fp x = 0.
Proof.
  intros h d dj fp x H L. destruct (paths fp x) eqn:P; [reflexivity|]. assert (X : In x fp) by (apply paths_in; lia).
  apply (proj1 (proj2 (shows_within_mut h)) d dj fp H) in X. lia.
Qed.
Lemma shows_list_paths : forall h l lj fp x, shows_list h l lj fp -> length h <= x -> paths fp x = 0.
Proof.
  intros h l lj fp x H L. destruct (paths fp x) eqn:P; [reflexivity|]. assert (X : In x fp) by (apply paths_in; lia).
  apply (proj2 (proj2 (shows_within_mut h)) l lj fp H) in X. lia.
Qed.

(** ** Heaps that grow *)
Definition grown (h h' : heap) : Prop := exists n, h' = h ++ n.
Lemma grown_refl : forall h, grown h h.
Proof. intros h. exists []. symmetry. apply app_nil_r. Qed.
Lemma grown_trans : forall a b c, grown a b -> grown b c -> grown a c.
Proof. intros a b c (n & ->) (m & ->). exists (n ++ m). symmetry. apply app_assoc. Qed.
Lemma grown_new : forall h o, grown h (h ++ [o]).
Proof. intros h o. exists [o]. reflexivity. Qed.
Lemma grown_length : forall h h', grown h h' -> length h <= length h'.
Proof. intros h h' (n & ->). rewrite app_length. lia. Qed.
Lemma grown_kept : forall h h', grown h h' -> kept h h'.
Proof. intros h h' (n & ->) x o H. rewrite nth_error_app1; [exact H|]. apply nth_error_Some. congruence. Qed.
Lemma grown_at : forall h h' x, grown h h' -> x < length h -> nth_error h' x = nth_error h x.
Proof. intros h h' x (n & ->) L. apply nth_error_app1. exact L. Qed.
Lemma shows_grown : forall h h' v j fp, grown h h' -> shows h v j fp -> shows h' v j fp.
Proof. intros h h' v j fp G H. apply (shows_frame h _ _ _ _ H). intros x X. apply (grown_at _ _ _ G). apply (proj1 (shows_within_mut h) v j fp H x X). Qed.
Lemma shows_dict_grown : forall h h' d j fp, grown h h' -> shows_dict h d j fp -> shows_dict h' d j fp.
Proof. intros h h' d j fp G H. apply (shows_dict_frame h _ _ _ _ H). intros x X. apply (grown_at _ _ _ G). apply (proj1 (proj2 (shows_within_mut h)) d j fp H x X). Qed.
Lemma shows_list_grown : forall h h' l j fp, grown h h' -> shows_list h l j fp -> shows_list h' l j fp.
Proof. intros h h' l j fp G H. apply (shows_list_frame h _ _ _ _ H). intros x X. apply (grown_at _ _ _ G). apply (proj2 (proj2 (shows_within_mut h)) l j fp H x X). Qed.

(** ** Looking up and setting keys *)
Lemma shows_dict_get : forall h d dj fp k, shows_dict h d dj fp ->
  match sget k d, sget k dj with
  | Some v, Some j => exists fv rest, shows h v j fv /\ (forall x, paths fp x = paths fv x + paths rest x)
      /\ forall h' v' j' fv', shows h' v' j' fv' -> (forall x, In x rest -> nth_error h' x = nth_error h x) ->
           exists fp', shows_dict h' (sset k v' d) (sset k j' dj) fp' /\ (forall x, paths fp' x = paths fv' x + paths rest x)
  | None, None => True
  | _, _ => False
  end.
Proof.
  intros h d dj fp k H. induction H as [|k0 v j fp d dj fp' Hv Hd IH]; [exact I|].
  unfold sget, sset in *. cbn [dget dset]. destruct (str_eqb k k0).
  - exists fp, fp'. split; [exact Hv|]. split; [intros x; apply paths_app|]. intros h' v' j' fv' Hv' K. exists (fv' ++ fp').
    split; [|intros x; apply paths_app]. constructor; [exact Hv'|]. apply (shows_dict_frame h); assumption.
  - destruct (dget str_eqb k d) as [w|], (dget str_eqb k dj) as [y|]; try exact IH.
    destruct IH as (fv & rest & H1 & H2 & H3). exists fv, (fp ++ rest). split; [exact H1|].
    split; [intros x; rewrite !paths_app, H2; lia|]. intros h' v' j' fv' Hv' K.
    destruct (H3 h' v' j' fv' Hv') as (f & F1 & F2). { intros x X. apply K. apply in_or_app. auto. }
    exists (fp ++ f). split; [|intros x; rewrite !paths_app, F2; lia]. constructor; [|exact F1].
    apply (shows_frame h _ _ _ _ Hv). intros x X. apply K. apply in_or_app. auto.
Qed.
Lemma shows_dict_add : forall h d dj fp k v j fv, shows_dict h d dj fp -> sget k d = None -> shows h v j fv ->
  exists fp', shows_dict h (sset k v d) (sset k j dj) fp' /\ (forall x, paths fp' x = paths fp x + paths fv x).
Proof.
  intros h d dj fp k v j fv H. induction H as [|k0 v0 j0 fp d dj fp' Hv Hd IH]; intros N V.
  - exists (fv ++ []). split; [constructor; [exact V|constructor]|]. intros x. rewrite paths_app. cbn. lia.
  - unfold sget, sset in *. cbn [dget dset] in *. destruct (str_eqb k k0); [discriminate N|].
    destruct (IH N V) as (f & F1 & F2). exists (fp ++ f). split; [constructor; assumption|]. intros x. rewrite !paths_app, F2. lia.
Qed.
Lemma shows_dict_set : forall h d dj fp k v j fv, shows_dict h d dj fp -> shows h v j fv ->
  exists fp', shows_dict h (sset k v d) (sset k j dj) fp' /\ (forall x, paths fp' x <= paths fp x + paths fv x).
Proof.
  intros h d dj fp k v j fv H V. pose proof (shows_dict_get h d dj fp k H) as G.
  destruct (sget k d) as [w|] eqn:E.
  - destruct (sget k dj) as [y|]; [|contradiction]. destruct G as (f1 & rest & _ & G2 & G3).
    destruct (G3 h v j fv V ltac:(reflexivity)) as (f & F1 & F2). exists f. split; [exact F1|]. intros x. rewrite F2, G2. lia.
  - destruct (shows_dict_add h d dj fp k v j fv H E V) as (f & F1 & F2). exists f. split; [exact F1|]. intros x. rewrite F2. lia.
Qed.
Lemma shows_dict_del : forall h d dj fp k, shows_dict h d dj fp ->
  exists fp', shows_dict h (sdel k d) (sdel k dj) fp' /\ (forall x, paths fp' x <= paths fp x).
Proof.
  intros h d dj fp k H. induction H as [|k0 v0 j0 fp d dj fp' Hv Hd IH].
  - exists []. split; [constructor|reflexivity].
  - destruct IH as (f & F1 & F2). unfold sdel in *. cbn [ddel]. destruct (str_eqb k k0).
    + exists f. split; [exact F1|]. intros x. rewrite paths_app. specialize (F2 x). lia.
    + exists (fp ++ f). split; [constructor; assumption|]. intros x. rewrite !paths_app. specialize (F2 x). lia.
Qed.

(** ** Merging *)
Section Keys.
  Variable m : heap -> value -> value -> heap * res value.
  Fixpoint keys_in (db : list (pystr * value)) (h : heap) (da : list (pystr * value)) : heap * res (list (pystr * value)) :=
    match db with
    | [] => (h, Ok da)
    | (k, bv) :: db' =>
        match sget k da with
        | Some av =>
            match m h av bv with
            | (h, Ok v) => keys_in db' h (sset k v da)
            | (h, Raise e) => (h, Raise e)
            end
        | None => keys_in db' h (sset k bv da)
        end
    end.
  Fixpoint elems_in (l : list value) (h : heap) : heap * res (list value) :=
    match l with
    | [] => (h, Ok [])
    | x :: l' =>
        match m h x VNull with
        | (h, Ok y) =>
            match elems_in l' h with
            | (h, Ok r) => (h, Ok (y :: r))
            | (h, Raise e) => (h, Raise e)
            end
        | (h, Raise e) => (h, Raise e)
        end
    end.
End Keys.
Lemma merge_in_S : forall fuel h a b, merge_in (S fuel) h a b =
  if is_some (as_dict h a) || is_some (as_dict h b) then
    match copied h a with
    | Raise e => (h, Raise e)
    | Ok da =>
        match copied h b with
        | Raise e => (h, Raise e)
        | Ok db =>
            let '(h, r) := keys_in (merge_in fuel) db h da in
            match r with
            | Ok d => let '(h, v) := new (ODict d) h in (h, Ok v)
            | Raise e => (h, Raise e)
            end
        end
    end
  else if is_some (as_list h a) || is_some (as_list h b) then
    match items h (match b with VNull => a | _ => b end) with
    | Raise e => (h, Raise e)
    | Ok l =>
        let '(h, r) := elems_in (merge_in fuel) l h in
        match r with
        | Ok l => let '(h, v) := new (OList l) h in (h, Ok v)
        | Raise e => (h, Raise e)
        end
    end
  else
    (h, match a, b with
        | VNull, VNull => Raise ValidationError
        | _, VNull => Ok a
        | _, _ => Ok b
        end).
Proof. reflexivity. Qed.

(** Whatever is merged, however shared: no object is changed. *)
Lemma merge_in_grows : forall fuel h a b h' r, merge_in fuel h a b = (h', r) -> grown h h'.
Proof.
  induction fuel as [|fuel IH]; intros h a b h' r E. { injection E as <- _. apply grown_refl. }
  rewrite merge_in_S in E.
  assert (K : forall db h da h' r, keys_in (merge_in fuel) db h da = (h', r) -> grown h h').
  { clear - IH. induction db as [|[k bv] db IHd]; intros h da h' r E; cbn [keys_in] in E. { injection E as <- _. apply grown_refl. }
    destruct (sget k da) as [av|]; [|exact (IHd _ _ _ _ E)]. destruct (merge_in fuel h av bv) as [h1 [v|e]] eqn:M.
    - exact (grown_trans _ _ _ (IH _ _ _ _ _ M) (IHd _ _ _ _ E)).
    - injection E as <- _. exact (IH _ _ _ _ _ M). }
  assert (L : forall l h h' r, elems_in (merge_in fuel) l h = (h', r) -> grown h h').
  { clear - IH. induction l as [|x l IHl]; intros h h' r E; cbn [elems_in] in E. { injection E as <- _. apply grown_refl. }
    destruct (merge_in fuel h x VNull) as [h1 [v|e]] eqn:M.
    - destruct (elems_in (merge_in fuel) l h1) as [h2 [r2|e2]] eqn:N; injection E as <- _; exact (grown_trans _ _ _ (IH _ _ _ _ _ M) (IHl _ _ _ N)).
    - injection E as <- _. exact (IH _ _ _ _ _ M). }
  destruct (is_some (as_dict h a) || is_some (as_dict h b)).
  - destruct (copied h a) as [da|]; [|injection E as <- _; apply grown_refl]. destruct (copied h b) as [db|]; [|injection E as <- _; apply grown_refl].
    destruct (keys_in (merge_in fuel) db h da) as [h1 [d|e]] eqn:M; apply K in M.
    + unfold new in E. injection E as <- _. exact (grown_trans _ _ _ M (grown_new _ _)).
    + injection E as <- _. exact M.
  - destruct (is_some (as_list h a) || is_some (as_list h b)); [|injection E as <- _; apply grown_refl].
    destruct (items h _) as [l|]; [|injection E as <- _; apply grown_refl].
    destruct (elems_in (merge_in fuel) l h) as [h1 [d|e]] eqn:M; apply L in M.
    + unfold new in E. injection E as <- _. exact (grown_trans _ _ _ M (grown_new _ _)).
    + injection E as <- _. exact M.
Qed.
Lemma merge_all_in_grows : forall fuel ms h m h' m' r, merge_all_in fuel h m ms = (h', m', r) -> grown h h'.
Proof.
  induction ms as [|x ms IH]; intros h m h' m' r E; cbn [merge_all_in] in E. { injection E as <- _ _. apply grown_refl. }
  destruct (merge_in fuel h m x) as [h1 [v|e]] eqn:M; apply merge_in_grows in M.
  - exact (grown_trans _ _ _ M (IH _ _ _ _ _ E)).
  - injection E as <- _ _. exact M.
Qed.

(** The objects of what is merged are those merged, and new ones. *)
Definition fits (h h' : heap) (fa fp : list nat) : Prop := forall x,
  (x < length h -> paths fp x <= paths fa x) /\ (length h <= x -> paths fp x <= 1).
Definition refines {A B} (h : heap) (fa : list nat) (sh : heap -> A -> B -> list nat -> Prop) (run : heap * res A) (tree : res B) : Prop :=
  grown h (fst run) /\
  match tree with
  | Ok j => exists v fp, snd run = Ok v /\ sh (fst run) v j fp /\ fits h (fst run) fa fp
  | Raise e => snd run = Raise e
  end.
Definition merges (fuel : nat) (ja jb : json) : Prop := forall h a b fa fb, shows h a ja fa -> shows h b jb fb ->
  refines h (fa ++ fb) shows (merge_in fuel h a b) (merge ja jb).

Lemma clone_merge : forall j, clone j = merge j JNull.
Proof. intros []; try reflexivity. cbn [merge is_strict_sequence orb items_of rbind]. rewrite clone_list, clones_rmap. reflexivity. Qed.

Lemma elems_refine : forall fuel lj, Forall (fun j => merges fuel j JNull) lj -> forall h l fl, shows_list h l lj fl ->
  refines h fl shows_list (elems_in (merge_in fuel) l h) (rmap clone lj).
Proof.
  intros fuel lj H. induction H as [|j lj Hj Hl IH]; intros h l fl S; inversion S as [|v j0 fv l0 lj0 fl0 Sv Sl]; subst; cbn [rmap elems_in].
  - split; [apply grown_refl|]. exists [], []. split; [reflexivity|]. split; [constructor|]. intros x. rewrite paths_nil. lia.
  - destruct (Hj h v VNull fv [] Sv (Sh_null h)) as (G & R). rewrite clone_merge. destruct (merge_in fuel h v VNull) as [h1 r1]. cbn [fst snd] in G, R.
    destruct (merge j JNull) as [j'|e]; [|subst r1; cbn [rbind]; split; [exact G|reflexivity]].
    destruct R as (y & fy & -> & Sy & Fy). cbn [rbind]. destruct (IH h1 l0 fl0 (shows_list_grown _ _ _ _ _ G Sl)) as (G2 & R2).
    destruct (elems_in (merge_in fuel) l0 h1) as [h2 r2]. cbn [fst snd] in G2, R2.
    destruct (rmap clone lj) as [lj'|e]; [|subst r2; cbn [rbind]; split; [exact (grown_trans _ _ _ G G2)|reflexivity]].
    destruct R2 as (ys & fys & -> & Sys & Fys). cbn [rbind]. split; [exact (grown_trans _ _ _ G G2)|]. cbn [fst snd].
    exists (y :: ys), (fy ++ fys). split; [reflexivity|]. split; [constructor; [exact (shows_grown _ _ _ _ _ G2 Sy)|exact Sys]|].
    intros x. rewrite !paths_app. specialize (Fy x). specialize (Fys x). rewrite paths_app, paths_nil in Fy. apply grown_length in G.
    assert (Zl : length h <= x -> paths fl0 x = 0) by (intros Z; exact (shows_list_paths _ _ _ _ _ Sl Z)).
    assert (Zy : length h1 <= x -> paths fy x = 0) by (intros Z; exact (shows_paths _ _ _ _ _ Sy Z)). lia.
Qed.

Lemma shows_kinds : forall h v j fp, shows h v j fp ->
  as_dict h v = match j with JDict _ => as_dict h v | _ => None end
  /\ as_list h v = match j with JList _ => as_list h v | _ => None end
  /\ is_some (as_dict h v) = is_mapping j /\ is_some (as_list h v) = is_strict_sequence j
  /\ (v = VNull <-> j = JNull).
Proof.
  intros h v j fp H. destruct H; cbn; try rewrite H; repeat (split; try reflexivity); try discriminate; auto.
Qed.

Lemma clone_merges : forall ja, exists N, forall fuel, N <= fuel -> merges fuel ja JNull.
Proof.
  assert (A : forall ja, is_mapping ja = false -> is_strict_sequence ja = false -> exists N, forall fuel, N <= fuel -> merges fuel ja JNull).
  { intros ja D L. exists 1. intros [|fuel] F; [lia|]. intros h a b fa fb SA SB.
    destruct (shows_kinds _ _ _ _ SA) as (_ & _ & K1 & K2 & _). inversion SB; subst. rewrite merge_in_S, K1, K2, D, L. cbn [as_dict as_list is_some orb].
    split; [apply grown_refl|]. cbn [fst snd]. destruct SA; try discriminate D; try discriminate L; cbn [merge is_strict_sequence orb];
      try reflexivity; do 2 eexists; (split; [reflexivity|]); (split; [constructor|]); intros x; rewrite paths_nil; lia. }
  induction ja as [| | | |l H|d H] using json_ind'; try (apply A; reflexivity).
  - assert (exists N, forall fuel, N <= fuel -> Forall (fun j => merges fuel j JNull) l) as (N & HN).
    { induction H as [|j l (N1 & H1) _ (N2 & IH)]; [exists 0; constructor|]. exists (max N1 N2). intros fuel F. constructor; [apply H1; lia|apply IH; lia]. }
    exists (S N). intros [|fuel] F; [lia|]. intros h a b fa fb SA SB. inversion SB; subst. rewrite merge_in_S.
    inversion SA as [| | | | |a0 la lj fl E SL]; subst. cbn [as_dict as_list]. rewrite E. cbn [is_some orb items as_list]. rewrite E. cbn [merge is_strict_sequence orb items_of rbind].
    destruct (elems_refine fuel l (HN fuel ltac:(lia)) h la fl SL) as (G & R). destruct (elems_in (merge_in fuel) la h) as [h1 r1]. cbn [fst snd] in G, R.
    destruct (rmap clone l) as [lj'|e]; [|subst r1; cbn [rbind]; split; [exact G|reflexivity]].
    destruct R as (ys & fys & -> & Sys & Fys). cbn [rbind new]. split; [exact (grown_trans _ _ _ G (grown_new _ _))|]. cbn [fst snd].
    exists (VRef (length h1)), (length h1 :: fys). split; [reflexivity|]. split.
    + apply (Sh_list _ _ ys). { rewrite nth_error_app2, Nat.sub_diag by lia. reflexivity. } exact (shows_list_grown _ _ _ _ _ (grown_new _ _) Sys).
    + intros x. rewrite paths_app, paths_nil, paths_cons, (paths_cons a0), !paths_one. specialize (Fys x). apply grown_length in G.
      assert (Zy : length h1 <= x -> paths fys x = 0) by (intros Z; exact (shows_list_paths _ _ _ _ _ Sys Z)).
      destruct (Nat.eq_dec (length h1) x), (Nat.eq_dec a0 x); lia.
  - exists 1. intros [|fuel] F; [lia|]. intros h a b fa fb SA SB. inversion SB; subst. rewrite merge_in_S.
    inversion SA as [| | | |a0 da dj fl E SD|]; subst. unfold copied. cbn [as_dict]. rewrite E. cbn [is_some orb keys_in new merge].
    split; [apply grown_new|]. cbn [fst snd]. exists (VRef (length h)), (length h :: fl). split; [reflexivity|]. split.
    + apply (Sh_dict _ _ da). { rewrite nth_error_app2, Nat.sub_diag by lia. reflexivity. } exact (shows_dict_grown _ _ _ _ _ (grown_new _ _) SD).
    + intros x. rewrite paths_app, paths_nil, paths_cons, (paths_cons a0), !paths_one.
      assert (Zy : length h <= x -> paths fl x = 0) by (intros Z; exact (shows_dict_paths _ _ _ _ _ SD Z)).
      destruct (Nat.eq_dec (length h) x), (Nat.eq_dec a0 x); lia.
Qed.

Lemma keys_refine : forall dbj, Forall (fun kv => forall ja, exists N, forall fuel, N <= fuel -> merges fuel ja (snd kv)) dbj -> forall daj,
  exists N, forall fuel, N <= fuel -> forall h h0 db da f0 fa fb, shows_dict h0 db dbj fb -> grown h0 h -> shows_dict h da daj fa -> fits h0 h f0 fa ->
    refines h0 (f0 ++ fb) shows_dict (keys_in (merge_in fuel) db h da) (merge_keys dbj daj).
Proof.
  intros dbj H. induction H as [|[k bj] dbj Hb Hdb IH]; intros daj.
  - exists 0. intros fuel _ h h0 db da f0 fa fb Sb G Sa F. inversion Sb; subst. cbn [keys_in merge_keys]. split; [exact G|]. cbn [fst snd].
    exists da, fa. split; [reflexivity|]. split; [exact Sa|]. intros x. rewrite paths_app, paths_nil. specialize (F x). lia.
  - cbn [snd] in Hb. cbn [merge_keys].
    destruct (sget k daj) as [aj|] eqn:Ea.
    + destruct (Hb aj) as (N1 & H1). destruct (merge aj bj) as [vj|e] eqn:M; cbn [rbind].
      * destruct (IH (sset k vj daj)) as (N2 & H2). exists (max N1 N2). intros fuel L h h0 db da f0 fa fb Sb G Sa F.
        inversion Sb as [|k0 bv j0 fv db0 dbj0 fdb Sv Sdb]; subst. cbn [keys_in]. pose proof (shows_dict_get h da daj fa k Sa) as Ge. rewrite Ea in Ge.
        destruct (sget k da) as [av|]; [|contradiction]. destruct Ge as (fav & rest & Sav & Cf & Up).
        destruct (H1 fuel ltac:(lia) h av bv fav fv Sav (shows_grown _ _ _ _ _ G Sv)) as (G1 & R). rewrite M in R.
        destruct (merge_in fuel h av bv) as [h1 r1]. cbn [fst snd] in G1, R. destruct R as (v & f1 & -> & S1 & F1).
        destruct (Up h1 v vj f1 S1) as (fa' & Sa' & Cf').
        { intros x X. apply (grown_at _ _ _ G1). assert (1 <= paths fa x) by (rewrite Cf; apply paths_in in X; lia).
          destruct (Nat.lt_ge_cases x (length h)) as [|Y]; [assumption|]. rewrite (shows_dict_paths _ _ _ _ _ Sa Y) in *. lia. }
        assert (FF : fits h0 h1 (f0 ++ fv) fa').
        { intros x. rewrite paths_app, Cf'. specialize (F x). specialize (F1 x). rewrite paths_app in F1. specialize (Cf x). apply grown_length in G, G1.
          assert (Z1 : length h <= x -> paths fa x = 0) by (intros Z; exact (shows_dict_paths _ _ _ _ _ Sa Z)).
          assert (Z2 : length h0 <= x -> paths fv x = 0) by (intros Z; exact (shows_paths _ _ _ _ _ Sv Z)). lia. }
        destruct (H2 fuel ltac:(lia) h1 h0 db0 (sset k v da) (f0 ++ fv) fa' fdb Sdb (grown_trans _ _ _ G G1) Sa' FF) as (G3 & R3).
        split; [exact G3|]. destruct (merge_keys dbj (sset k vj daj)) as [dj|e]; [|exact R3]. destruct R3 as (v3 & f3 & E3 & S3 & F3).
        exists v3, f3. split; [exact E3|]. split; [exact S3|]. intros x. specialize (F3 x). rewrite !paths_app in *. lia.
      * exists N1. intros fuel L h h0 db da f0 fa fb Sb G Sa F.
        inversion Sb as [|k0 bv j0 fv db0 dbj0 fdb Sv Sdb]; subst. cbn [keys_in]. pose proof (shows_dict_get h da daj fa k Sa) as Ge. rewrite Ea in Ge.
        destruct (sget k da) as [av|]; [|contradiction]. destruct Ge as (fav & rest & Sav & Cf & Up).
        destruct (H1 fuel ltac:(lia) h av bv fav fv Sav (shows_grown _ _ _ _ _ G Sv)) as (G1 & R). rewrite M in R.
        destruct (merge_in fuel h av bv) as [h1 r1]. cbn [fst snd] in G1, R. subst r1. split; [exact (grown_trans _ _ _ G G1)|reflexivity].
    + cbn [rbind]. destruct (IH (sset k bj daj)) as (N2 & H2). exists N2. intros fuel L h h0 db da f0 fa fb Sb G Sa F.
      inversion Sb as [|k0 bv j0 fv db0 dbj0 fdb Sv Sdb]; subst. cbn [keys_in]. pose proof (shows_dict_get h da daj fa k Sa) as Ge. rewrite Ea in Ge.
      destruct (sget k da) as [av|] eqn:Ea'; [contradiction|].
      destruct (shows_dict_add h da daj fa k bv bj fv Sa Ea' (shows_grown _ _ _ _ _ G Sv)) as (fa' & Sa' & Cf').
      assert (FF : fits h0 h (f0 ++ fv) fa').
      { intros x. rewrite paths_app, Cf'. specialize (F x).
        assert (Z2 : length h0 <= x -> paths fv x = 0) by (intros Z; exact (shows_paths _ _ _ _ _ Sv Z)). lia. }
      destruct (H2 fuel L h h0 db0 (sset k bv da) (f0 ++ fv) fa' fdb Sdb G Sa' FF) as (G3 & R3).
      split; [exact G3|]. destruct (merge_keys dbj (sset k bj daj)) as [dj|e]; [|exact R3]. destruct R3 as (v3 & f3 & E3 & S3 & F3).
      exists v3, f3. split; [exact E3|]. split; [exact S3|]. intros x. specialize (F3 x). rewrite !paths_app in *. lia.
Qed.

Lemma not_null : forall h v j fp A (x y : A), shows h v j fp -> j <> JNull -> match v with VNull => x | _ => y end = y.
Proof. intros h v j fp A x y H N. destruct H; try reflexivity. contradiction. Qed.
Lemma elems_of : forall lj, exists N, forall fuel, N <= fuel -> Forall (fun j => merges fuel j JNull) lj.
Proof.
  induction lj as [|j l (N2 & IH)]; [exists 0; constructor|]. destruct (clone_merges j) as (N1 & H1).
  exists (max N1 N2). intros fuel F. constructor; [apply H1; lia|apply IH; lia].
Qed.
Lemma shows_chars : forall h s, shows_list h (map (fun c => VStr [c]) s) (map (fun c => JStr [c]) s) [].
Proof. intros h s. induction s as [|c s IH]; [constructor|]. apply (Sl_cons h (VStr [c]) (JStr [c]) []); [constructor|exact IH]. Qed.
Lemma shows_items : forall h v j fp, shows h v j fp ->
  match items_of j with
  | Ok lj => exists l fl, items h v = Ok l /\ shows_list h l lj fl /\ forall x, paths fl x <= paths fp x
  | Raise e => items h v = Raise e
  end.
Proof.
  intros h v j fp H. destruct H as [| | |s|a d dj fp E S|a l lj fp E S]; cbn [items_of items as_list]; try reflexivity.
  - exists (map (fun c => VStr [c]) s), []. split; [reflexivity|]. split; [apply shows_chars|]. reflexivity.
  - rewrite E. reflexivity.
  - rewrite E. exists l, fp. split; [reflexivity|]. split; [exact S|]. intros x. rewrite (paths_cons a). lia.
Qed.

Theorem all_merges : forall jb ja, exists N, forall fuel, N <= fuel -> merges fuel ja jb.
Proof.
  assert (A : forall j ja, is_mapping j = false -> j <> JNull -> exists N, forall fuel, N <= fuel -> merges fuel ja j).
  { intros j ja D NJ. destruct (elems_of (match items_of j with Ok l => l | _ => [] end)) as (N2 & H2).
    exists (S N2). intros [|fuel] F; [lia|]. intros h a b fa fb SA SB. rewrite merge_in_S.
    destruct (shows_kinds _ _ _ _ SA) as (_ & _ & A1 & A2 & A3). destruct (shows_kinds _ _ _ _ SB) as (_ & _ & B1 & B2 & B3).
    rewrite A1, B1, A2, B2. rewrite (merge_not_dict ja j D). rewrite D, orb_false_r.
    destruct (is_mapping ja) eqn:DA.
    - destruct ja; try discriminate DA. inversion SA as [| | | |a0 da dj fl E SD|]; subst. unfold copied at 1. cbn [as_dict]. rewrite E.
      assert (C : copied h b = Raise TypeError).
      { unfold copied. destruct SB as [|?|?|?|b0 d0 dj0 fb0 Eb Sb|b0 d0 dj0 fb0 Eb Sb]; try reflexivity; [contradiction|discriminate D|]. cbn [as_dict]. rewrite Eb. reflexivity. }
      rewrite C. split; [apply grown_refl|]. destruct j; try reflexivity. contradiction.
    - assert (MJ : (match ja with JDict da => match j with JNull => Ok (JDict da) | _ => Raise TypeError end
                       | _ => if is_strict_sequence ja || is_strict_sequence j then do l <- items_of (match j with JNull => ja | _ => j end); do l' <- rmap clone l; Ok (JList l')
                              else match ja, j with JNull, JNull => Raise ValidationError | _, JNull => Ok ja | _, _ => Ok j end end)
                    = if is_strict_sequence ja || is_strict_sequence j then do l <- items_of j; do l' <- rmap clone l; Ok (JList l') else Ok j).
      { destruct ja; try discriminate DA; destruct j; try reflexivity; contradiction. }
      rewrite MJ. clear MJ. rewrite (not_null _ _ _ _ _ a b SB NJ). destruct (is_strict_sequence ja || is_strict_sequence j).
      + pose proof (shows_items h b j fb SB) as I. destruct (items_of j) as [lj|e]; [|rewrite I; split; [apply grown_refl|reflexivity]].
        destruct I as (l & fl & -> & SL & FL). cbn [rbind].
        destruct (elems_refine fuel lj (H2 fuel ltac:(lia)) h l fl SL) as (G & R). destruct (elems_in (merge_in fuel) l h) as [h1 r1]. cbn [fst snd] in G, R.
        destruct (rmap clone lj) as [lj'|e]; [|subst r1; cbn [rbind]; split; [exact G|reflexivity]].
        destruct R as (ys & fys & -> & Sys & Fys). cbn [rbind new]. split; [exact (grown_trans _ _ _ G (grown_new _ _))|]. cbn [fst snd].
        exists (VRef (length h1)), (length h1 :: fys). split; [reflexivity|]. split.
        * apply (Sh_list _ _ ys); [rewrite nth_error_app2, Nat.sub_diag by lia; reflexivity|exact (shows_list_grown _ _ _ _ _ (grown_new _ _) Sys)].
        * intros x. rewrite paths_app, paths_cons, !paths_one. specialize (Fys x). specialize (FL x). apply grown_length in G.
          assert (Zy : length h1 <= x -> paths fys x = 0) by (intros Z; exact (shows_list_paths _ _ _ _ _ Sys Z)).
          destruct (Nat.eq_dec (length h1) x); lia.
      + split; [apply grown_refl|]. cbn [fst snd]. exists b, fb. split; [|split; [exact SB|]].
        * destruct a; rewrite (not_null _ _ _ _ _ _ _ SB NJ); reflexivity.
        * intros x. rewrite paths_app. split; [lia|]. intros Z. rewrite (shows_paths _ _ _ _ _ SB Z). lia. }
  induction jb as [| | | | |db H] using json_ind'; intros ja; try (apply clone_merges); try (apply A; [reflexivity|discriminate]).
  assert (exists N, forall fuel, N <= fuel -> forall h h0 db' da f0 fa fb, shows_dict h0 db' db fb -> grown h0 h ->
    shows_dict h da (match ja with JDict da => da | _ => [] end) fa -> fits h0 h f0 fa ->
    refines h0 (f0 ++ fb) shows_dict (keys_in (merge_in fuel) db' h da) (merge_keys db (match ja with JDict da => da | _ => [] end))) as (N & HN)
    by (apply keys_refine; exact H).
  exists (S N). intros [|fuel] L; [lia|]. intros h a b fa fb SA SB. rewrite merge_in_S, merge_dict.
  destruct (shows_kinds _ _ _ _ SB) as (_ & _ & B1 & _ & _). rewrite B1. cbn [is_mapping]. rewrite orb_true_r.
  inversion SB as [| | | |b0 d0 dj0 fb0 Eb Sb|]; subst.
  assert (CB : copied h (VRef b0) = Ok d0) by (unfold copied; cbn [as_dict]; rewrite Eb; reflexivity). rewrite CB.
  assert (K : forall da daj fa', (match ja with JDict da => da | _ => [] end) = daj -> shows_dict h da daj fa' -> (forall x, paths fa' x <= paths fa x) ->
    refines h (fa ++ b0 :: fb0) shows
      (let '(h, r) := keys_in (merge_in fuel) d0 h da in match r with Ok d => let '(h, v) := new (ODict d) h in (h, Ok v) | Raise e => (h, Raise e) end)
      (do d <- merge_keys db daj; Ok (JDict d))).
  { intros da daj fa' <- Sa Fa. destruct (HN fuel ltac:(lia) h h d0 da fa' fa' fb0 Sb (grown_refl h) Sa) as (G & R).
    { intros x. split; [lia|]. intros Z. rewrite (shows_dict_paths _ _ _ _ _ Sa Z). lia. }
    destruct (keys_in (merge_in fuel) d0 h da) as [h1 r1]. cbn [fst snd] in G, R. destruct (merge_keys db _) as [dj|e]; cbn [rbind]; [|subst r1; split; [exact G|reflexivity]].
    destruct R as (d & f & -> & Sd & Fd). cbn [new]. split; [exact (grown_trans _ _ _ G (grown_new _ _))|]. cbn [fst snd].
    exists (VRef (length h1)), (length h1 :: f). split; [reflexivity|]. split.
    - apply (Sh_dict _ _ d). { rewrite nth_error_app2, Nat.sub_diag by lia. reflexivity. } exact (shows_dict_grown _ _ _ _ _ (grown_new _ _) Sd).
    - intros x. rewrite paths_app, paths_cons, (paths_cons b0), !paths_one. specialize (Fd x). specialize (Fa x). rewrite paths_app in Fd. apply grown_length in G.
      assert (Zy : length h1 <= x -> paths f x = 0) by (intros Z; exact (shows_dict_paths _ _ _ _ _ Sd Z)).
      destruct (Nat.eq_dec (length h1) x), (Nat.eq_dec b0 x); lia. }
  destruct SA as [|?|?|?|a0 da dj fl E SD|a0 la lj fl E SL]; try (split; [apply grown_refl|reflexivity]).
  - cbn [rbind copied]. apply (K [] [] []); [reflexivity|constructor|]. reflexivity.
  - unfold copied. cbn [as_dict rbind]. rewrite E. apply (K da dj fl); [reflexivity|exact SD|]. intros x. rewrite (paths_cons a0). lia.
  - unfold copied. cbn [as_dict]. rewrite E. split; [apply grown_refl|reflexivity].
Qed.

(** All sub-models, one after the other *)
Theorem merge_all_refines : forall js ja, exists N, forall fuel, N <= fuel -> forall h h0 m ms f0 fm fms, shows_list h0 ms js fms -> grown h0 h ->
  shows h m ja fm -> fits h0 h f0 fm ->
  exists h' m' fm', merge_all_in fuel h m ms = (h', m', snd (merge_all ja js)) /\ grown h0 h' /\ shows h' m' (fst (merge_all ja js)) fm' /\ fits h0 h' (f0 ++ fms) fm'.
Proof.
  induction js as [|j js IH]; intros ja.
  - exists 0. intros fuel _ h h0 m ms f0 fm fms S G Sm F. inversion S; subst. cbn [merge_all_in merge_all fst snd]. exists h, m, fm.
    split; [reflexivity|]. split; [exact G|]. split; [exact Sm|]. rewrite app_nil_r. exact F.
  - destruct (all_merges j ja) as (N1 & H1). cbn [merge_all]. destruct (merge ja j) as [j1|e] eqn:M.
    + destruct (IH j1) as (N2 & H2). exists (max N1 N2). intros fuel L h h0 m ms f0 fm fms S G Sm F. inversion S as [|v j0 fv ms0 js0 fms0 Sv Sms]; subst.
      cbn [merge_all_in]. destruct (H1 fuel ltac:(lia) h m v fm fv Sm (shows_grown _ _ _ _ _ G Sv)) as (G1 & R). rewrite M in R.
      destruct (merge_in fuel h m v) as [h1 r1]. cbn [fst snd] in G1, R. destruct R as (m1 & f1 & -> & S1 & F1).
      assert (FF : fits h0 h1 (f0 ++ fv) f1).
      { intros x. rewrite paths_app. specialize (F x). specialize (F1 x). rewrite paths_app in F1. apply grown_length in G, G1.
        assert (Z2 : length h0 <= x -> paths fv x = 0) by (intros Z; exact (shows_paths _ _ _ _ _ Sv Z)). lia. }
      destruct (H2 fuel ltac:(lia) h1 h0 m1 ms0 (f0 ++ fv) f1 fms0 Sms (grown_trans _ _ _ G G1) S1 FF) as (h' & m' & fm' & E & G' & S' & F').
      exists h', m', fm'. split; [exact E|]. split; [exact G'|]. split; [exact S'|]. rewrite app_assoc. exact F'.
    + exists N1. intros fuel L h h0 m ms f0 fm fms S G Sm F. inversion S as [|v j0 fv ms0 js0 fms0 Sv Sms]; subst.
      cbn [merge_all_in]. destruct (H1 fuel ltac:(lia) h m v fm fv Sm (shows_grown _ _ _ _ _ G Sv)) as (G1 & R). rewrite M in R.
      destruct (merge_in fuel h m v) as [h1 r1]. cbn [fst snd] in G1, R. subst r1. cbn [fst snd].
      exists h1, m, fm. split; [reflexivity|]. split; [exact (grown_trans _ _ _ G G1)|]. split; [exact (shows_grown _ _ _ _ _ G1 Sm)|].
      intros x. rewrite paths_app. specialize (F x). lia.
Qed.

(** ** Storing *)
Lemma store_length : forall a o h, length (store a o h) = length h.
Proof. intros a o h. revert a. induction h as [|x h IH]; intros [|a]; cbn; auto. Qed.
Lemma store_here : forall a o h, a < length h -> nth_error (store a o h) a = Some o.
Proof. intros a o h. revert a. induction h as [|x h IH]; intros [|a] L; cbn in *; try lia; [reflexivity|]. apply IH. lia. Qed.
Lemma store_there : forall a o h x, a <> x -> nth_error (store a o h) x = nth_error h x.
Proof. intros a o h. revert a. induction h as [|y h IH]; intros [|a] [|x] N; cbn; try reflexivity; try congruence. apply IH. congruence. Qed.

(** ** Schemas *)
Scheme kw_shows_m := Induction for kw_shows Sort Prop
  with schema_shows_m := Induction for schema_shows Sort Prop
  with props_show_m := Induction for props_show Sort Prop.
Combined Scheme kw_shows_mut from kw_shows_m, schema_shows_m, props_show_m.

Lemma schema_frame_mut : forall h h',
  (forall own k kj fp, kw_shows h own k kj fp -> (forall x, In x fp -> nth_error h' x = nth_error h x) -> kw_shows h' own k kj fp)
  /\ (forall own s sj fp, schema_shows h own s sj fp -> (forall x, In x fp -> nth_error h' x = nth_error h x) -> schema_shows h' own s sj fp)
  /\ (forall ps psj fp, props_show h ps psj fp -> (forall x, In x fp -> nth_error h' x = nth_error h x) -> props_show h' ps psj fp).
Proof.
  intros h h'.
  apply (kw_shows_mut h
    (fun own k kj fp _ => (forall x, In x fp -> nth_error h' x = nth_error h x) -> kw_shows h' own k kj fp)
    (fun own s sj fp _ => (forall x, In x fp -> nth_error h' x = nth_error h x) -> schema_shows h' own s sj fp)
    (fun ps psj fp _ => (forall x, In x fp -> nth_error h' x = nth_error h x) -> props_show h' ps psj fp)); try (intros; constructor).
  - auto.
  - apply (shows_frame h); assumption.
  - apply H; intros x X; apply H1; apply in_or_app; auto.
  - apply H0; intros x X; apply H1; apply in_or_app; auto.
  - apply H; intros x X; apply H1; apply in_or_app; auto.
  - apply H0; intros x X; apply H1; apply in_or_app; auto.
Qed.
Lemma schema_frame : forall h h' own s sj fp, schema_shows h own s sj fp -> (forall x, In x fp -> nth_error h' x = nth_error h x) -> schema_shows h' own s sj fp.
Proof. intros h h' own s sj fp. apply (proj1 (proj2 (schema_frame_mut h h'))). Qed.
Lemma schema_within_mut : forall h,
  (forall own k kj fp, kw_shows h own k kj fp -> forall x, In x fp -> x < length h)
  /\ (forall own s sj fp, schema_shows h own s sj fp -> forall x, In x fp -> x < length h)
  /\ (forall ps psj fp, props_show h ps psj fp -> forall x, In x fp -> x < length h).
Proof.
  intros h.
  apply (kw_shows_mut h (fun own k kj fp _ => forall x, In x fp -> x < length h) (fun own s sj fp _ => forall x, In x fp -> x < length h)
    (fun ps psj fp _ => forall x, In x fp -> x < length h)); try (intros; contradiction).
  - intros _ ps psj fp _ IH. exact IH.
  - intros v j fp S x X. exact (proj1 (shows_within_mut h) v j fp S x X).
  - intros own k kj fp s sj fp' _ IH1 _ IH2 x X. apply in_app_or in X. destruct X; auto.
  - intros p s sj fp ps psj fp' _ IH1 _ IH2 x X. apply in_app_or in X. destruct X; auto.
Qed.
Lemma schema_paths : forall h own s sj fp x, schema_shows h own s sj fp -> length h <= x -> paths fp x = 0.
Proof.
  intros h own s sj fp x H L. destruct (paths fp x) eqn:P; [reflexivity|]. assert (X : In x fp) by (apply paths_in; lia).
  apply (proj1 (proj2 (schema_within_mut h)) own s sj fp H) in X. lia.
Qed.

(** The own default, and the rest *)
Lemma schema_split : forall h s sj fs, schema_shows h true s sj fs ->
  exists ft fn, schema_shows h false s sj fn /\ (forall x, paths ft x + paths fn x <= paths fs x)
    /\ match sdefault s, get_default sj with Some v, Some j => shows h v j ft | None, None => ft = [] | _, _ => False end.
Proof.
  intros h s sj fs H. remember true as own eqn:O. induction H as [own|own k kj fp s sj fp' Hk Hs IH].
  - exists [], []. split; [constructor|]. split; [reflexivity|reflexivity].
  - subst own. destruct (IH eq_refl) as (ft & fn & S & C & D). unfold sdefault, get_default in *. 
    remember true as own eqn:O. destruct Hk as [own ts|own ps|own ps psj fp Hp|v j fp Hv|v j|own v|own v|own v|own n]; try discriminate O; cbn [skw_get kw_get];
      try (exists ft, ([] ++ fn); split; [constructor; [constructor|exact S]|]; split; [exact C|exact D]).
    + exists ft, (fp ++ fn). split; [constructor; [constructor; exact Hp|exact S]|]. split; [|exact D]. intros x. specialize (C x). rewrite !paths_app. lia.
    + exists fp, ([] ++ fn). split; [constructor; [constructor|exact S]|]. split; [|exact Hv]. intros x. specialize (C x). rewrite !paths_app, paths_nil. lia.
Qed.
Lemma schema_selects : forall h own s sj fs, schema_shows h own s sj fs ->
  stype s = get_type sj /\ sauto s = get_auto sj /\ sauto_null s = get_auto_null sj /\ sremove_null s = get_remove_null sj.
Proof.
  intros h own s sj fs H. unfold stype, sauto, sauto_null, sremove_null, get_type, get_auto, get_auto_null, get_remove_null.
  induction H as [own|own k kj fp s sj fp' Hk Hs (I1 & I2 & I3 & I4)]; [repeat split|].
  destruct Hk; cbn [skw_get kw_get]; auto.
Qed.

(** The properties, without their own defaults *)
Inductive below (h : heap) : list (pystr * sschema) -> list (pystr * schema) -> list nat -> Prop :=
| Be_nil : below h [] [] []
| Be_cons p s sj fp ps psj fp' : schema_shows h false s sj fp -> below h ps psj fp' -> below h ((p, s) :: ps) ((p, sj) :: psj) (fp ++ fp').
Lemma below_frame : forall h h' ps psj fp, below h ps psj fp -> (forall x, In x fp -> nth_error h' x = nth_error h x) -> below h' ps psj fp.
Proof.
  intros h h' ps psj fp H. induction H as [|p s sj fp ps psj fp' Hs Hp IH]; intros K; constructor.
  - apply (schema_frame h _ _ _ _ _ Hs). intros x X. apply K. apply in_or_app. auto.
  - apply IH. intros x X. apply K. apply in_or_app. auto.
Qed.

Section Skw.
  Variable P : skw -> Prop.
  Hypothesis Hprops : forall ps, (forall p sub k, In (p, sub) ps -> In k sub -> P k) -> P (SProps ps).
  Hypothesis Hother : forall k, match k with SProps _ => False | _ => True end -> P k.
  Fixpoint skw_ind' (k : skw) : P k.
  Proof.
    destruct k; try (apply Hother; exact I).
    apply Hprops. induction ps as [|[p0 sub0] ps IH]; intros p sub k H; [destruct H|].
    destruct H as [H|H].
    - injection H as _ <-. clear IH. induction sub0 as [|k0 sub0 IH]; intro Hk; [destruct Hk|].
      destruct Hk as [<-|Hk]; [apply skw_ind'|apply IH; exact Hk].
    - apply (IH p sub k H).
  Defined.
End Skw.

Section Visit.
  Variables ad an ar : bool.
  Variable other_in : nat -> heap -> value -> list nat.
  Notation vkw := (visit_kw_in ad an ar other_in).
  Notation vis := (visit_in ad an ar other_in).

  Definition visit_props_in (a : nat) := fix props (ps : list (pystr * sschema)) (h : heap) : heap * list verr :=
    match ps with
    | [] => (h, [])
    | (p, sub) :: ps' =>
        match as_dict h (VRef a) with
        | None => (h, [])
        | Some d =>
            match sget p d with
            | None => props ps' h
            | Some x =>
                let '(h, es) := vis sub h x in
                let '(h, es') := props ps' h in
                (h, es ++ es')
            end
        end
    end.
  Lemma vkw_props : forall ps h v, vkw (SProps ps) h v =
    match v, as_dict h v with
    | VRef a, Some d => visit_props_in a ps (store a (ODict (fill_in ad an ar ps d)) h)
    | _, _ => (h, [])
    end.
  Proof.
    intros ps h v. cbn [visit_kw_in]. destruct v as [| | | |a]; try reflexivity. destruct (as_dict h (VRef a)) as [d|]; [|reflexivity].
    assert (V : forall (s : sschema) x h, (fix kws (s : sschema) (h : heap) : heap * list verr :=
                 match s with
                 | [] => (h, [])
                 | k :: s' => let '(h, es) := vkw k h x in let '(h, es') := kws s' h in (h, es ++ es')
                 end) s h = vis s h x).
    { induction s as [|k s IH]; intros x h0; [reflexivity|]. cbn [visit_in]. destruct (vkw k h0 x) as [h1 es]. rewrite IH. reflexivity. }
    match goal with |- ?f ps ?h0 = _ => assert (G : forall ps' h', f ps' h' = visit_props_in a ps' h') end.
    { induction ps' as [|[p sub] ps' IH]; intro h'; [reflexivity|]. cbn [visit_props_in].
      destruct (as_dict h' (VRef a)) as [d'|]; [|reflexivity]. destruct (sget p d') as [x|]; [|apply IH]. rewrite V. destruct (vis sub h' x) as [h1 es]. rewrite IH. reflexivity. }
    apply G.
  Qed.

  Variable other : nat -> json -> list nat.
  Hypothesis Hother : forall n h v j fp, shows h v j fp -> other_in n h v = other n j.

  (** What a visit does *)
  Definition tracks (h : heap) (v : value) (fp fs : list nat) (run : heap * list verr) (tree : json * list verr) : Prop :=
    snd run = snd tree /\ length (fst run) = length h /\
    (forall x, paths fp x + paths fs x = 0 -> nth_error (fst run) x = nth_error h x) /\
    exists fp', shows (fst run) v (fst tree) fp' /\ forall x, paths fp' x <= paths fp x + paths fs x.

  Lemma shows_type : forall h v j fp t, shows h v j fp -> is_type_in h v t = is_type j t.
  Proof.
    intros h v j fp t H. destruct H as [| | | |a d dj fp E S|a l lj fp E S]; destruct t; try reflexivity; cbn [is_type_in is_type as_dict as_list]; rewrite E; reflexivity.
  Qed.
  Lemma shows_missing : forall h d dj fp p, shows_dict h d dj fp -> smem p d = smem p dj.
  Proof.
    intros h d dj fp p H. pose proof (shows_dict_get h d dj fp p H) as G. unfold smem, dmem. unfold sget in G.
    destruct (dget str_eqb p d), (dget str_eqb p dj); try contradiction; reflexivity.
  Qed.

  Lemma fill_prop_tracks : forall h p s sj fs d dj fp, schema_shows h true s sj fs -> shows_dict h d dj fp ->
    exists ft fn fp', schema_shows h false s sj fn /\ (forall x, paths ft x + paths fn x <= paths fs x)
      /\ shows_dict h (fill_prop_in ad an ar p s d) (fill_prop ad an ar p sj dj) fp' /\ (forall x, paths fp' x <= paths fp x + paths ft x).
  Proof.
    intros h p s sj fs d dj fp S D. destruct (schema_split h s sj fs S) as (ft & fn & S' & C & E). exists ft, fn.
    destruct (schema_selects h true s sj fs S) as (E1 & E2 & E3 & E4). unfold fill_prop_in, fill_prop. rewrite E1, E2, E3, E4.
    pose proof (shows_dict_get h d dj fp p D) as G.
    assert (Q : (match sget p d with None => true | Some _ => false end) = (match sget p dj with None => true | Some _ => false end)).
    { destruct (sget p d), (sget p dj); try contradiction; reflexivity. }
    assert (Q' : (match sget p d with Some VNull => true | _ => false end) = (match sget p dj with Some v => is_null v | None => false end)).
    { destruct (sget p d) as [w|], (sget p dj) as [y|]; try contradiction; [|reflexivity]. destruct G as (fv & _ & Sv & _). destruct Sv; reflexivity. }
    rewrite Q, Q'. clear G Q Q'.
    assert (K : forall b : bool, exists fp', shows_dict h (if b then sdel p d else d) (if b then sdel p dj else dj) fp' /\ (forall x, paths fp' x <= paths fp x + paths ft x)).
    { intros []; [|exists fp; split; [exact D|intros x; lia]]. destruct (shows_dict_del h d dj fp p D) as (f & F1 & F2). exists f. split; [exact F1|]. intros x. specialize (F2 x). lia. }
    destruct (sdefault s) as [v|], (get_default sj) as [j|]; try contradiction.
    - destruct ((first_defined (get_auto sj) ad && match sget p dj with Some _ => false | None => true end)
        || (first_defined (get_auto_null sj) an && negb (null_in_type (get_type sj)) && match sget p dj with Some v0 => is_null v0 | None => false end)).
      + destruct (shows_dict_set h d dj fp p v j ft D E) as (f & F1 & F2). exists f. split; [exact S'|]. split; [exact C|]. split; [exact F1|exact F2].
      + destruct (K (first_defined (get_remove_null sj) ar && negb (null_in_type (get_type sj)) && match sget p dj with Some v0 => is_null v0 | None => false end)) as (f & F1 & F2).
        exists f. auto.
    - destruct (K (first_defined (get_remove_null sj) ar && negb (null_in_type (get_type sj)) && match sget p dj with Some v0 => is_null v0 | None => false end)) as (f & F1 & F2).
      exists f. auto.
  Qed.
  Lemma fold_fill_tracks : forall h ps psj fs, props_show h ps psj fs -> forall d dj fp, shows_dict h d dj fp ->
    exists ft fn fp', below h ps psj fn /\ (forall x, paths ft x + paths fn x <= paths fs x)
      /\ shows_dict h (fold_left (fun d ps => fill_prop_in ad an ar (fst ps) (snd ps) d) ps d) (fold_left (fun d ps => fill_prop ad an ar (fst ps) (snd ps) d) psj dj) fp'
      /\ (forall x, paths fp' x <= paths fp x + paths ft x).
  Proof.
    intros h ps psj fs H. induction H as [|p s sj fs1 ps psj fs2 Hs Hp IH]; intros d dj fp D.
    - exists [], [], fp. split; [constructor|]. split; [reflexivity|]. split; [exact D|]. intros x. lia.
    - destruct (fill_prop_tracks h p s sj fs1 d dj fp Hs D) as (ft1 & fn1 & fp1 & A1 & A2 & A3 & A4).
      destruct (IH _ _ _ A3) as (ft2 & fn2 & fp2 & B1 & B2 & B3 & B4). exists (ft1 ++ ft2), (fn1 ++ fn2), fp2. cbn [fold_left fst snd].
      split; [constructor; assumption|]. split; [intros x; specialize (A2 x); specialize (B2 x); rewrite !paths_app; lia|].
      split; [exact B3|]. intros x. specialize (A4 x). specialize (B4 x). rewrite paths_app. lia.
  Qed.
  Lemma props_below : forall h ps psj fs, props_show h ps psj fs -> exists fn, below h ps psj fn /\ (forall x, paths fn x <= paths fs x).
  Proof.
    intros h ps psj fs H. induction H as [|p s sj fs1 ps psj fs2 Hs Hp (fn & B & C)].
    - exists []. split; [constructor|reflexivity].
    - destruct (schema_split h s sj fs1 Hs) as (ft & fn1 & S & D & _). exists (fn1 ++ fn). split; [constructor; assumption|].
      intros x. specialize (C x). specialize (D x). rewrite !paths_app. lia.
  Qed.
  Lemma fill_tracks : forall h ps psj fs d dj fp, props_show h ps psj fs -> shows_dict h d dj fp ->
    exists ft fn fp', below h ps psj fn /\ (forall x, paths ft x + paths fn x <= paths fs x)
      /\ shows_dict h (fill_in ad an ar ps d) (fill ad an ar psj dj) fp' /\ (forall x, paths fp' x <= paths fp x + paths ft x).
  Proof.
    intros h ps psj fs d dj fp P D. unfold fill_in, fill, installed. destruct (ad || an || ar); [apply fold_fill_tracks; assumption|].
    destruct (props_below h ps psj fs P) as (fn & B & C). exists [], fn, fp. split; [exact B|]. split; [exact C|]. split; [exact D|]. intros x. lia.
  Qed.

  Definition kw_tracks (k : skw) : Prop := forall kj h v j fp fs, kw_shows h false k kj fs -> shows h v j fp -> unshared (fp ++ fs) ->
    tracks h v fp fs (vkw k h v) (visit_kw ad an ar other kj j).

  Lemma vis_tracks : forall s, (forall k, In k s -> kw_tracks k) -> forall sj h v j fp fs, schema_shows h false s sj fs -> shows h v j fp -> unshared (fp ++ fs) ->
    tracks h v fp fs (vis s h v) (visit ad an ar other sj j).
  Proof.
    induction s as [|k s IH]; intros Hk sj h v j fp fs S V U.
    - inversion S; subst. split; [reflexivity|]. split; [reflexivity|]. split; [reflexivity|]. exists fp. split; [exact V|]. intros x. cbn [paths]. lia.
    - inversion S as [|own k0 kj fk s0 sj0 fs0 S1 S2]; subst. cbn [visit_in visit].
      destruct (Hk k (or_introl eq_refl) kj h v j fp fk S1 V) as (T1 & T2 & T3 & fp1 & T4 & T5).
      { intros x. specialize (U x). rewrite !paths_app in *. lia. }
      destruct (vkw k h v) as [h1 es1]. destruct (visit_kw ad an ar other kj j) as [j1 es1']. cbn [fst snd] in *. subst es1'.
      assert (S2' : schema_shows h1 false s sj0 fs0).
      { apply (schema_frame h _ _ _ _ _ S2). intros x X. apply T3. apply paths_in in X. specialize (U x). rewrite !paths_app in U. lia. }
      destruct (IH (fun k0 I => Hk k0 (or_intror I)) sj0 h1 v j1 fp1 fs0 S2' T4) as (R1 & R2 & R3 & fp2 & R4 & R5).
      { intros x. specialize (U x). specialize (T5 x). rewrite !paths_app in *. lia. }
      destruct (vis s h1 v) as [h2 es2]. destruct (visit ad an ar other sj0 j1) as [j2 es2']. cbn [fst snd] in *. subst es2'.
      split; [reflexivity|]. split; [cbn [fst]; congruence|]. cbn [fst]. split.
      + intros x Z. rewrite paths_app in Z. rewrite R3; [apply T3; lia|]. specialize (T5 x). lia.
      + exists fp2. split; [exact R4|]. intros x. specialize (R5 x). specialize (T5 x). rewrite paths_app. lia.
  Qed.

  Lemma props_track : forall a ps, (forall p s k, In (p, s) ps -> In k s -> kw_tracks k) -> forall psj h d dj fp fn,
    below h ps psj fn -> nth_error h a = Some (ODict d) -> shows_dict h d dj fp -> unshared (a :: fp ++ fn) ->
    snd (visit_props_in a ps h) = snd (visit_props ad an ar other psj dj) /\ length (fst (visit_props_in a ps h)) = length h /\
    (forall x, x <> a -> paths fp x + paths fn x = 0 -> nth_error (fst (visit_props_in a ps h)) x = nth_error h x) /\
    exists d' fp', nth_error (fst (visit_props_in a ps h)) a = Some (ODict d') /\ shows_dict (fst (visit_props_in a ps h)) d' (fst (visit_props ad an ar other psj dj)) fp'
      /\ forall x, paths fp' x <= paths fp x + paths fn x.
  Proof.
    intros a ps. induction ps as [|[p s] ps IH]; intros Hk psj h d dj fp fn B N D U; inversion B as [|p0 s0 sj f1 ps0 psj0 f2 B1 B2]; subst; cbn [visit_props_in visit_props].
    - split; [reflexivity|]. split; [reflexivity|]. split; [reflexivity|]. exists d, fp. split; [exact N|]. split; [exact D|]. intros x. lia.
    - cbn [as_dict]. rewrite N. pose proof (shows_dict_get h d dj fp p D) as G.
      assert (Hk' : forall p0 s0 k, In (p0, s0) ps -> In k s0 -> kw_tracks k) by (intros p0 s0 k I; apply (Hk p0 s0 k (or_intror I))).
      destruct (sget p d) as [v|] eqn:Ed.
      + destruct (sget p dj) as [j|]; [|contradiction]. destruct G as (fv & rest & V & C & Up).
        assert (UU : forall x, (if Nat.eq_dec a x then 1 else 0) + paths fv x + paths rest x + paths f1 x + paths f2 x <= 1).
        { intros x. specialize (U x). specialize (C x). rewrite paths_cons, paths_one, !paths_app in U. lia. }
        destruct (vis_tracks s (fun k I => Hk p s k (or_introl eq_refl) I) sj h v j fv f1 B1 V) as (T1 & T2 & T3 & fv' & T4 & T5).
        { intros x. specialize (UU x). rewrite paths_app. lia. }
        destruct (vis s h v) as [h1 es1]. destruct (visit ad an ar other sj j) as [j1 es1']. cbn [fst snd] in *. subst es1'.
        assert (N1 : nth_error h1 a = Some (ODict d)).
        { rewrite T3; [exact N|]. specialize (UU a). destruct (Nat.eq_dec a a); [lia|congruence]. }
        destruct (Up h1 v j1 fv' T4) as (fp1 & D1 & C1).
        { intros x X. apply T3. apply paths_in in X. specialize (UU x). lia. }
        rewrite (sset_same _ p v d Ed) in D1.
        assert (B2' : below h1 ps psj0 f2).
        { apply (below_frame h _ _ _ _ B2). intros x X. apply T3. apply paths_in in X. specialize (UU x). lia. }
        destruct (IH Hk' psj0 h1 d (sset p j1 dj) fp1 f2 B2' N1 D1) as (R1 & R2 & R3 & d' & fp' & R4 & R5 & R6).
        { intros x. rewrite paths_cons, paths_one, paths_app, C1. specialize (UU x). specialize (T5 x). lia. }
        destruct (visit_props_in a ps h1) as [h2 es2]. destruct (visit_props ad an ar other psj0 (sset p j1 dj)) as [dj2 es2']. cbn [fst snd] in *. subst es2'.
        split; [reflexivity|]. split; [congruence|]. split.
        * intros x Z1 Z2. rewrite paths_app in Z2. specialize (C x). rewrite R3; [apply T3; lia|exact Z1|]. specialize (C1 x). specialize (T5 x). lia.
        * exists d', fp'. split; [exact R4|]. split; [exact R5|]. intros x. specialize (R6 x). specialize (C x). specialize (C1 x). specialize (T5 x). rewrite paths_app. lia.
      + destruct (sget p dj) as [j|]; [contradiction|]. destruct (IH Hk' psj0 h d dj fp f2 B2 N D) as (R1 & R2 & R3 & d' & fp' & R4 & R5 & R6).
        { intros x. specialize (U x). rewrite paths_cons, !paths_app in *. lia. }
        split; [exact R1|]. split; [exact R2|]. split.
        * intros x Z1 Z2. apply R3; [exact Z1|]. rewrite paths_app in Z2. lia.
        * exists d', fp'. split; [exact R4|]. split; [exact R5|]. intros x. specialize (R6 x). rewrite paths_app. lia.
  Qed.

  Lemma all_kw_track : forall k, kw_tracks k.
  Proof.
    apply skw_ind'.
    - intros ps Hk kj h v j fp fs K V U. inversion K as [| |own ps0 psj fs0 P| | | | | |]; subst. rewrite vkw_props.
      destruct V as [|?|?|?|a d dj fp E D|a l lj fp E D]; try (split; [reflexivity|]; split; [reflexivity|]; split; [reflexivity|]; exists []; split; [constructor|]; intros x; rewrite paths_nil; lia).
      + cbn [as_dict]. rewrite E. rewrite visit_kw_props.
        destruct (fill_tracks h ps psj fs d dj fp P D) as (ft & fn & fp1 & A1 & A2 & A3 & A4).
        set (d1 := fill_in ad an ar ps d) in *. set (h1 := store a (ODict d1) h).
        assert (L : a < length h) by (apply nth_error_Some; congruence).
        assert (UU : forall x, (if Nat.eq_dec a x then 1 else 0) + paths fp x + paths fs x <= 1).
        { intros x. specialize (U x). cbn [app] in U. rewrite paths_cons, paths_one, paths_app in U. lia. }
        assert (NA : forall x, 1 <= paths fp x + paths fs x -> a <> x) by (intros x Z Y; specialize (UU x); destruct (Nat.eq_dec a x); [lia|contradiction]).
        assert (D1 : shows_dict h1 d1 (fill ad an ar psj dj) fp1).
        { apply (shows_dict_frame h _ _ _ _ A3). intros x X. apply store_there. apply paths_in in X. apply NA. specialize (A4 x). specialize (A2 x). lia. }
        assert (B1 : below h1 ps psj fn).
        { apply (below_frame h _ _ _ _ A1). intros x X. apply store_there. apply paths_in in X. apply NA. specialize (A2 x). lia. }
        destruct (props_track a ps Hk psj h1 d1 _ fp1 fn B1 (store_here _ _ _ L) D1) as (R1 & R2 & R3 & d' & fp' & R4 & R5 & R6).
        { intros x. rewrite paths_cons, paths_one, paths_app. specialize (UU x). specialize (A4 x). specialize (A2 x). lia. }
        destruct (visit_props_in a ps h1) as [h2 es2]. destruct (visit_props ad an ar other psj _) as [dj2 es2']. cbn [fst snd] in *. subst es2'.
        split; [reflexivity|]. split; [cbn [fst]; rewrite R2; apply store_length|]. cbn [fst]. split.
        * intros x Z. rewrite paths_cons, paths_one in Z. assert (x <> a) by (intros ->; destruct (Nat.eq_dec a a); [lia|congruence]).
          rewrite R3; [apply store_there; congruence|assumption|]. specialize (A4 x). specialize (A2 x). lia.
        * exists (a :: fp'). split; [apply (Sh_dict _ _ d'); assumption|]. intros x. rewrite (paths_cons a fp'), (paths_cons a fp). specialize (R6 x). specialize (A4 x). specialize (A2 x). lia.
      + cbn [as_dict]. rewrite E. split; [reflexivity|]. split; [reflexivity|]. split; [reflexivity|]. exists (a :: fp).
        split; [apply (Sh_list _ _ l); assumption|]. intros x. lia.
    - intros k NP kj h v j fp fs K V U. assert (X : exists fp', shows h v j fp' /\ forall x, paths fp' x <= paths fp x + paths fs x) by (exists fp; split; [exact V|intros x; lia]).
      destruct K; try contradiction; cbn [visit_kw_in visit_kw]; (split; [cbn [fst snd]|split; [reflexivity|split; [reflexivity|exact X]]]); try reflexivity.
      + assert (T : forall ts, existsb (is_type_in h v) ts = existsb (is_type j) ts).
        { induction ts0 as [|t ts0 IH]; [reflexivity|]. cbn [existsb]. rewrite (shows_type h v j fp t V), IH. reflexivity. }
        rewrite T. reflexivity.
      + destruct V as [| | | |a d dj fp E D|a l lj fp E D]; try reflexivity; cbn [as_dict]; rewrite E; [|reflexivity].
        apply flat_map_ext. intros p. rewrite (shows_missing h d dj fp p D). reflexivity.
      + rewrite (Hother n h v j fp V). reflexivity.
  Qed.
  Theorem visit_tracks : forall s sj h v j fp fs, schema_shows h false s sj fs -> shows h v j fp -> unshared (fp ++ fs) ->
    tracks h v fp fs (vis s h v) (visit ad an ar other sj j).
  Proof. intros s. apply vis_tracks. intros k _. apply all_kw_track. Qed.
End Visit.

(** ** Building *)
Section Build.
  Variable other_in : nat -> heap -> value -> list nat.
  Variable other : nat -> json -> list nat.
  Hypothesis Hother : forall n h v j fp, shows h v j fp -> other_in n h v = other n j.

  Lemma subs_frame : forall h h' pre subs ms fp, subs_show h pre subs ms fp -> (forall x, In x fp -> nth_error h' x = nth_error h x) -> subs_show h' pre subs ms fp.
  Proof.
    intros h h' pre subs ms fp H. induction H as [|s fs m j fp subs ms fp' Hs Hm Hr IH]; intros K; constructor.
    - apply (schema_frame h _ _ _ _ _ Hs). intros x X. apply K. apply in_or_app. auto.
    - apply (shows_frame h _ _ _ _ Hm). intros x X. apply K. apply in_or_app. right. apply in_or_app. auto.
    - apply IH. intros x X. apply K. apply in_or_app. right. apply in_or_app. auto.
  Qed.
  Lemma subs_paths : forall h pre subs ms fp x, subs_show h pre subs ms fp -> length h <= x -> paths fp x = 0.
  Proof.
    intros h pre subs ms fp x H L. induction H as [|s fs m j fp subs ms fp' Hs Hm Hr IH]; [reflexivity|].
    rewrite !paths_app, IH, (schema_paths _ _ _ _ _ _ Hs L), (shows_paths _ _ _ _ _ Hm L). reflexivity.
  Qed.

  Lemma prevalidate_tracks : forall h pre subs ms fp, subs_show h pre subs ms fp -> unshared fp ->
    snd (prevalidate_in other_in subs h) = snd (prevalidate other pre ms) /\ length (fst (prevalidate_in other_in subs h)) = length h /\
    (forall x, paths fp x = 0 -> nth_error (fst (prevalidate_in other_in subs h)) x = nth_error h x) /\
    exists fl, shows_list (fst (prevalidate_in other_in subs h)) (map snd subs) (fst (prevalidate other pre ms)) fl /\ forall x, paths fl x <= paths fp x.
  Proof.
    intros h pre subs ms fp H. revert h H. revert ms fp. induction subs as [|[s m] subs IH]; intros ms fp h H U; inversion H as [|s0 fs m0 j f1 subs0 ms0 f2 Hs Hm Hr]; subst.
    - split; [reflexivity|]. split; [reflexivity|]. split; [reflexivity|]. exists []. split; [constructor|reflexivity].
    - assert (UU : forall x, paths fs x + paths f1 x + paths f2 x <= 1) by (intros x; specialize (U x); rewrite !paths_app in U; lia).
      cbn [prevalidate_in]. unfold check_in. destruct (visit_tracks true false false other_in other Hother s pre h m j f1 fs Hs Hm) as (T1 & T2 & T3 & f1' & T4 & T5).
      { intros x. specialize (UU x). rewrite paths_app. lia. }
      destruct (visit_in true false false other_in s h m) as [h1 es1]. cbn [fst snd] in *.
      assert (Hr' : subs_show h1 pre subs ms0 f2).
      { apply (subs_frame h _ _ _ _ _ Hr). intros x X. apply T3. apply paths_in in X. specialize (UU x). lia. }
      destruct (IH ms0 f2 h1 Hr') as (R1 & R2 & R3 & fl & R4 & R5). { intros x. specialize (UU x). lia. }
      destruct (prevalidate_in other_in subs h1) as [h2 es2]. cbn [fst snd] in *. subst es1 es2.
      split; [reflexivity|]. split; [congruence|]. split.
      + intros x Z. rewrite !paths_app in Z. rewrite R3 by lia. apply T3. lia.
      + exists (f1' ++ fl). split.
        * constructor; [|exact R4]. apply (shows_frame h1 _ _ _ _ T4). intros x X. apply R3. apply paths_in in X. specialize (UU x). specialize (T5 x). lia.
        * intros x. specialize (R5 x). specialize (T5 x). rewrite !paths_app. lia.
  Qed.

  Lemma curate_tracks : forall fs_in fs, Forall2 curates fs_in fs -> forall h v j fp, shows h v j fp -> unshared fp ->
    exists h' v' fp', curate_in fs_in h v = (h', v', snd (curate fs j)) /\ shows h' v' (fst (curate fs j)) fp' /\ unshared fp'.
  Proof.
    intros fs_in fs H. induction H as [|f_in f fs_in fs Hf Hfs IH]; intros h v j fp V U; cbn [curate_in curate].
    - exists h, v, fp. split; [reflexivity|]. split; [exact V|exact U].
    - destruct (Hf h v j fp V U) as (h1 & v1 & f1 & E & V1 & U1). rewrite E. destruct (f j) as [j1 [e|]]; cbn [fst snd] in *.
      + exists h1, v1, f1. split; [reflexivity|]. split; [exact V1|exact U1].
      + apply (IH h1 v1 j1 f1 V1 U1).
  Qed.

  Theorem build_tracks : forall full fullj funcs_in funcs pre ms, Forall2 curates funcs_in funcs ->
    exists N, forall fuel, N <= fuel -> forall h subs fp ff, subs_show h pre subs ms fp -> schema_shows h false full fullj ff -> unshared (fp ++ ff) ->
      i_errors (build_in other_in fuel full funcs_in subs h) = b_errors (build_iter other pre fullj funcs ms) /\
      exists fp', shows (i_heap (build_in other_in fuel full funcs_in subs h)) (i_model (build_in other_in fuel full funcs_in subs h)) (b_model (build_iter other pre fullj funcs ms)) fp' /\ unshared fp'.
  Proof.
    intros full fullj funcs_in funcs pre ms HF. destruct (merge_all_refines (fst (prevalidate other pre ms)) JNull) as (N & HN). exists N.
    intros fuel L h subs fp ff HS HFull U.
    assert (UU : forall x, paths fp x + paths ff x <= 1) by (intros x; specialize (U x); rewrite paths_app in U; lia).
    destruct (prevalidate_tracks h pre subs ms fp HS) as (T1 & T2 & T3 & fl & T4 & T5). { intros x. specialize (UU x). lia. }
    unfold build_in, build_iter. destruct (prevalidate_in other_in subs h) as [h1 es1]. destruct (prevalidate other pre ms) as [ms1 es1']. cbn [fst snd] in *. subst es1'.
    destruct es1 as [|e1 es1].
    2: { split; [reflexivity|]. exists []. split; [constructor|]. intros x. rewrite paths_nil. lia. }
    destruct (HN fuel L h1 h1 VNull (map snd subs) [] [] fl T4 (grown_refl h1) (Sh_null h1)) as (h2 & m2 & f2 & E2 & G2 & S2 & F2).
    { intros x. rewrite paths_nil. lia. }
    rewrite E2. destruct (merge_all JNull ms1) as [j2 [e|]]; cbn [fst snd] in *.
    - split; [reflexivity|]. exists f2. split; [exact S2|]. intros x. destruct (F2 x) as (F21 & F22). cbn [app] in *. specialize (T5 x). specialize (UU x).
      destruct (Nat.lt_ge_cases x (length h1)); [specialize (F21 ltac:(assumption))|specialize (F22 ltac:(assumption))]; lia.
    - assert (HFull2 : schema_shows h2 false full fullj ff).
      { apply (schema_frame h _ _ _ _ _ HFull). intros x X. rewrite (grown_at _ _ _ G2).
        - apply T3. apply paths_in in X. specialize (UU x). lia.
        - rewrite T2. exact (proj1 (proj2 (schema_within_mut h)) _ _ _ _ HFull x X). }
      assert (U2 : unshared (f2 ++ ff)).
      { intros x. rewrite paths_app. destruct (F2 x) as (F21 & F22). cbn [app] in *. specialize (T5 x). specialize (UU x).
        destruct (Nat.lt_ge_cases x (length h1)) as [Z|Z]; [specialize (F21 Z); lia|]. specialize (F22 Z). rewrite T2 in Z. rewrite (schema_paths _ _ _ _ _ _ HFull Z). lia. }
      unfold check_in, check.
      destruct (visit_tracks true false false other_in other Hother full fullj h2 m2 j2 f2 ff HFull2 S2 U2) as (R1 & R2 & R3 & f3 & R4 & R5).
      destruct (visit_in true false false other_in full h2 m2) as [h3 es3]. destruct (visit true false false other fullj j2) as [j3 es3']. cbn [fst snd] in *. subst es3'.
      assert (U3 : unshared f3) by (intros x; specialize (U2 x); specialize (R5 x); rewrite paths_app in U2; lia).
      destruct es3 as [|e3 es3]. 2: { split; [reflexivity|]. exists f3. split; [exact R4|exact U3]. }
      destruct (curate_tracks funcs_in funcs HF h3 m2 j3 f3 R4 U3) as (h4 & m4 & f4 & E4 & S4 & U4). rewrite E4.
      destruct (curate funcs j3) as [j4 [e|]]; cbn [fst snd] in *; (split; [reflexivity|]; exists f4; split; [exact S4|exact U4]).
  Qed.
End Build.

(** ** Without defaults *)
Lemma only_nulls_refl : forall d, only_nulls d d.
Proof. induction d; constructor; assumption. Qed.
Lemma only_nulls_trans : forall a b, only_nulls a b -> forall c, only_nulls b c -> only_nulls a c.
Proof.
  intros a b H. induction H as [|kv d d' H IH|k d d' H IH]; intros c C; [exact C| |].
  - inversion C as [|kv0 d0 c' C'|k d0 c' C']; subst; [apply On_keep|apply On_null]; apply IH; assumption.
  - apply On_null. apply IH. exact C.
Qed.
Lemma only_nulls_in : forall a b, only_nulls a b -> forall x, In x (map fst b) -> In x (map fst a).
Proof. intros a b H. induction H as [|kv d d' H IH|k d d' H IH]; intros x X; [exact X| |]; cbn in *; [destruct X|]; auto. Qed.
Lemma only_nulls_nodup : forall a b, only_nulls a b -> NoDup (map fst a) -> NoDup (map fst b).
Proof.
  intros a b H. induction H as [|kv d d' H IH|k d d' H IH]; intros N; cbn in *; [constructor| |]; inversion N as [|y l N1 N2]; subst; [|auto].
  constructor; [|auto]. intros X. apply N1. apply (only_nulls_in _ _ H). exact X.
Qed.
Lemma sdel_absent : forall V k (d : list (pystr * V)), ~ In k (map fst d) -> sdel k d = d.
Proof.
  intros V k d. unfold sdel. induction d as [|[k0 v] d IH]; intros N; cbn [ddel]; [reflexivity|]. destruct (str_eqb k k0) eqn:E.
  - apply str_eqb_eq in E. subst. exfalso. apply N. left. reflexivity.
  - rewrite IH; [reflexivity|]. intros X. apply N. right. exact X.
Qed.
Lemma sdel_null : forall k d, NoDup (map fst d) -> sget k d = Some VNull -> only_nulls d (sdel k d).
Proof.
  intros k d. unfold sget, sdel. induction d as [|[k0 v] d IH]; intros N E; [discriminate E|]. cbn [dget ddel] in *. inversion N as [|y l N1 N2]; subst.
  destruct (str_eqb k k0) eqn:Q.
  - injection E as ->. apply On_null. apply str_eqb_eq in Q. subst. pose proof (sdel_absent value k0 d N1) as A. unfold sdel in A. rewrite A. apply only_nulls_refl.
  - apply On_keep. apply IH; assumption.
Qed.

Lemma lost_refl : forall h, lost_only_nulls h h.
Proof. intros h x o H. exists o. split; [exact H|constructor]. Qed.
Lemma lost_trans : forall a b c, lost_only_nulls a b -> lost_only_nulls b c -> lost_only_nulls a c.
Proof.
  intros a b c H1 H2 x o E. destruct (H1 x o E) as (o1 & E1 & L1). destruct (H2 x o1 E1) as (o2 & E2 & L2). exists o2. split; [exact E2|].
  destruct L1 as [o|d d' D]; [exact L2|]. remember (ODict d') as od eqn:O. destruct L2 as [o|d0 d2 D2]; [subst; constructor; exact D|].
  injection O as ->. constructor. exact (only_nulls_trans _ _ D _ D2).
Qed.
Lemma lost_kept : forall a b, kept a b -> lost_only_nulls a b.
Proof. intros a b K x o E. exists o. split; [apply K; exact E|constructor]. Qed.
Lemma lost_sound : forall a b, lost_only_nulls a b -> length b = length a -> dicts_sound a -> dicts_sound b.
Proof.
  intros a b L Len S x d E. destruct (nth_error a x) as [o|] eqn:A.
  - destruct (L x o A) as (o' & E' & Q). rewrite E in E'. injection E' as <-. remember (ODict d) as od eqn:O. destruct Q as [o|d0 d' D]; [subst; exact (S _ _ A)|].
    injection O as ->. exact (only_nulls_nodup _ _ D (S _ _ A)).
  - apply nth_error_None in A. assert (x < length b) by (apply nth_error_Some; congruence). lia.
Qed.

Lemma default_more : forall s s' v, (forall k, In k s -> In k s') -> default_of s v -> default_of s' v.
Proof.
  intros s s' v H D. destruct D as [s ps p sub v I1 I2 I3|s ps p sub v I1 I2 I3].
  - exact (Do_here s' ps p sub v (H _ I1) I2 I3).
  - exact (Do_below s' ps p sub v (H _ I1) I2 I3).
Qed.

Section NoDefaults.
  Variables ad an ar : bool.
  Variable other_in : nat -> heap -> value -> list nat.
  Notation vkw := (visit_kw_in ad an ar other_in).
  Notation vis := (visit_in ad an ar other_in).

  Lemma sdefault_in : forall s v, sdefault s = Some v -> In (SDefault v) s.
  Proof.
    induction s as [|k s IH]; intros v E; [discriminate E|]. unfold sdefault in *. cbn [skw_get] in E. destruct k; try (right; apply IH; exact E).
    injection E as ->. left. reflexivity.
  Qed.
  Lemma fill_loses : forall ps d, (forall p s v, In (p, s) ps -> ~ In (SDefault v) s) -> NoDup (map fst d) -> only_nulls d (fill_in ad an ar ps d).
  Proof.
    intros ps d H N. unfold fill_in. destruct (ad || an || ar); [|apply only_nulls_refl]. revert d N. induction ps as [|[p s] ps IH]; intros d N; [apply only_nulls_refl|].
    cbn [fold_left fst snd]. assert (D : only_nulls d (fill_prop_in ad an ar p s d)).
    { unfold fill_prop_in. destruct (sdefault s) as [v|] eqn:E. { exfalso. exact (H p s v (or_introl eq_refl) (sdefault_in _ _ E)). }
      destruct (first_defined (sremove_null s) ar && negb (null_in_type (stype s))); [|apply only_nulls_refl]. cbn [andb].
      destruct (sget p d) as [[]|] eqn:G; try apply only_nulls_refl. apply sdel_null; assumption. }
    apply (only_nulls_trans _ _ D). apply IH; [|exact (only_nulls_nodup _ _ D N)]. intros p0 s0 v I. apply (H p0 s0 v). right. exact I.
  Qed.

  Definition kw_loses (k : skw) : Prop := no_default [k] -> forall h v, dicts_sound h -> lost_only_nulls h (fst (vkw k h v)) /\ length (fst (vkw k h v)) = length h.
  Lemma vis_loses : forall s, (forall k, In k s -> kw_loses k) -> no_default s -> forall h v, dicts_sound h ->
    lost_only_nulls h (fst (vis s h v)) /\ length (fst (vis s h v)) = length h.
  Proof.
    induction s as [|k s IH]; intros Hk N h v S. { split; [apply lost_refl|reflexivity]. }
    cbn [visit_in].
    assert (Nk : no_default [k]) by (intros w X; apply (N w); apply (default_more [k] (k :: s)); [intros k0 [<-|[]]; left; reflexivity|exact X]).
    assert (Ns : no_default s) by (intros w X; apply (N w); apply (default_more s (k :: s)); [intros k0 I; right; exact I|exact X]).
    destruct (Hk k (or_introl eq_refl) Nk h v S) as (L1 & L2). destruct (vkw k h v) as [h1 es1]. cbn [fst] in *.
    destruct (IH (fun k0 I => Hk k0 (or_intror I)) Ns h1 v (lost_sound _ _ L1 L2 S)) as (R1 & R2). destruct (vis s h1 v) as [h2 es2]. cbn [fst] in *.
    split; [exact (lost_trans _ _ _ L1 R1)|congruence].
  Qed.
  Lemma all_kw_lose : forall k, kw_loses k.
  Proof.
    apply skw_ind'.
    - intros ps Hk N h v S. rewrite vkw_props. destruct v as [| | | |a]; try (split; [apply lost_refl|reflexivity]).
      destruct (as_dict h (VRef a)) as [d|] eqn:D; [|split; [apply lost_refl|reflexivity]].
      assert (E : nth_error h a = Some (ODict d)). { cbn [as_dict] in D. destruct (nth_error h a) as [[d0|l]|]; congruence. }
      assert (F : only_nulls d (fill_in ad an ar ps d)).
      { apply fill_loses; [|exact (S _ _ E)]. intros p s w I1 I2. apply (N w). apply (Do_here _ ps p s w); [left; reflexivity|exact I1|exact I2]. }
      assert (L1 : lost_only_nulls h (store a (ODict (fill_in ad an ar ps d)) h)).
      { intros x o X. destruct (Nat.eq_dec a x) as [->|NX].
        - rewrite store_here by (apply nth_error_Some; congruence). eexists. split; [reflexivity|]. rewrite E in X. injection X as <-. constructor. exact F.
        - rewrite store_there by exact NX. exists o. split; [exact X|constructor]. }
      assert (L2 : length (store a (ODict (fill_in ad an ar ps d)) h) = length h) by apply store_length.
      assert (P : forall ps, (forall p s k, In (p, s) ps -> In k s -> kw_loses k) -> (forall p s, In (p, s) ps -> no_default s) -> forall h, dicts_sound h ->
        lost_only_nulls h (fst (visit_props_in ad an ar other_in a ps h)) /\ length (fst (visit_props_in ad an ar other_in a ps h)) = length h).
      { clear. induction ps as [|[p s] ps IH]; intros Hk N h S; cbn [visit_props_in]. { split; [apply lost_refl|reflexivity]. }
        assert (Hk' : forall p0 s0 k, In (p0, s0) ps -> In k s0 -> kw_loses k) by (intros p0 s0 k I; apply (Hk p0 s0 k (or_intror I))).
        assert (N' : forall p0 s0, In (p0, s0) ps -> no_default s0) by (intros p0 s0 I; apply (N p0 s0 (or_intror I))).
        destruct (as_dict h (VRef a)) as [d|]; [|split; [apply lost_refl|reflexivity]]. destruct (sget p d) as [v|]; [|apply (IH Hk' N' h S)].
        destruct (vis_loses s (fun k I => Hk p s k (or_introl eq_refl) I) (N p s (or_introl eq_refl)) h v S) as (L1 & L2).
        destruct (vis s h v) as [h1 es1]. cbn [fst] in *. destruct (IH Hk' N' h1 (lost_sound _ _ L1 L2 S)) as (R1 & R2).
        destruct (visit_props_in ad an ar other_in a ps h1) as [h2 es2]. cbn [fst] in *. split; [exact (lost_trans _ _ _ L1 R1)|congruence]. }
      destruct (P ps Hk) with (h := store a (ODict (fill_in ad an ar ps d)) h) as (R1 & R2).
      + intros p s I w X. apply (N w). apply (Do_below _ ps p s w); [left; reflexivity|exact I|exact X].
      + exact (lost_sound _ _ L1 L2 S).
      + split; [exact (lost_trans _ _ _ L1 R1)|congruence].
    - intros k NP N h v S. destruct k; try contradiction; (split; [apply lost_refl|reflexivity]).
  Qed.
  Theorem visit_loses : forall s, no_default s -> forall h v, dicts_sound h -> lost_only_nulls h (fst (vis s h v)) /\ length (fst (vis s h v)) = length h.
  Proof. intros s. apply vis_loses. intros k _. apply all_kw_lose. Qed.
End NoDefaults.

(** Merging makes sound dictionaries. *)
Lemma sound_new : forall h o, dicts_sound h -> (forall d, o = ODict d -> NoDup (map fst d)) -> dicts_sound (h ++ [o]).
Proof.
  intros h o S N a d E. destruct (Nat.lt_ge_cases a (length h)) as [L|L].
  - rewrite nth_error_app1 in E by exact L. exact (S a d E).
  - rewrite nth_error_app2 in E by exact L. destruct (a - length h) as [|[|]]; cbn in E; try discriminate E. injection E as ->. apply N. reflexivity.
Qed.
Lemma copied_sound : forall h v d, dicts_sound h -> copied h v = Ok d -> NoDup (map fst d).
Proof.
  intros h v d S E. unfold copied in E. destruct v as [| | | |a]; try discriminate E; [injection E as <-; constructor|]. cbn [as_dict] in E.
  destruct (nth_error h a) as [[d0|l]|] eqn:N; try discriminate E. injection E as <-. exact (S _ _ N).
Qed.
Lemma merge_in_sound : forall fuel h a b h' r, dicts_sound h -> merge_in fuel h a b = (h', r) -> dicts_sound h'.
Proof.
  induction fuel as [|fuel IH]; intros h a b h' r S E. { injection E as <- _. exact S. }
  rewrite merge_in_S in E.
  assert (K : forall db h da h' r, dicts_sound h -> NoDup (map fst da) -> keys_in (merge_in fuel) db h da = (h', r) -> dicts_sound h' /\ forall d, r = Ok d -> NoDup (map fst d)).
  { clear - IH. induction db as [|[k bv] db IHd]; intros h da h' r S N E; cbn [keys_in] in E. { injection E as <- <-. split; [exact S|]. intros d X. injection X as <-. exact N. }
    assert (NS : forall v, NoDup (map fst (sset k v da))) by (intros v; apply (NoDup_dset str_eqb str_eqb_eq); exact N).
    destruct (sget k da) as [av|]; [|exact (IHd _ _ _ _ S (NS _) E)]. destruct (merge_in fuel h av bv) as [h1 [v|e]] eqn:M.
    - exact (IHd _ _ _ _ (IH _ _ _ _ _ S M) (NS _) E).
    - injection E as <- <-. split; [exact (IH _ _ _ _ _ S M)|discriminate]. }
  assert (L : forall l h h' r, dicts_sound h -> elems_in (merge_in fuel) l h = (h', r) -> dicts_sound h').
  { clear - IH. induction l as [|x l IHl]; intros h h' r S E; cbn [elems_in] in E. { injection E as <- _. exact S. }
    destruct (merge_in fuel h x VNull) as [h1 [v|e]] eqn:M.
    - destruct (elems_in (merge_in fuel) l h1) as [h2 [r2|e2]] eqn:N; injection E as <- _; exact (IHl _ _ _ (IH _ _ _ _ _ S M) N).
    - injection E as <- _. exact (IH _ _ _ _ _ S M). }
  destruct (is_some (as_dict h a) || is_some (as_dict h b)).
  - destruct (copied h a) as [da|] eqn:CA; [|injection E as <- _; exact S]. destruct (copied h b) as [db|]; [|injection E as <- _; exact S].
    destruct (keys_in (merge_in fuel) db h da) as [h1 [d|e]] eqn:M; apply (K _ _ _ _ _ S (copied_sound _ _ _ S CA)) in M; destruct M as (M1 & M2).
    + unfold new in E. injection E as <- _. apply sound_new; [exact M1|]. intros d0 X. injection X as <-. apply M2. reflexivity.
    + injection E as <- _. exact M1.
  - destruct (is_some (as_list h a) || is_some (as_list h b)); [|injection E as <- _; exact S].
    destruct (items h _) as [l|]; [|injection E as <- _; exact S].
    destruct (elems_in (merge_in fuel) l h) as [h1 [d|e]] eqn:M; apply (L _ _ _ _ S) in M.
    + unfold new in E. injection E as <- _. apply sound_new; [exact M|]. discriminate.
    + injection E as <- _. exact M.
Qed.
Lemma merge_all_in_sound : forall fuel ms h m h' m' r, dicts_sound h -> merge_all_in fuel h m ms = (h', m', r) -> dicts_sound h'.
Proof.
  induction ms as [|x ms IH]; intros h m h' m' r S E; cbn [merge_all_in] in E. { injection E as <- _ _. exact S. }
  destruct (merge_in fuel h m x) as [h1 [v|e]] eqn:M; apply (merge_in_sound _ _ _ _ _ _ S) in M.
  - exact (IH _ _ _ _ _ M E).
  - injection E as <- _ _. exact M.
Qed.
Lemma prevalidate_loses : forall other_in subs h, (forall s m, In (s, m) subs -> no_default s) -> dicts_sound h ->
  lost_only_nulls h (fst (prevalidate_in other_in subs h)) /\ length (fst (prevalidate_in other_in subs h)) = length h.
Proof.
  intros other_in subs. induction subs as [|[s m] subs IH]; intros h N S; cbn [prevalidate_in]. { split; [apply lost_refl|reflexivity]. }
  unfold check_in. destruct (visit_loses true false false other_in s (N s m (or_introl eq_refl)) h m S) as (L1 & L2).
  destruct (visit_in true false false other_in s h m) as [h1 es1]. cbn [fst] in *.
  destruct (IH h1 (fun s0 m0 I => N s0 m0 (or_intror I)) (lost_sound _ _ L1 L2 S)) as (R1 & R2). destruct (prevalidate_in other_in subs h1) as [h2 es2]. cbn [fst] in *.
  split; [exact (lost_trans _ _ _ L1 R1)|congruence].
Qed.
Theorem build_loses : forall other_in fuel full subs h, (forall s m, In (s, m) subs -> no_default s) -> no_default full -> dicts_sound h ->
  lost_only_nulls h (i_heap (build_in other_in fuel full [] subs h)).
Proof.
  intros other_in fuel full subs h N NF S. unfold build_in. destruct (prevalidate_loses other_in subs h N S) as (L1 & L2).
  destruct (prevalidate_in other_in subs h) as [h1 es1]. cbn [fst] in *. destruct es1 as [|e1 es1]; [|exact L1].
  pose proof (lost_sound _ _ L1 L2 S) as S1. destruct (merge_all_in fuel h1 VNull (map snd subs)) as [[h2 m2] r2] eqn:M.
  pose proof (merge_all_in_sound _ _ _ _ _ _ _ S1 M) as S2. apply merge_all_in_grows in M. apply grown_kept in M. apply lost_kept in M.
  pose proof (lost_trans _ _ _ L1 M) as L. destruct r2 as [e|]; [exact L|]. unfold check_in.
  destruct (visit_loses true false false other_in full NF h2 m2 S2) as (L3 & L4). destruct (visit_in true false false other_in full h2 m2) as [h3 es3]. cbn [fst] in *.
  pose proof (lost_trans _ _ _ L L3) as L'. destruct es3 as [|e3 es3]; exact L'.
Qed.

(** ** What is new *)
Lemma node_grown : forall p h h' v w, grown h h' -> node h v p = Some w -> node h' v p = Some w.
Proof.
  induction p as [|k p IH]; intros h h' v w G E; [exact E|]. cbn [node] in *. destruct (as_dict h v) as [d|] eqn:D; [|discriminate E].
  assert (D' : as_dict h' v = Some d).
  { destruct v as [| | | |a]; try discriminate D. cbn [as_dict] in *. destruct (nth_error h a) as [o|] eqn:O; [|discriminate D]. rewrite (grown_kept _ _ G a o O). exact D. }
  rewrite D'. destruct (sget k d) as [x|]; [|discriminate E]. exact (IH _ _ _ _ G E).
Qed.
Lemma as_dict_grown : forall h h' v d, grown h h' -> as_dict h v = Some d -> as_dict h' v = Some d.
Proof.
  intros h h' v d G D. destruct v as [| | | |a]; try discriminate D. cbn [as_dict] in *. destruct (nth_error h a) as [o|] eqn:O; [|discriminate D]. rewrite (grown_kept _ _ G a o O). exact D.
Qed.
Lemma keys_in_other : forall fuel db h da h' d k, keys_in (merge_in fuel) db h da = (h', Ok d) -> ~ In k (map fst db) -> sget k d = sget k da.
Proof.
  intros fuel db. induction db as [|[k0 bv] db IH]; intros h da h' d k E N; cbn [keys_in] in E. { injection E as _ <-. reflexivity. }
  assert (NE : k0 <> k) by (intros ->; apply N; left; reflexivity). assert (N' : ~ In k (map fst db)) by (intros X; apply N; right; exact X).
  destruct (sget k0 da) as [av|]; [destruct (merge_in fuel h av bv) as [h1 [v|e]]; [|discriminate E]|]; rewrite (IH _ _ _ _ _ E N'), sget_sset_neq by exact NE; reflexivity.
Qed.
Lemma keys_in_grows : forall fuel db h da h' r, keys_in (merge_in fuel) db h da = (h', r) -> grown h h'.
Proof.
  intros fuel. induction db as [|[k bv] db IHd]; intros h da h' r E; cbn [keys_in] in E. { injection E as <- _. apply grown_refl. }
  destruct (sget k da) as [av|]; [|exact (IHd _ _ _ _ E)]. destruct (merge_in fuel h av bv) as [h1 [v|e]] eqn:M.
  - exact (grown_trans _ _ _ (merge_in_grows _ _ _ _ _ _ M) (IHd _ _ _ _ E)).
  - injection E as <- _. exact (merge_in_grows _ _ _ _ _ _ M).
Qed.
Lemma keys_in_both : forall fuel db h da h' d k bv av, keys_in (merge_in fuel) db h da = (h', Ok d) -> NoDup (map fst db) -> sget k db = Some bv -> sget k da = Some av ->
  exists h1 h2 v, grown h h1 /\ merge_in fuel h1 av bv = (h2, Ok v) /\ grown h2 h' /\ sget k d = Some v.
Proof.
  intros fuel db. induction db as [|[k0 b0] db IH]; intros h da h' d k bv av E N Eb Ea; [discriminate Eb|]. cbn [keys_in] in E. inversion N as [|y l N1 N2]; subst.
  unfold sget in Eb. cbn [dget] in Eb. destruct (str_eqb k k0) eqn:K.
  - apply str_eqb_eq in K. subst k0. injection Eb as ->. rewrite Ea in E. destruct (merge_in fuel h av bv) as [h1 [v|e]] eqn:M; [|discriminate E]. exists h, h1, v.
    split; [apply grown_refl|]. split; [exact M|]. split; [exact (keys_in_grows _ _ _ _ _ _ E)|]. rewrite (keys_in_other _ _ _ _ _ _ _ E N1). apply sget_sset_eq.
  - assert (NE : k0 <> k) by (intros ->; rewrite (proj2 (str_eqb_eq k k) eq_refl) in K; discriminate K). destruct (sget k0 da) as [a0|].
    + destruct (merge_in fuel h a0 b0) as [h1 [v|e]] eqn:M; [|discriminate E].
      destruct (IH _ _ _ _ k bv av E N2 Eb) as (h2 & h3 & v' & G1 & M' & G2 & S). { rewrite sget_sset_neq by exact NE. exact Ea. }
      exists h2, h3, v'. split; [exact (grown_trans _ _ _ (merge_in_grows _ _ _ _ _ _ M) G1)|]. auto.
    + apply (IH _ _ _ _ k bv av E N2 Eb). rewrite sget_sset_neq by exact NE. exact Ea.
Qed.
Lemma grown_sound : forall h h', grown h h' -> dicts_sound h' -> dicts_sound h.
Proof. intros h h' G S a d E. exact (S a d (grown_kept _ _ G a _ E)). Qed.
Theorem merge_in_fresh : forall p fuel h a b h' r va vb, dicts_sound h -> merge_in fuel h a b = (h', Ok r) ->
  node h a p = Some va -> is_some (as_dict h va) = true -> node h b p = Some vb -> is_some (as_dict h vb) = true ->
  exists x, node h' r p = Some (VRef x) /\ length h <= x.
Proof.
  induction p as [|k p IH]; intros [|fuel] h a b h' r va vb S E Na Da Nb Db; try discriminate E; pose proof E as E0; rewrite merge_in_S in E; cbn [node] in Na, Nb.
  - injection Na as ->. rewrite Da in E. cbn [orb] in E. destruct (copied h va) as [da|]; [|discriminate E]. destruct (copied h b) as [db|]; [|discriminate E].
    destruct (keys_in (merge_in fuel) db h da) as [h1 [d|e]] eqn:M; [|discriminate E]. unfold new in E. injection E as <- <-. exists (length h1). split; [reflexivity|].
    exact (grown_length _ _ (keys_in_grows _ _ _ _ _ _ M)).
  - destruct (as_dict h a) as [da|] eqn:EA; [|discriminate Na]. destruct (sget k da) as [av|] eqn:GA; [|discriminate Na].
    destruct (as_dict h b) as [db|] eqn:EB; [|discriminate Nb]. destruct (sget k db) as [bv|] eqn:GB; [|discriminate Nb].
    assert (CA : copied h a = Ok da) by (unfold copied; rewrite EA; destruct a; try discriminate EA; reflexivity).
    assert (CB : copied h b = Ok db) by (unfold copied; rewrite EB; destruct b; try discriminate EB; reflexivity).
    cbn [is_some orb] in E. rewrite CA, CB in E. destruct (keys_in (merge_in fuel) db h da) as [h1 [d|e]] eqn:M; [|discriminate E]. unfold new in E. injection E as <- <-.
    destruct (keys_in_both _ _ _ _ _ _ k bv av M (copied_sound _ _ _ S CB) GB GA) as (h2 & h3 & v & G1 & MM & G2 & GD).
    pose proof (merge_in_sound _ _ _ _ _ _ S E0) as S'. assert (G3 : grown h3 (h1 ++ [ODict d])) by exact (grown_trans _ _ _ G2 (grown_new _ _)).
    pose proof (grown_sound _ _ (grown_trans _ _ _ (merge_in_grows _ _ _ _ _ _ MM) G3) S') as S2.
    destruct (IH fuel h2 av bv h3 v va vb S2 MM) as (x & X1 & X2).
    + exact (node_grown _ _ _ _ _ G1 Na).
    + destruct (as_dict h va) as [dv|] eqn:V; [|discriminate Da]. rewrite (as_dict_grown _ _ _ _ G1 V). reflexivity.
    + exact (node_grown _ _ _ _ _ G1 Nb).
    + destruct (as_dict h vb) as [dv|] eqn:V; [|discriminate Db]. rewrite (as_dict_grown _ _ _ _ G1 V). reflexivity.
    + exists x. split; [|pose proof (grown_length _ _ G1); lia]. cbn [node as_dict]. rewrite nth_error_app2, Nat.sub_diag by lia. cbn [nth_error]. rewrite GD.
      exact (node_grown _ _ _ _ _ G3 X1).
Qed.

(** What is merged under some keys *)
Lemma merge_in_at : forall p fuel h0 h a b h' r va vb, dicts_sound h -> grown h0 h -> merge_in fuel h a b = (h', Ok r) ->
  node h0 a p = Some va -> node h0 b p = Some vb ->
  exists fuel' h2 h3 v, dicts_sound h2 /\ grown h0 h2 /\ merge_in fuel' h2 va vb = (h3, Ok v) /\ grown h3 h' /\ node h' r p = Some v.
Proof.
  induction p as [|k p IH]; intros fuel h0 h a b h' r va vb S G E Na Nb; cbn [node] in Na, Nb.
  - injection Na as ->. injection Nb as ->. exists fuel, h, h', r. split; [exact S|]. split; [exact G|]. split; [exact E|]. split; [apply grown_refl|reflexivity].
  - destruct fuel as [|fuel]; [discriminate E|]. pose proof E as E0. rewrite merge_in_S in E.
    destruct (as_dict h0 a) as [da|] eqn:EA0; [|discriminate Na]. destruct (sget k da) as [av|] eqn:GA; [|discriminate Na].
    destruct (as_dict h0 b) as [db|] eqn:EB0; [|discriminate Nb]. destruct (sget k db) as [bv|] eqn:GB; [|discriminate Nb].
    pose proof (as_dict_grown _ _ _ _ G EA0) as EA. pose proof (as_dict_grown _ _ _ _ G EB0) as EB.
    assert (CA : copied h a = Ok da) by (unfold copied; rewrite EA; destruct a; try discriminate EA; reflexivity).
    assert (CB : copied h b = Ok db) by (unfold copied; rewrite EB; destruct b; try discriminate EB; reflexivity).
    rewrite EA in E. cbn [is_some orb] in E. rewrite CA, CB in E. destruct (keys_in (merge_in fuel) db h da) as [h1 [d|e]] eqn:M; [|discriminate E]. unfold new in E. injection E as <- <-.
    destruct (keys_in_both _ _ _ _ _ _ k bv av M (copied_sound _ _ _ S CB) GB GA) as (h2 & h3 & v & G1 & MM & G2 & GD).
    pose proof (merge_in_sound _ _ _ _ _ _ S E0) as S'. assert (G3 : grown h3 (h1 ++ [ODict d])) by exact (grown_trans _ _ _ G2 (grown_new _ _)).
    pose proof (grown_sound _ _ (grown_trans _ _ _ (merge_in_grows _ _ _ _ _ _ MM) G3) S') as S2.
    destruct (IH fuel h0 h2 av bv h3 v va vb S2 (grown_trans _ _ _ G G1) MM Na Nb) as (f & h4 & h5 & w & X1 & X2 & X3 & X4 & X5).
    exists f, h4, h5, w. split; [exact X1|]. split; [exact X2|]. split; [exact X3|]. split; [exact (grown_trans _ _ _ X4 G3)|].
    cbn [node as_dict]. rewrite nth_error_app2, Nat.sub_diag by lia. cbn [nth_error]. rewrite GD. exact (node_grown _ _ _ _ _ G3 X5).
Qed.
Lemma keys_in_added : forall fuel db h da h' d k, keys_in (merge_in fuel) db h da = (h', Ok d) -> NoDup (map fst db) -> sget k da = None -> sget k d = sget k db.
Proof.
  intros fuel db. induction db as [|[k0 b0] db IH]; intros h da h' d k E N Ea. { cbn [keys_in] in E. injection E as _ <-. exact Ea. }
  cbn [keys_in] in E. inversion N as [|y l N1 N2]; subst. unfold sget at 2. cbn [dget]. destruct (str_eqb k k0) eqn:K.
  - apply str_eqb_eq in K. subst k0. rewrite Ea in E. rewrite (keys_in_other _ _ _ _ _ _ _ E N1). apply sget_sset_eq.
  - assert (NE : k0 <> k) by (intros ->; rewrite (proj2 (str_eqb_eq k k) eq_refl) in K; discriminate K). destruct (sget k0 da) as [a0|].
    + destruct (merge_in fuel h a0 b0) as [h1 [v|e]] eqn:M; [|discriminate E]. apply (IH _ _ _ _ k E N2). rewrite sget_sset_neq by exact NE. exact Ea.
    + apply (IH _ _ _ _ k E N2). rewrite sget_sset_neq by exact NE. exact Ea.
Qed.
Lemma sget_none_notin : forall V k (d : list (pystr * V)), sget k d = None -> ~ In k (map fst d).
Proof.
  intros V k d. unfold sget. induction d as [|[k0 v0] d IH]; cbn; [intros _ []|]. destruct (str_eqb k k0) eqn:K; [discriminate|]. intros E [X|I]; [|exact (IH E I)].
  subst k0. rewrite (proj2 (str_eqb_eq k k) eq_refl) in K. discriminate K.
Qed.
Lemma node_snoc : forall p h v k, node h v (p ++ [k]) = match node h v p with Some w => node h w [k] | None => None end.
Proof.
  induction p as [|k0 p IH]; intros h v k; [reflexivity|]. cbn [app node]. destruct (as_dict h v) as [d|]; [|reflexivity]. destruct (sget k0 d) as [w|]; [|reflexivity]. apply IH.
Qed.
Lemma node_within : forall p h Q v w, closed h Q -> within Q v -> node h v p = Some w -> within Q w.
Proof.
  induction p as [|k p IH]; intros h Q v w C W E; cbn [node] in E; [injection E as <-; exact W|].
  destruct (as_dict h v) as [d|] eqn:D; [|discriminate E]. destruct (sget k d) as [x|] eqn:X; [|discriminate E]. apply (IH h Q x w C); [|exact E].
  destruct v as [| | | |a]; try discriminate D. cbn [as_dict within] in *. destruct (nth_error h a) as [[d0|l]|] eqn:N; try discriminate D. injection D as ->.
  pose proof (C a _ W N) as CC. cbn in CC. clear - X CC. unfold sget in X. induction d as [|[k0 v0] d IH]; cbn in X; [discriminate|]. destruct (str_eqb k k0).
  - injection X as ->. apply (CC k0). left. reflexivity.
  - apply IH; [exact X|]. intros k1 v1 I. apply (CC k1). right. exact I.
Qed.
Lemma as_dict_same : forall h h' v, grown h h' -> within (fun x => x < length h) v -> as_dict h' v = as_dict h v.
Proof.
  intros h h' v G W. destruct v as [| | | |a]; try reflexivity. cbn [as_dict within] in *. destruct (nth_error h a) as [o|] eqn:O; [|apply nth_error_None in O; lia].
  rewrite (grown_kept _ _ G a o O). reflexivity.
Qed.
Lemma as_list_same : forall h h' v, grown h h' -> within (fun x => x < length h) v -> as_list h' v = as_list h v.
Proof.
  intros h h' v G W. destruct v as [| | | |a]; try reflexivity. cbn [as_list within] in *. destruct (nth_error h a) as [o|] eqn:O; [|apply nth_error_None in O; lia].
  rewrite (grown_kept _ _ G a o O). reflexivity.
Qed.
Lemma copied_keys : forall h v d k, copied h v = Ok d -> node h v [k] = sget k d.
Proof.
  intros h v d k E. destruct v as [| | | |a]; unfold copied in E; try discriminate E. { injection E as <-. reflexivity. }
  destruct (as_dict h (VRef a)) as [d0|] eqn:D; [|discriminate E]. injection E as <-. cbn [node]. rewrite D. destruct (sget k d0); reflexivity.
Qed.
Lemma one_grown : forall h h' v k, grown h h' -> within (fun x => x < length h) v -> node h' v [k] = node h v [k].
Proof. intros h h' v k G W. cbn [node]. rewrite (as_dict_same _ _ _ G W). destruct (as_dict h v) as [d|]; [|reflexivity]. destruct (sget k d); reflexivity. Qed.
Theorem merge_in_exact : forall fuel h a b h' r p va vb, dicts_sound h -> closed h (fun x => x < length h) ->
  within (fun x => x < length h) a -> within (fun x => x < length h) b -> merge_in fuel h a b = (h', Ok r) ->
  node h a p = Some va -> node h b p = Some vb ->
  (exists v, node h' r p = Some v /\ forall x, v = VRef x -> length h <= x) /\
  forall k, (node h a (p ++ [k]) = None -> node h' r (p ++ [k]) = node h b (p ++ [k])) /\
            (node h b (p ++ [k]) = None -> node h' r (p ++ [k]) = node h a (p ++ [k])).
Proof.
  intros fuel h a b h' r p va vb S C Wa Wb E Na Nb.
  pose proof (node_within _ _ _ _ _ C Wa Na) as Wva. pose proof (node_within _ _ _ _ _ C Wb Nb) as Wvb.
  destruct (merge_in_at p fuel h h a b h' r va vb S (grown_refl h) E Na Nb) as (f & h2 & h3 & v & S2 & G & M & G3 & N).
  assert (KEYS : (forall x, v = VRef x -> length h <= x) /\ forall k, (node h va [k] = None -> node h' v [k] = node h vb [k]) /\ (node h vb [k] = None -> node h' v [k] = node h va [k])).
  { destruct f as [|f]; [discriminate M|]. rewrite merge_in_S in M. pose proof (grown_length _ _ G) as L.
    destruct (is_some (as_dict h2 va) || is_some (as_dict h2 vb)) eqn:D.
    - destruct (copied h2 va) as [da|] eqn:CA; [|discriminate M]. destruct (copied h2 vb) as [db|] eqn:CB; [|discriminate M].
      destruct (keys_in (merge_in f) db h2 da) as [h1 [d|e]] eqn:K; [|discriminate M]. unfold new in M. injection M as <- <-.
      pose proof (grown_length _ _ (keys_in_grows _ _ _ _ _ _ K)) as L1. split; [intros x X; injection X as <-; lia|].
      intros k. assert (R : node h' (VRef (length h1)) [k] = sget k d).
      { assert (AD : as_dict (h1 ++ [ODict d]) (VRef (length h1)) = Some d) by (cbn [as_dict]; rewrite nth_error_app2, Nat.sub_diag by lia; reflexivity).
        cbn [node]. rewrite (as_dict_grown _ _ _ _ G3 AD). destruct (sget k d); reflexivity. }
      rewrite R, <- (one_grown _ _ _ k G Wva), <- (one_grown _ _ _ k G Wvb), (copied_keys _ _ _ k CA), (copied_keys _ _ _ k CB). split; intros X.
      + exact (keys_in_added _ _ _ _ _ _ k K (copied_sound _ _ _ S2 CB) X).
      + exact (keys_in_other _ _ _ _ _ _ k K (sget_none_notin _ _ _ X)).
    - apply Bool.orb_false_iff in D. destruct D as [D1 D2].
      assert (P1 : forall k, node h va [k] = None) by (intros k; cbn [node]; rewrite <- (as_dict_same _ _ _ G Wva); destruct (as_dict h2 va); [discriminate D1|reflexivity]).
      assert (P2 : forall k, node h vb [k] = None) by (intros k; cbn [node]; rewrite <- (as_dict_same _ _ _ G Wvb); destruct (as_dict h2 vb); [discriminate D2|reflexivity]).
      assert (V : (forall x, v = VRef x -> length h <= x) /\ as_dict h' v = None).
      { destruct (is_some (as_list h2 va) || is_some (as_list h2 vb)) eqn:LL.
        - destruct (items h2 (match vb with VNull => va | _ => vb end)) as [l|]; [|discriminate M]. destruct (elems_in (merge_in f) l h2) as [h1 [l'|e]] eqn:EI; [|discriminate M].
          unfold new in M. injection M as <- <-. split; [|cbn [as_dict]; rewrite (grown_kept _ _ G3 (length h1) (OList l')); [reflexivity|rewrite nth_error_app2, Nat.sub_diag by lia; reflexivity]].
          intros x X. injection X as <-. assert (G1 : length h2 <= length h1); [|lia].
          clear - EI. revert h2 h1 l' EI. induction l as [|y l IH]; intros h2 h1 l' EI; cbn [elems_in] in EI. { injection EI as <- _. lia. }
          destruct (merge_in f h2 y VNull) as [h3 [y'|e]] eqn:M; [|discriminate EI]. destruct (elems_in (merge_in f) l h3) as [h4 [l2|e]] eqn:EE; [|discriminate EI]. injection EI as <- _.
          apply IH in EE. pose proof (grown_length _ _ (merge_in_grows _ _ _ _ _ _ M)). lia.
        - apply Bool.orb_false_iff in LL. destruct LL as [L1 L2].
          assert (AT : forall w, within (fun x => x < length h) w -> is_some (as_dict h2 w) = false -> is_some (as_list h2 w) = false -> forall x, w <> VRef x).
          { intros w W Z1 Z2 x ->. cbn [as_dict as_list within] in *. destruct (nth_error h2 x) as [[d|l]|] eqn:Z; try discriminate Z1; try discriminate Z2. apply nth_error_None in Z. lia. }
          pose proof (AT va Wva D1 L1) as A1. pose proof (AT vb Wvb D2 L2) as A2.
          injection M as _ M. assert (VV : v = va \/ v = vb) by (destruct va, vb; try discriminate M; injection M as <-; auto).
          destruct VV as [->| ->]; (split; [intros x X; exfalso; first [exact (A1 x X)|exact (A2 x X)]|]).
          + destruct va as [| | | |x]; try reflexivity. destruct (A1 x eq_refl).
          + destruct vb as [| | | |x]; try reflexivity. destruct (A2 x eq_refl). }
      destruct V as (V1 & V2). split; [exact V1|]. intros k. assert (R : node h' v [k] = None) by (cbn [node]; rewrite V2; reflexivity). rewrite R, P1, P2. split; reflexivity. }
  destruct KEYS as (K1 & K2). split; [exists v; split; assumption|]. intros k. rewrite !node_snoc, Na, Nb, N. exact (K2 k).
Qed.

(** ** What is not reached *)
Definition all_within (Q : nat -> Prop) (d : list (pystr * value)) : Prop := forall k v, In (k, v) d -> within Q v.
Lemma sset_in : forall V k (v : V) d k' v', In (k', v') (sset k v d) -> v' = v \/ In (k', v') d.
Proof.
  intros V k v d k' v'. induction d as [|[k0 v0] d IH]; cbn.
  - intros [X|[]]. injection X as _ <-. left. reflexivity.
  - destruct (str_eqb k k0); cbn; intros [X|I].
    + injection X as _ <-. left. reflexivity.
    + right. right. exact I.
    + right. left. exact X.
    + destruct (IH I) as [->|J]; [left; reflexivity|right; right; exact J].
Qed.
Lemma sdel_in : forall V k (d : list (pystr * V)) k' v', In (k', v') (sdel k d) -> In (k', v') d.
Proof.
  intros V k d k' v'. induction d as [|[k0 v0] d IH]; cbn; [exact (fun x => x)|]. destruct (str_eqb k k0); cbn; [intros I; right; try (apply IH); exact I|]. intros [X|I]; [left; exact X|right; apply IH; exact I].
Qed.
Lemma sget_in : forall V k (d : list (pystr * V)) v, sget k d = Some v -> exists k', In (k', v) d.
Proof.
  intros V k d v. unfold sget. induction d as [|[k0 v0] d IH]; cbn; [discriminate|]. destruct (str_eqb k k0).
  - intros X. injection X as ->. exists k0. left. reflexivity.
  - intros X. destruct (IH X) as (k' & I). exists k'. right. exact I.
Qed.
Lemma all_within_sset : forall Q k v d, all_within Q d -> within Q v -> all_within Q (sset k v d).
Proof. intros Q k v d D V k' v' I. destruct (sset_in _ _ _ _ _ _ I) as [->|J]; [exact V|exact (D _ _ J)]. Qed.
Lemma all_within_get : forall Q k v d, all_within Q d -> sget k d = Some v -> within Q v.
Proof. intros Q k v d D E. destruct (sget_in _ _ _ _ E) as (k' & I). exact (D _ _ I). Qed.
Lemma closed_dict : forall Q h v d, closed h Q -> within Q v -> as_dict h v = Some d -> all_within Q d.
Proof.
  intros Q h v d C W E. destruct v as [| | | |a]; try discriminate E. cbn [as_dict within] in *. destruct (nth_error h a) as [[d0|l]|] eqn:N; try discriminate E.
  injection E as <-. exact (C a _ W N).
Qed.
Lemma closed_copied : forall Q h v d, closed h Q -> within Q v -> copied h v = Ok d -> all_within Q d.
Proof.
  intros Q h v d C W E. destruct v as [| | | |a]; unfold copied in E; try discriminate E. { injection E as <-. intros k v []. }
  destruct (as_dict h (VRef a)) as [d0|] eqn:D; [|discriminate E]. injection E as <-. exact (closed_dict _ _ _ _ C W D).
Qed.
Lemma closed_items : forall Q h v l, closed h Q -> within Q v -> items h v = Ok l -> forall x, In x l -> within Q x.
Proof.
  intros Q h v l C W E x I. destruct v as [| | |s|a]; unfold items in E; try discriminate E.
  - injection E as <-. apply in_map_iff in I. destruct I as (c & <- & _). exact Logic.I.
  - cbn [as_list within] in *. destruct (nth_error h a) as [[d0|l0]|] eqn:N; try discriminate E. injection E as <-. exact (C a _ W N x I).
Qed.
Lemma closed_new : forall Q h o, closed h Q ->
  match o with ODict d => all_within Q d | OList l => forall v, In v l -> within Q v end -> closed (h ++ [o]) Q.
Proof.
  intros Q h o C O a o' W E. destruct (Nat.lt_ge_cases a (length h)) as [L|L].
  - rewrite nth_error_app1 in E by exact L. exact (C a o' W E).
  - rewrite nth_error_app2 in E by exact L. destruct (a - length h) as [|[|]]; cbn in E; try discriminate E. injection E as <-. exact O.
Qed.
Section Within.
  Variable Q : nat -> Prop.
  Definition news (h : heap) : Prop := forall x, length h <= x -> Q x.
  Lemma news_grown : forall h h', grown h h' -> news h -> news h'.
  Proof. intros h h' G N x L. apply N. apply grown_length in G. lia. Qed.
  Lemma merge_in_within : forall fuel h a b h' r, news h -> closed h Q -> within Q a -> within Q b -> merge_in fuel h a b = (h', r) ->
    closed h' Q /\ forall v, r = Ok v -> within Q v.
  Proof.
    induction fuel as [|fuel IH]; intros h a b h' r N C A B E. { injection E as <- <-. split; [exact C|discriminate]. }
    rewrite merge_in_S in E.
    assert (K : forall db h da h' r, news h -> closed h Q -> all_within Q da -> all_within Q db -> keys_in (merge_in fuel) db h da = (h', r) ->
      closed h' Q /\ forall d, r = Ok d -> all_within Q d).
    { clear - IH. induction db as [|[k bv] db IHd]; intros h da h' r N C A B E; cbn [keys_in] in E.
      { injection E as <- <-. split; [exact C|]. intros d X. injection X as <-. exact A. }
      assert (B' : all_within Q db) by (intros k0 v0 I; exact (B k0 v0 (or_intror I))). pose proof (B k bv (or_introl eq_refl)) as Bv.
      destruct (sget k da) as [av|] eqn:G; [|exact (IHd _ _ _ _ N C (all_within_sset _ _ _ _ A Bv) B' E)].
      destruct (merge_in fuel h av bv) as [h1 [v|e]] eqn:M; destruct (IH _ _ _ _ _ N C (all_within_get _ _ _ _ A G) Bv M) as (C1 & V1).
      - exact (IHd _ _ _ _ (news_grown _ _ (merge_in_grows _ _ _ _ _ _ M) N) C1 (all_within_sset _ _ _ _ A (V1 v eq_refl)) B' E).
      - injection E as <- <-. split; [exact C1|discriminate]. }
    assert (L : forall l h h' r, news h -> closed h Q -> (forall x, In x l -> within Q x) -> elems_in (merge_in fuel) l h = (h', r) ->
      closed h' Q /\ forall l', r = Ok l' -> forall x, In x l' -> within Q x).
    { clear - IH. induction l as [|x l IHl]; intros h h' r N C A E; cbn [elems_in] in E. { injection E as <- <-. split; [exact C|]. intros l' X. injection X as <-. intros x []. }
      destruct (merge_in fuel h x VNull) as [h1 [v|e]] eqn:M; destruct (IH _ _ _ _ _ N C (A x (or_introl eq_refl)) (Logic.I : within Q VNull) M) as (C1 & V1).
      - destruct (elems_in (merge_in fuel) l h1) as [h2 [r2|e2]] eqn:N2;
          destruct (IHl _ _ _ (news_grown _ _ (merge_in_grows _ _ _ _ _ _ M) N) C1 (fun y I => A y (or_intror I)) N2) as (C2 & V2);
          injection E as <- <-; (split; [exact C2|]); [|discriminate]. intros l' X. injection X as <-. intros y [<-|I]; [exact (V1 v eq_refl)|exact (V2 r2 eq_refl y I)].
      - injection E as <- <-. split; [exact C1|discriminate]. }
    destruct (is_some (as_dict h a) || is_some (as_dict h b)).
    - destruct (copied h a) as [da|] eqn:CA; [|injection E as <- <-; split; [exact C|discriminate]]. destruct (copied h b) as [db|] eqn:CB; [|injection E as <- <-; split; [exact C|discriminate]].
      destruct (keys_in (merge_in fuel) db h da) as [h1 [d|e]] eqn:M; destruct (K _ _ _ _ _ N C (closed_copied _ _ _ _ C A CA) (closed_copied _ _ _ _ C B CB) M) as (C1 & V1).
      + unfold new in E. injection E as <- <-. split; [apply closed_new; [exact C1|exact (V1 d eq_refl)]|]. intros v X. injection X as <-.
        cbn [within]. apply N. exact (grown_length _ _ (keys_in_grows _ _ _ _ _ _ M)).
      + injection E as <- <-. split; [exact C1|discriminate].
    - destruct (is_some (as_list h a) || is_some (as_list h b)) eqn:LL.
      + assert (W : within Q (match b with VNull => a | _ => b end)) by (destruct b; assumption).
        destruct (items h (match b with VNull => a | _ => b end)) as [l|] eqn:I; [|injection E as <- <-; split; [exact C|discriminate]].
        assert (G : forall l h h' r, elems_in (merge_in fuel) l h = (h', r) -> grown h h').
        { clear. induction l as [|x l IHl]; intros h h' r E; cbn [elems_in] in E. { injection E as <- _. apply grown_refl. }
          destruct (merge_in fuel h x VNull) as [h1 [v|e]] eqn:M; apply merge_in_grows in M.
          - destruct (elems_in (merge_in fuel) l h1) as [h2 [r2|e2]] eqn:N; injection E as <- _; exact (grown_trans _ _ _ M (IHl _ _ _ N)).
          - injection E as <- _. exact M. }
        destruct (elems_in (merge_in fuel) l h) as [h1 [d|e]] eqn:M; destruct (L _ _ _ _ N C (closed_items _ _ _ _ C W I) M) as (C1 & V1).
        * unfold new in E. injection E as <- <-. split; [apply closed_new; [exact C1|exact (V1 d eq_refl)]|]. intros v X. injection X as <-.
          cbn [within]. apply N. exact (grown_length _ _ (G _ _ _ _ M)).
        * injection E as <- <-. split; [exact C1|discriminate].
      + injection E as <- <-. split; [exact C|]. intros v X. destruct a, b; try discriminate X; injection X as <-; assumption.
  Qed.
  Lemma merge_all_in_within : forall fuel ms h m h' m' r, news h -> closed h Q -> within Q m -> (forall x, In x ms -> within Q x) ->
    merge_all_in fuel h m ms = (h', m', r) -> closed h' Q /\ within Q m'.
  Proof.
    induction ms as [|x ms IH]; intros h m h' m' r N C M A E; cbn [merge_all_in] in E. { injection E as <- <- _. split; assumption. }
    destruct (merge_in fuel h m x) as [h1 [v|e]] eqn:X; destruct (merge_in_within _ _ _ _ _ _ N C M (A x (or_introl eq_refl)) X) as (C1 & V1).
    - exact (IH _ _ _ _ _ (news_grown _ _ (merge_in_grows _ _ _ _ _ _ X) N) C1 (V1 v eq_refl) (fun y I => A y (or_intror I)) E).
    - injection E as <- <- _. split; assumption.
  Qed.

  (** Only objects of the set change. *)
  Definition only_in (h h' : heap) : Prop := closed h' Q /\ length h' = length h /\ forall x, ~ Q x -> nth_error h' x = nth_error h x.
  Lemma only_in_refl : forall h, closed h Q -> only_in h h.
  Proof. intros h C. repeat split; auto. Qed.
  Lemma only_in_trans : forall a b c, only_in a b -> only_in b c -> only_in a c.
  Proof. intros a b c (_ & L1 & K1) (C2 & L2 & K2). repeat split; [exact C2|congruence|]. intros x X. rewrite (K2 x X). exact (K1 x X). Qed.

  Variables ad an ar : bool.
  Variable other_in : nat -> heap -> value -> list nat.
  Notation vkw := (visit_kw_in ad an ar other_in).
  Notation vis := (visit_in ad an ar other_in).
  Definition defaults_within (s : sschema) : Prop := forall w, default_of s w -> within Q w.
  Lemma fill_within : forall ps d, (forall p s v, In (p, s) ps -> In (SDefault v) s -> within Q v) -> all_within Q d -> all_within Q (fill_in ad an ar ps d).
  Proof.
    intros ps d H A. unfold fill_in. destruct (ad || an || ar); [|exact A]. revert d A. induction ps as [|[p s] ps IH]; intros d A; [exact A|].
    cbn [fold_left fst snd]. apply IH; [intros p0 s0 v I; exact (H p0 s0 v (or_intror I))|]. unfold fill_prop_in.
    assert (R : forall c : bool, all_within Q (if c then sdel p d else d)).
    { intros [|]; [|exact A]. intros k v I. exact (A k v (sdel_in _ _ _ _ _ I)). }
    destruct (sdefault s) as [v|] eqn:E; [|apply R]. pose proof (H p s v (or_introl eq_refl) (sdefault_in _ _ E)) as W.
    match goal with |- context [if ?c then sset _ _ _ else _] => destruct c end; [|apply R]. apply all_within_sset; assumption.
  Qed.
  Definition kw_within (k : skw) : Prop := defaults_within [k] -> forall h v, closed h Q -> within Q v -> only_in h (fst (vkw k h v)).
  Lemma vis_within : forall s, (forall k, In k s -> kw_within k) -> defaults_within s -> forall h v, closed h Q -> within Q v -> only_in h (fst (vis s h v)).
  Proof.
    induction s as [|k s IH]; intros Hk D h v C W. { apply only_in_refl; exact C. }
    cbn [visit_in].
    assert (Dk : defaults_within [k]) by (intros w X; apply (D w); apply (default_more [k] (k :: s)); [intros k0 [<-|[]]; left; reflexivity|exact X]).
    assert (Ds : defaults_within s) by (intros w X; apply (D w); apply (default_more s (k :: s)); [intros k0 I; right; exact I|exact X]).
    pose proof (Hk k (or_introl eq_refl) Dk h v C W) as O. destruct (vkw k h v) as [h1 es1]. cbn [fst] in *.
    pose proof (IH (fun k0 I => Hk k0 (or_intror I)) Ds h1 v (proj1 O) W) as O2. destruct (vis s h1 v) as [h2 es2]. cbn [fst] in *. exact (only_in_trans _ _ _ O O2).
  Qed.
  Lemma all_kw_within : forall k, kw_within k.
  Proof.
    apply skw_ind'.
    - intros ps Hk D h v C W. rewrite vkw_props. destruct v as [| | | |a]; try (apply only_in_refl; exact C).
      destruct (as_dict h (VRef a)) as [d|] eqn:E; [|apply only_in_refl; exact C].
      assert (F : all_within Q (fill_in ad an ar ps d)).
      { apply fill_within; [|exact (closed_dict _ _ _ _ C W E)]. intros p s w I1 I2. apply (D w). apply (Do_here _ ps p s w); [left; reflexivity|exact I1|exact I2]. }
      assert (O : only_in h (store a (ODict (fill_in ad an ar ps d)) h)).
      { repeat split; [|apply store_length|].
        - intros x o X1 X2. destruct (Nat.eq_dec a x) as [->|NX].
          + rewrite store_here in X2. { injection X2 as <-. exact F. } cbn [as_dict] in E. apply nth_error_Some. destruct (nth_error h x); congruence.
          + rewrite store_there in X2 by exact NX. exact (C x o X1 X2).
        - intros x X. apply store_there. intros <-. exact (X W). }
      apply (only_in_trans _ _ _ O). assert (D' : forall p s, In (p, s) ps -> defaults_within s).
      { intros p s I w X. apply (D w). apply (Do_below _ ps p s w); [left; reflexivity|exact I|exact X]. }
      destruct O as (C' & _). revert C'. generalize (store a (ODict (fill_in ad an ar ps d)) h). clear - W Hk D'.
      induction ps as [|[p s] ps IH]; intros h C; cbn [visit_props_in]. { apply only_in_refl; exact C. }
      specialize (IH (fun p0 s0 k I => Hk p0 s0 k (or_intror I)) (fun p0 s0 I => D' p0 s0 (or_intror I))).
      destruct (as_dict h (VRef a)) as [d|] eqn:E; [|apply only_in_refl; exact C]. destruct (sget p d) as [v|] eqn:G; [|exact (IH h C)].
      pose proof (vis_within s (fun k I => Hk p s k (or_introl eq_refl) I) (D' p s (or_introl eq_refl)) h v C (all_within_get _ _ _ _ (closed_dict _ _ _ _ C W E) G)) as O.
      destruct (vis s h v) as [h1 es1]. cbn [fst] in *. pose proof (IH h1 (proj1 O)) as O2. destruct (visit_props_in ad an ar other_in a ps h1) as [h2 es2]. cbn [fst] in *.
      exact (only_in_trans _ _ _ O O2).
    - intros k NP D h v C W. destruct k; try contradiction; apply only_in_refl; exact C.
  Qed.
  Theorem visit_within : forall s, defaults_within s -> forall h v, closed h Q -> within Q v -> only_in h (fst (vis s h v)).
  Proof. intros s. apply vis_within. intros k _. apply all_kw_within. Qed.
End Within.
Lemma prevalidate_within : forall Q other_in subs h, (forall s m, In (s, m) subs -> within Q m /\ defaults_within Q s) -> closed h Q ->
  only_in Q h (fst (prevalidate_in other_in subs h)).
Proof.
  intros Q other_in subs. induction subs as [|[s m] subs IH]; intros h D C; cbn [prevalidate_in]. { apply only_in_refl; exact C. }
  destruct (D s m (or_introl eq_refl)) as (D1 & D2). unfold check_in. pose proof (visit_within Q true false false other_in s D2 h m C D1) as O.
  destruct (visit_in true false false other_in s h m) as [h1 es1]. cbn [fst] in *.
  pose proof (IH h1 (fun s0 m0 I => D s0 m0 (or_intror I)) (proj1 O)) as O2. destruct (prevalidate_in other_in subs h1) as [h2 es2]. cbn [fst] in *.
  exact (only_in_trans _ _ _ _ O O2).
Qed.
Theorem build_within : forall P other_in fuel full subs h, closed h P -> (forall s m, In (s, m) subs -> within P m) ->
  (forall s m w, In (s, m) subs -> default_of s w -> within P w) -> (forall w, default_of full w -> within P w) ->
  forall x, x < length h -> ~ P x -> nth_error (i_heap (build_in other_in fuel full [] subs h)) x = nth_error h x.
Proof.
  intros P other_in fuel full subs h C M D DF x X NP. set (Q := fun a => P a \/ length h <= a).
  assert (W : forall v, within P v -> within Q v) by (intros [| | | |a] V; try exact Logic.I; left; exact V).
  assert (CQ : closed h Q).
  { intros a o [A|A] E; [|apply nth_error_None in A; congruence]. specialize (C a o A E). destruct o; intros; apply W; eapply C; eassumption. }
  assert (NQ : ~ Q x) by (intros [Y|Y]; [exact (NP Y)|lia]).
  assert (DQ : defaults_within Q full) by (intros w Y; apply W; exact (DF w Y)).
  assert (SQ : forall s m, In (s, m) subs -> within Q m /\ defaults_within Q s).
  { intros s m I. split; [apply W; exact (M s m I)|]. intros w Y. apply W. exact (D s m w I Y). }
  unfold build_in. destruct (prevalidate_within Q other_in subs h SQ CQ) as (C1 & L1 & K1). destruct (prevalidate_in other_in subs h) as [h1 es1]. cbn [fst] in *.
  destruct es1 as [|e1 es1]; [|exact (K1 x NQ)].
  destruct (merge_all_in fuel h1 VNull (map snd subs)) as [[h2 m2] r2] eqn:E.
  assert (N1 : news Q h1) by (intros y Y; right; lia).
  assert (MQ : forall y, In y (map snd subs) -> within Q y).
  { intros y I. apply in_map_iff in I. destruct I as ((s & m) & <- & I). exact (proj1 (SQ s m I)). }
  destruct (merge_all_in_within Q _ _ _ _ _ _ _ N1 C1 (Logic.I : within Q VNull) MQ E) as (C2 & W2).
  apply merge_all_in_grows in E. assert (K2 : nth_error h2 x = nth_error h x) by (rewrite (grown_at _ _ x E) by lia; exact (K1 x NQ)).
  destruct r2 as [e|]; [exact K2|]. unfold check_in. destruct (visit_within Q true false false other_in full DQ h2 m2 C2 W2) as (_ & _ & K3).
  destruct (visit_in true false false other_in full h2 m2) as [h3 es3]. cbn [fst] in *. specialize (K3 x NQ). rewrite K2 in K3. destruct es3 as [|e3 es3]; exact K3.
Qed.
