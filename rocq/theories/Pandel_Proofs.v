(** * Models: lemmas *)
From Coq Require Import String.
From Verif Require Import PyBase PyBase_Proofs Json JsonPointer_Model Pandel_Model Pandel_Spec.

(** ** Dicts *)
Lemma sget_sset_eq : forall V k (v : V) d, sget k (sset k v d) = Some v.
Proof. intros. apply (dget_dset_eq str_eqb str_eqb_eq). Qed.
Lemma sget_sset_neq : forall V k k' (v : V) d, k <> k' -> sget k' (sset k v d) = sget k' d.
Proof. intros. apply (dget_dset_neq str_eqb str_eqb_eq). assumption. Qed.
Lemma sget_sdel_eq : forall V k (d : list (pystr * V)), sget k (sdel k d) = None.
Proof. intros. apply (dget_ddel_eq str_eqb). Qed.
Lemma sget_sdel_neq : forall V k k' (d : list (pystr * V)), k <> k' -> sget k' (sdel k d) = sget k' d.
Proof. intros. apply (dget_ddel_neq str_eqb str_eqb_eq). assumption. Qed.
Lemma str_dec : forall a b : pystr, {a = b} + {a <> b}.
Proof. intros a b. destruct (str_eqb_spec a b); [left|right]; assumption. Qed.
Lemma sset_same : forall V k (v : V) d, sget k d = Some v -> sset k v d = d.
Proof. intros. apply (dset_same str_eqb). assumption. Qed.
Lemma NoDup_sdel : forall V k (d : list (pystr * V)), NoDup (map fst d) -> NoDup (map fst (sdel k d)).
Proof.
  intros V k d. unfold sdel. induction d as [|[k' v'] d IH]; intro H; cbn; [constructor|].
  inversion H as [|x l Hx Hl]; subst. destruct (str_eqb k k'); [apply IH; assumption|].
  cbn. constructor; [|apply IH; assumption].
  intro Hin. apply Hx. cbn in *. clear - Hin. induction d as [|[k2 v2] d IH]; cbn in *; [exact Hin|].
  destruct (str_eqb k k2); [right; auto|]. cbn in Hin. destruct Hin; [left; assumption|right; auto].
Qed.

(** ** Cloning *)
Definition clones := fix elems (l : list json) : res (list json) :=
  match l with [] => Ok [] | x :: l' => do y <- clone x; do r <- elems l'; Ok (y :: r) end.
Lemma clone_list : forall l, clone (JList l) = do l' <- clones l; Ok (JList l').
Proof. reflexivity. Qed.
Lemma clones_rmap : forall l, clones l = rmap clone l.
Proof. induction l; [reflexivity|]. cbn [clones rmap]. rewrite <- IHl. reflexivity. Qed.

Lemma clone_id : forall a b, clone a = Ok b -> b = a.
Proof.
  induction a using json_ind'; intros b0 E; try (cbn in E; congruence).
  rewrite clone_list in E. destruct (clones l) as [l'|] eqn:El; cbn [rbind] in E; [|discriminate].
  injection E as <-. f_equal. revert l' El. induction H as [|x l Hx Hl IH]; intros l' El; cbn [clones] in El.
  - injection El as <-. reflexivity.
  - destruct (clone x) as [y|] eqn:Ex; cbn [rbind] in El; [|discriminate].
    destruct (clones l) as [r|] eqn:Er; cbn [rbind] in El; [|discriminate].
    injection El as <-. f_equal; [apply Hx; reflexivity|apply IH; reflexivity].
Qed.
Lemma clone_solid : forall a, clone a = Ok a <-> solid a.
Proof.
  induction a using json_ind'; try (split; [constructor|reflexivity]).
  - split; [discriminate|intro H; inversion H].
  - split.
    + intro E. rewrite clone_list in E. destruct (clones l) as [l'|] eqn:El; cbn [rbind] in E; [|discriminate].
      injection E as ->. constructor. intros x Hx.
      assert (G : clone x = Ok x).
      { clear H. induction l as [|y l IH]; [destruct Hx|]. cbn [clones] in El.
        destruct (clone y) as [y'|] eqn:Ey; cbn [rbind] in El; [|discriminate].
        destruct (clones l) as [r|] eqn:Er; cbn [rbind] in El; [|discriminate].
        injection El as -> ->. destruct Hx as [->|Hx]; [exact Ey|]. apply IH; [reflexivity|exact Hx]. }
      rewrite Forall_forall in H. apply H; assumption.
    + intro S. inversion S as [l0 HS| | | |]; subst. rewrite clone_list.
      assert (E : clones l = Ok l).
      { clear S. induction H as [|x l Hx Hl IH]; [reflexivity|]. cbn [clones].
        rewrite (proj2 Hx) by (apply HS; left; reflexivity). cbn [rbind].
        rewrite IH by (intros y Hy; apply HS; right; exact Hy). reflexivity. }
      rewrite E. reflexivity.
Qed.
Lemma rmap_clone_id : forall l l', rmap clone l = Ok l' -> l' = l.
Proof.
  intros l l' E. rewrite <- clones_rmap in E.
  assert (G : clone (JList l) = Ok (JList l')) by (rewrite clone_list, E; reflexivity).
  apply clone_id in G. congruence.
Qed.
Lemma rmap_clone_solid : forall l, rmap clone l = Ok l <-> solid (JList l).
Proof.
  intro l. rewrite <- clone_solid, clone_list, clones_rmap. split; [intros ->; reflexivity|].
  destruct (rmap clone l); cbn [rbind]; congruence.
Qed.
Lemma solid_chars : forall s, solid (JList (map (fun c => JStr [c]) s)).
Proof. intro s. constructor. intros x Hx. apply in_map_iff in Hx. destruct Hx as [c [<- _]]. constructor. Qed.

(** ** Merging *)
Definition merge_keys := fix keys (db da : list (pystr * json)) : res (list (pystr * json)) :=
  match db with
  | [] => Ok da
  | (k, bv) :: db' =>
      do v <- match sget k da with Some av => merge av bv | None => Ok bv end;
      keys db' (sset k v da)
  end.
Lemma merge_dict : forall a db, merge a (JDict db) =
  do da <- match a with JNull => Ok [] | JDict da => Ok da | _ => Raise TypeError end;
  do d <- merge_keys db da; Ok (JDict d).
Proof. reflexivity. Qed.

Lemma merge_keys_get : forall db da d, NoDup (map fst db) -> merge_keys db da = Ok d -> forall k,
  match sget k db, sget k da with
  | None, x => sget k d = x
  | Some bv, None => sget k d = Some bv
  | Some bv, Some av => exists v, merge av bv = Ok v /\ sget k d = Some v
  end.
Proof.
  induction db as [|[k0 bv] db IH]; intros da d ND E k; cbn [merge_keys] in E.
  - injection E as ->. reflexivity.
  - cbn in ND. inversion ND as [|x l Hx Hl]; subst.
    destruct (match sget k0 da with Some av => merge av bv | None => Ok bv end) as [v|] eqn:Ev; cbn [rbind] in E; [|discriminate].
    specialize (IH _ _ Hl E k). unfold sget at 1. cbn. destruct (str_eqb_spec k k0) as [->|N].
    + assert (Hn : sget k0 db = None) by (apply (dget_None_notin str_eqb str_eqb_eq); exact Hx).
      rewrite Hn in IH. rewrite sget_sset_eq in IH.
      destruct (sget k0 da) as [av|]; [exists v; split; assumption|]. congruence.
    + rewrite sget_sset_neq in IH by congruence. exact IH.
Qed.
Lemma merge_keys_ok : forall db da, NoDup (map fst db) ->
  (forall k bv av, In (k, bv) db -> sget k da = Some av -> exists v, merge av bv = Ok v) ->
  exists d, merge_keys db da = Ok d.
Proof.
  induction db as [|[k bv] db IH]; intros da ND H; cbn [merge_keys]; [eexists; reflexivity|].
  cbn in ND. inversion ND as [|x l Hx Hl]; subst.
  assert (G : exists v, match sget k da with Some av => merge av bv | None => Ok bv end = Ok v).
  { destruct (sget k da) as [av|] eqn:E; [|eexists; reflexivity]. apply (H k bv av); [left; reflexivity|exact E]. }
  destruct G as [v ->]. cbn [rbind]. apply IH; [exact Hl|].
  intros k' bv' av' Hin Hg. apply (H k' bv' av'); [right; exact Hin|].
  rewrite sget_sset_neq in Hg; [exact Hg|]. intros ->. apply Hx. apply (in_map fst) in Hin. exact Hin.
Qed.

Lemma dicts_ok_get : forall d k v, dicts_ok (JDict d) -> sget k d = Some v -> dicts_ok v.
Proof. intros d k v H E p d' E'. apply (H (k :: p) d'). cbn. rewrite E. exact E'. Qed.
Lemma dicts_ok_top : forall d, dicts_ok (JDict d) -> NoDup (map fst d).
Proof. intros d H. apply (H [] d). reflexivity. Qed.
Lemma dicts_ok_intro : forall d, NoDup (map fst d) -> (forall k v, sget k d = Some v -> dicts_ok v) -> dicts_ok (JDict d).
Proof.
  intros d ND H p d' E. destruct p as [|k p]; cbn in E; [congruence|].
  destruct (sget k d) as [v|] eqn:Ek; [|discriminate]. apply (H k v Ek p d' E).
Qed.
Lemma dicts_ok_not_dict : forall v, is_mapping v = false -> dicts_ok v.
Proof. intros v H p d E. destruct p; cbn in E; [injection E as ->; discriminate|]. destruct v; discriminate. Qed.

Lemma at_not_dict : forall v k p, is_mapping v = false -> at_path (k :: p) v = None.
Proof. intros v k p H. destruct v; try reflexivity; discriminate. Qed.
Lemma at_app : forall p q v, at_path (p ++ q) v = match at_path p v with Some x => at_path q x | None => None end.
Proof.
  induction p as [|k p IH]; intros q v; [reflexivity|]. cbn. destruct v; try reflexivity.
  destruct (sget k d); [apply IH|reflexivity].
Qed.

Lemma merge_not_dict : forall a b, is_mapping b = false -> merge a b =
  match a with
  | JDict da => match b with JNull => Ok (JDict da) | _ => Raise TypeError end
  | _ =>
      if is_strict_sequence a || is_strict_sequence b then
        do l <- items_of (match b with JNull => a | _ => b end);
        do l' <- rmap clone l;
        Ok (JList l')
      else match a, b with
           | JNull, JNull => Raise ValidationError
           | _, JNull => Ok a
           | _, _ => Ok b
           end
  end.
Proof. intros a b H. destruct b; try reflexivity; discriminate. Qed.

(** The node merged, when the upper one is no dict *)
Lemma merge_leaf : forall a b c, merge a b = Ok c -> is_mapping b = false ->
  over (Some a) (Some b) = Some c /\ (is_mapping a = true -> b = JNull).
Proof.
  intros a b c E Hb. rewrite merge_not_dict in E by exact Hb.
  destruct a; destruct b; cbn in E |- *; try discriminate; (split; [|try discriminate; reflexivity]);
    try congruence;
    try (destruct (rmap clone l) eqn:El; cbn in E; [|discriminate]; apply rmap_clone_id in El; congruence);
    try (destruct (rmap clone l0) eqn:El; cbn in E; [|discriminate]; apply rmap_clone_id in El; congruence).
  destruct (rmap clone (map (fun c0 => JStr [c0]) s)) eqn:El; cbn in E; [|discriminate].
  apply rmap_clone_id in El. congruence.
Qed.

Lemma over_none_l : forall x, over None x = x.
Proof. destruct x as [[]|]; reflexivity. Qed.
Lemma over_none_r : forall x, over x None = x.
Proof. destruct x as [[]|]; reflexivity. Qed.
Lemma same_node_refl : forall x, same_node x x.
Proof. left. reflexivity. Qed.
Lemma same_node_sym : forall x y, same_node x y -> same_node y x.
Proof. intros x y [->|[d [d' [-> ->]]]]; [apply same_node_refl|right; eauto]. Qed.
Lemma same_node_trans : forall x y z, same_node x y -> same_node y z -> same_node x z.
Proof.
  intros x y z [->|[d [d' [-> ->]]]] H; [exact H|].
  destruct H as [<-|[d2 [d3 [E ->]]]]; right; eauto.
Qed.

Theorem merge_at : forall p a b c, dicts_ok b -> merge a b = Ok c ->
  same_node (at_path p c) (over (at_path p a) (at_path p b)).
Proof.
  induction p as [|k p IH]; intros a b c W E.
  - cbn [at_path]. destruct (is_mapping b) eqn:Hb.
    + destruct b; try discriminate. rewrite merge_dict in E.
      destruct a; cbn [rbind] in E; try discriminate;
      destruct (merge_keys _ _) as [d'|]; cbn [rbind] in E; try discriminate; injection E as <-; right; cbn; eauto.
    + left. symmetry. apply (merge_leaf a b c E Hb).
  - destruct (is_mapping b) eqn:Hb.
    + destruct b as [| | | | |db]; try discriminate. rewrite merge_dict in E.
      assert (G : exists da d, merge_keys db da = Ok d /\ c = JDict d /\
                  at_path (k :: p) a = match sget k da with Some x => at_path p x | None => None end).
      { destruct a; cbn [rbind] in E; try discriminate;
        destruct (merge_keys _ _) as [d'|] eqn:Ek; cbn [rbind] in E; try discriminate; injection E as <-; eauto. }
      destruct G as [da [d [Ek [-> Ea]]]]. rewrite Ea. cbn [at_path].
      generalize (merge_keys_get db da d (dicts_ok_top _ W) Ek k).
      destruct (sget k db) as [bv|] eqn:Eb.
      * destruct (sget k da) as [av|].
        -- intros [v [Ev ->]]. apply IH; [|exact Ev]. apply (dicts_ok_get _ _ _ W Eb).
        -- intros ->. rewrite over_none_l. apply same_node_refl.
      * intros ->. rewrite over_none_r. left. reflexivity.
    + rewrite (at_not_dict b) by exact Hb. destruct (merge_leaf a b c E Hb) as [Ec Hd].
      destruct (is_mapping a) eqn:Ha.
      * rewrite (Hd eq_refl) in Ec. destruct a; try discriminate. cbn in Ec. injection Ec as <-.
        rewrite over_none_r. left. reflexivity.
      * rewrite (at_not_dict a) by exact Ha. cbn [over]. left. apply at_not_dict.
        destruct a; try discriminate; destruct b; try discriminate; cbn in Ec; injection Ec as <-; reflexivity.
Qed.

Lemma merge_dicts_ok : forall b a c, dicts_ok a -> dicts_ok b -> merge a b = Ok c -> dicts_ok c.
Proof.
  induction b using json_ind'; intros a c Wa Wb E;
    try (destruct (merge_leaf _ _ _ E eq_refl) as [Ec Hd]; destruct a; cbn in Ec; injection Ec as <-;
         try assumption; apply dicts_ok_not_dict; reflexivity).
  rewrite merge_dict in E.
  assert (G : exists da d', merge_keys d da = Ok d' /\ c = JDict d' /\ dicts_ok (JDict da)).
  { destruct a; cbn [rbind] in E; try discriminate;
    destruct (merge_keys _ _) as [d'|] eqn:Ek; cbn [rbind] in E; try discriminate; injection E as <-; eexists _, _; repeat split; eauto.
    apply dicts_ok_intro; [constructor|]. intros k v Hk. discriminate Hk. }
  destruct G as [da [d' [Ek [-> W]]]]. clear E Wa a. revert da d' W Ek.
  assert (Wd : forall k v, In (k, v) d -> dicts_ok v).
  { intros k v Hin. apply (dicts_ok_get d k); [exact Wb|].
    apply (dget_In_NoDup str_eqb str_eqb_eq); [apply dicts_ok_top; exact Wb|exact Hin]. }
  clear Wb. induction H as [|[k bv] d Hx Hl IH]; intros da d' W Ek; cbn [merge_keys] in Ek.
  - injection Ek as <-. exact W.
  - destruct (match sget k da with Some av => merge av bv | None => Ok bv end) as [v|] eqn:Ev; cbn [rbind] in Ek; [|discriminate].
    apply (IH (fun k v Hin => Wd k v (or_intror Hin)) (sset k v da)); [|exact Ek].
    assert (Wv : dicts_ok v).
    { destruct (sget k da) as [av|] eqn:Ea.
      - apply (Hx av v); [apply (dicts_ok_get _ _ _ W Ea)| |exact Ev]. apply (Wd k). left. reflexivity.
      - injection Ev as <-. apply (Wd k). left. reflexivity. }
    apply dicts_ok_intro; [apply (NoDup_dset str_eqb str_eqb_eq), dicts_ok_top, W|].
    intros k' v' E'. destruct (str_dec k k') as [->|N].
    + rewrite sget_sset_eq in E'. injection E' as <-; exact Wv.
    + rewrite sget_sset_neq in E' by exact N. apply (dicts_ok_get _ _ _ W E').
Qed.

(** When merging succeeds *)
Lemma merge_leaf_ok : forall a b, is_mapping b = false -> (agree a b <-> exists c, merge a b = Ok c).
Proof.
  intros a b Hb. rewrite merge_not_dict by exact Hb.
  assert (L : forall l, solid (JList l) <-> exists c, (do l' <- rmap clone l; Ok (JList l')) = Ok c).
  { intro l. split.
    - intro S. apply rmap_clone_solid in S. rewrite S. eexists. reflexivity.
    - intros [c E]. destruct (rmap clone l) as [l'|] eqn:El; cbn [rbind] in E; [|discriminate].
      assert (l' = l) as -> by (apply rmap_clone_id; exact El). apply rmap_clone_solid. exact El. }
  destruct a; destruct b; cbn; try discriminate;
    try (split; [intros []|intros [c E]; discriminate]);
    try (split; [eexists; reflexivity|intros _; exact I]); try apply L.
  split; [|intros _; exact I]. intros _. apply L. apply solid_chars.
Qed.
Theorem merge_ok_iff : forall b a, dicts_ok b ->
  ((exists c, merge a b = Ok c) <->
   (forall p x y, at_path p a = Some x -> at_path p b = Some y -> agree x y)).
Proof.
  induction b using json_ind'; intros a W;
    try (rewrite <- merge_leaf_ok by reflexivity; split;
         [intros A p x y Ex Ey; destruct p; [cbn in Ex, Ey; congruence|discriminate]
         |intro A; apply (A [] a _ eq_refl eq_refl)]).
  rewrite merge_dict. split.
  - intros [c E] p x y Ex Ey. destruct p as [|k p].
    + cbn in Ex, Ey. injection Ex as <-. injection Ey as <-. destruct a; cbn in E; try discriminate; exact I.
    + destruct a as [| | | | |da]; try discriminate. cbn [rbind] in E. cbn in Ex, Ey.
      destruct (merge_keys d da) as [d'|] eqn:Ek; cbn [rbind] in E; [|discriminate].
      destruct (sget k da) as [av|] eqn:Ea; [|discriminate].
      destruct (sget k d) as [bv|] eqn:Eb; [|discriminate].
      generalize (merge_keys_get d da d' (dicts_ok_top _ W) Ek k). rewrite Ea, Eb. intros [v [Ev _]].
      rewrite Forall_forall in H. generalize (dget_Some_In str_eqb str_eqb_eq _ _ _ Eb). intro Hin.
      apply (proj1 (H (k, bv) Hin av (dicts_ok_get _ _ _ W Eb)) (ex_intro _ v Ev) p x y Ex Ey).
  - intro A. generalize (A [] a (JDict d) eq_refl eq_refl). intro A0.
    assert (G : forall da, (forall k p x y, at_path p (JDict da) = Some x -> at_path p (JDict d) = Some y -> p = k :: tl p -> agree x y) ->
              exists d', merge_keys d da = Ok d').
    { intros da A'. apply merge_keys_ok; [apply dicts_ok_top; exact W|].
      intros k bv av Hin Ea. assert (Eb : sget k d = Some bv) by (apply (dget_In_NoDup str_eqb str_eqb_eq); [apply dicts_ok_top; exact W|exact Hin]).
      rewrite Forall_forall in H. apply (H (k, bv) Hin av (dicts_ok_get _ _ _ W Eb)).
      intros p x y Ex Ey. apply (A' k (k :: p) x y); [cbn; rewrite Ea; exact Ex|cbn; rewrite Eb; exact Ey|reflexivity]. }
    destruct a; try contradiction; cbn [rbind].
    + destruct (G []) as [d' E].
      { intros k p x y Ex Ey Ep. rewrite Ep in Ex. discriminate. }
      rewrite E. eexists. reflexivity.
    + destruct (G d0) as [d' E].
      { intros k p x y Ex Ey Ep. apply (A p x y Ex Ey). }
      rewrite E. eexists. reflexivity.
Qed.

(** ** Merging many *)
Lemma same_node_over : forall x x' y, same_node x x' -> same_node (over x y) (over x' y).
Proof.
  intros x x' y [->|[d [d' [-> ->]]]]; [apply same_node_refl|].
  destruct y as [[]|]; cbn; try (left; reflexivity); right; eauto.
Qed.
Lemma same_node_fold : forall ys x x', same_node x x' -> same_node (fold_left over ys x) (fold_left over ys x').
Proof. induction ys as [|y ys IH]; intros x x' H; [exact H|]. cbn. apply IH, same_node_over, H. Qed.

Theorem merge_all_at : forall ms a c p, Forall dicts_ok ms -> merge_all a ms = (c, None) ->
  same_node (at_path p c) (fold_left over (map (at_path p) ms) (at_path p a)).
Proof.
  induction ms as [|m ms IH]; intros a c p W E; cbn [merge_all] in E.
  - injection E as ->. apply same_node_refl.
  - inversion W as [|x l Wm Wl]; subst. destruct (merge a m) as [a'|] eqn:Em; [|discriminate].
    cbn. eapply same_node_trans; [apply IH; eassumption|]. apply same_node_fold. apply merge_at; assumption.
Qed.
Lemma merge_all_dicts_ok : forall ms a c e, dicts_ok a -> Forall dicts_ok ms -> merge_all a ms = (c, e) -> dicts_ok c.
Proof.
  induction ms as [|m ms IH]; intros a c e Wa W E; cbn [merge_all] in E.
  - injection E as <- _. exact Wa.
  - inversion W as [|x l Wm Wl]; subst. destruct (merge a m) as [a'|] eqn:Em.
    + apply (IH a' c e); [apply (merge_dicts_ok m a a'); assumption|exact Wl|exact E].
    + injection E as <- _. exact Wa.
Qed.

Lemma no_list_and_str_tl : forall v vs, no_list_and_str (v :: vs) -> no_list_and_str vs.
Proof. intros v vs H [l [s [Hl Hs]]]. apply H. exists l, s. split; right; assumption. Qed.
Lemma over_winner2 : forall x y, ~ (exists l s, x = Some (JList l) /\ y = Some (JStr s)) -> over x y = winner [x; y].
Proof.
  intros x y H. destruct x as [[]|]; destruct y as [[]|]; try reflexivity.
  destruct H. eauto.
Qed.
Lemma winner_cons : forall v vs, winner (v :: vs) = winner [v; winner vs].
Proof. intros v vs. cbn. destruct (winner vs); reflexivity. Qed.
Lemma winner2_assoc : forall x y z, winner [winner [x; y]; z] = winner [x; winner [y; z]].
Proof. intros x y z. destruct z as [[]|]; destruct y as [[]|]; destruct x as [[]|]; reflexivity. Qed.
Lemma winner2_in : forall x y, winner [x; y] = x \/ winner [x; y] = y.
Proof. intros x y. destruct y as [[]|]; destruct x as [[]|]; auto. Qed.
Lemma fold_over_winner : forall vs v, no_list_and_str (v :: vs) -> fold_left over vs v = winner (v :: vs).
Proof.
  induction vs as [|y vs IH]; intros v H; [reflexivity|]. cbn [fold_left].
  rewrite (over_winner2 v y).
  - rewrite IH.
    + rewrite (winner_cons (winner [v; y]) vs), winner2_assoc, (winner_cons v (y :: vs)), (winner_cons y vs). reflexivity.
    + intros [l [s [Hl Hs]]]. apply H. exists l, s.
      assert (G : forall w, In w (winner [v; y] :: vs) -> In w (v :: y :: vs)).
      { intros w [Hw|Hw]; [|right; right; exact Hw]. destruct (winner2_in v y) as [E|E]; rewrite E in Hw; [left|right; left]; exact Hw. }
      split; apply G; assumption.
  - intros [l [s [-> ->]]]. apply H. exists l, s. split; [left|right; left]; reflexivity.
Qed.

(** Merging consistent sub-models succeeds *)
Lemma consistent_agree : forall x y, kind x = kind y -> solid x -> solid y -> agree x y.
Proof. intros x y K Sx Sy. destruct x; destruct y; try exact I; try discriminate; try exact Sy; inversion Sx; inversion Sy. Qed.
Lemma same_node_kind : forall x y, same_node (Some x) (Some y) -> kind x = kind y /\ (solid x <-> solid y).
Proof.
  intros x y [E|[d [d' [E E']]]]; [injection E as ->; tauto|].
  injection E as ->. injection E' as ->. split; [reflexivity|split; intros _; constructor].
Qed.
Lemma same_node_some : forall x y, same_node (Some x) y -> exists z, y = Some z.
Proof. intros x y [<-|[d [d' [_ ->]]]]; eauto. Qed.

Lemma over_cases : forall x y z, over x y = Some z -> no_list_and_str [x; y] -> x = Some z \/ y = Some z.
Proof.
  intros x y z E H. rewrite over_winner2 in E.
  - destruct (winner2_in x y) as [G|G]; rewrite G in E; auto.
  - intros [l [s [-> ->]]]. apply H. exists l, s. split; [left|right; left]; reflexivity.
Qed.

Lemma merge_all_ok_from : forall ms done a, consistent (done ++ ms) -> Forall dicts_ok ms ->
  (forall p x, at_path p a = Some x -> exists m y, In m done /\ at_path p m = Some y /\ same_node (Some x) (Some y)) ->
  exists c, merge_all a ms = (c, None).
Proof.
  induction ms as [|m ms IH]; intros done a C W Inv; cbn [merge_all]; [eexists; reflexivity|].
  inversion W as [|x0 l0 Wm Wl]; subst.
  assert (Im : In m (done ++ m :: ms)) by (apply in_or_app; right; left; reflexivity).
  assert (G : exists c, merge a m = Ok c).
  { apply (merge_ok_iff m a Wm). intros p x y Ex Ey.
    destruct (Inv p x Ex) as [m' [x' [Hm' [Ex' S]]]].
    assert (Im' : In m' (done ++ m :: ms)) by (apply in_or_app; left; exact Hm').
    destruct (same_node_kind _ _ S) as [K1 K2].
    destruct (C p m' m x' y Im' Im Ex' Ey) as [K3 K4].
    destruct (C p m m y y Im Im Ey Ey) as [_ K5].
    apply consistent_agree; [congruence|tauto|exact K5]. }
  destruct G as [c E]. rewrite E. apply (IH (done ++ [m]) c).
  - rewrite <- app_assoc. exact C.
  - exact Wl.
  - intros p x Ex. generalize (merge_at p a m c Wm E). rewrite Ex. intro S.
    destruct (same_node_some _ _ S) as [z Ez]. rewrite Ez in S.
    destruct (over_cases _ _ _ Ez) as [H|H].
    + intros [l [s [Hl Hs]]]. cbn in Hl, Hs.
      destruct Hl as [Hl|[Hl|[]]]; destruct Hs as [Hs|[Hs|[]]]; try congruence.
      * destruct (Inv p _ Hl) as [m' [x' [Hm' [Ex' S']]]].
        assert (Im' : In m' (done ++ m :: ms)) by (apply in_or_app; left; exact Hm').
        destruct (same_node_kind _ _ S') as [K1 _]. destruct (C p m' m _ _ Im' Im Ex' Hs) as [K _].
        cbn in K1, K. congruence.
      * destruct (Inv p _ Hs) as [m' [x' [Hm' [Ex' S']]]].
        assert (Im' : In m' (done ++ m :: ms)) by (apply in_or_app; left; exact Hm').
        destruct (same_node_kind _ _ S') as [K1 _]. destruct (C p m' m _ _ Im' Im Ex' Hl) as [K _].
        cbn in K1, K. congruence.
    + destruct (Inv p z H) as [m' [y [Hm' [Ey S']]]]. exists m', y. split; [apply in_or_app; left; exact Hm'|].
      split; [exact Ey|]. eapply same_node_trans; eassumption.
    + exists m, z. split; [apply in_or_app; right; left; reflexivity|]. split; [exact H|exact S].
Qed.
Theorem merge_all_ok : forall ms, consistent ms -> Forall dicts_ok ms -> exists c, merge_all JNull ms = (c, None).
Proof.
  intros [|m ms] C W; [eexists; reflexivity|]. cbn [merge_all]. inversion W as [|x0 l0 Wm Wl]; subst.
  assert (Sm : forall p y, at_path p m = Some y -> solid y).
  { intros p y E. apply (C p m m y y); try (left; reflexivity); assumption. }
  assert (G : exists c, merge JNull m = Ok c).
  { apply (merge_ok_iff m JNull Wm). intros p x y Ex Ey. destruct p; [|discriminate].
    cbn in Ex. injection Ex as <-. specialize (Sm _ _ Ey). destruct y; try exact I; try exact Sm. inversion Sm. }
  destruct G as [c E]. rewrite E. apply (merge_all_ok_from ms [m] c); [exact C|exact Wl|].
  intros p x Ex. generalize (merge_at p JNull m c Wm E). rewrite Ex. intro S.
  destruct (same_node_some _ _ S) as [z Ez]. rewrite Ez in S.
  exists m, z. split; [left; reflexivity|]. split; [|exact S].
  destruct p as [|k p]; [|cbn [at_path] in Ez; rewrite over_none_l in Ez; exact Ez].
  cbn in Ez |- *. specialize (Sm [] m eq_refl). destruct m; cbn in Ez; try exact Ez; inversion Sm.
Qed.

(** ** Validating *)
Section KwInd.
  Variable P : kw -> Prop.
  Hypothesis Hprops : forall ps, (forall p sub k, In (p, sub) ps -> In k sub -> P k) -> P (KProps ps).
  Hypothesis Hother : forall k, not_props k -> P k.
  Fixpoint kw_ind' (k : kw) : P k.
  Proof.
    destruct k; try (apply Hother; exact I).
    apply Hprops. induction ps as [|[p0 sub0] ps IH]; intros p sub k H; [destruct H|].
    destruct H as [H|H].
    - injection H as _ <-. clear IH. induction sub0 as [|k0 sub0 IH]; intro Hk; [destruct Hk|].
      destruct Hk as [<-|Hk]; [apply kw_ind'|apply IH; exact Hk].
    - apply (IH p sub k H).
  Defined.
End KwInd.

Section Visit.
  Variables auto_default auto_default_nulls auto_remove_nulls : bool.
  Variable other : nat -> json -> list nat.
  Notation fill_prop' := (fill_prop auto_default auto_default_nulls auto_remove_nulls).
  Notation fill' := (fill auto_default auto_default_nulls auto_remove_nulls).
  Notation visit_kw' := (visit_kw auto_default auto_default_nulls auto_remove_nulls other).
  Notation visit' := (visit auto_default auto_default_nulls auto_remove_nulls other).

  Definition visit_props := fix props (ps : list (pystr * schema)) (d : list (pystr * json)) : list (pystr * json) * list verr :=
    match ps with
    | [] => (d, [])
    | (p, sub) :: ps' =>
        match sget p d with
        | None => props ps' d
        | Some x =>
            let '(x, es) := visit' sub x in
            let '(d, es') := props ps' (sset p x d) in
            (d, es ++ es')
        end
    end.
  Lemma visit_kw_props : forall ps d, visit_kw' (KProps ps) (JDict d) =
    let '(d, es) := visit_props ps (fill' ps d) in (JDict d, es).
  Proof.
    intros ps d. cbn [visit_kw].
    assert (V : forall (s : schema) x, (fix kws (s : schema) (x : json) : json * list verr :=
                 match s with
                 | [] => (x, [])
                 | k :: s' => let '(x, es) := visit_kw' k x in let '(x, es') := kws s' x in (x, es ++ es')
                 end) s x = visit' s x).
    { induction s as [|k s IH]; intro x; [reflexivity|]. cbn [visit]. destruct (visit_kw' k x) as [x' es]. rewrite IH. reflexivity. }
    match goal with |- (let '(_, _) := ?f ps ?d0 in _) = _ => assert (G : forall ps' d', f ps' d' = visit_props ps' d') end.
    { induction ps' as [|[p sub] ps' IH]; intro d'; [reflexivity|]. cbn [visit_props].
      destruct (sget p d') as [x|]; [|apply IH]. rewrite V. destruct (visit' sub x) as [x' es]. rewrite IH. reflexivity. }
    rewrite G. reflexivity.
  Qed.

  (** Whatever the steps of a visit keep is kept by the visit. *)
  Section Keep.
    Variable R : json -> json -> Prop.
    Hypothesis R_refl : forall v, R v v.
    Hypothesis R_trans : forall u v w, R u v -> R v w -> R u w.
    Variable S : schema -> Prop.
    Hypothesis S_sub : forall s ps p sub, S s -> In (KProps ps) s -> In (p, sub) ps -> S sub.
    Hypothesis R_fill : forall s ps p sub d, S s -> In (KProps ps) s -> In (p, sub) ps -> R (JDict d) (JDict (fill_prop' p sub d)).
    Hypothesis R_set : forall p d x y, sget p d = Some x -> R x y -> R (JDict d) (JDict (sset p y d)).

    Lemma keep_fill : forall s ps d, S s -> In (KProps ps) s -> R (JDict d) (JDict (fill' ps d)).
    Proof.
      intros s ps d Hs Hps. unfold fill. destruct (installed _ _ _); [|apply R_refl].
      assert (G : forall ps' d, incl ps' ps -> R (JDict d) (JDict (fold_left (fun d ps => fill_prop' (fst ps) (snd ps) d) ps' d))).
      { induction ps' as [|[p sub] ps' IH]; intros d' Hi; [apply R_refl|]. cbn.
        eapply R_trans; [|apply IH; intros x Hx; apply Hi; right; exact Hx].
        apply (R_fill s ps); [exact Hs|exact Hps|apply Hi; left; reflexivity]. }
      apply G. intros x Hx. exact Hx.
    Qed.
    Lemma keep_kw : forall k s v, S s -> In k s -> R v (fst (visit_kw' k v)).
    Proof.
      induction k as [ps IH|k Hk] using kw_ind'; intros s v Hs Hin.
      - destruct v as [| | | | |d]; try apply R_refl. rewrite visit_kw_props.
        assert (G : forall ps' d', incl ps' ps -> R (JDict d') (JDict (fst (visit_props ps' d')))).
        { induction ps' as [|[p sub] ps' IHp]; intros d' Hi; [apply R_refl|]. cbn [visit_props].
          assert (Hi' : incl ps' ps) by (intros x Hx; apply Hi; right; exact Hx).
          assert (Hp : In (p, sub) ps) by (apply Hi; left; reflexivity).
          destruct (sget p d') as [x|] eqn:E; [|apply IHp; exact Hi'].
          destruct (visit' sub x) as [x' es] eqn:Ev.
          specialize (IHp (sset p x' d') Hi'). destruct (visit_props ps' (sset p x' d')) as [d2 es']. cbn [fst] in *.
          eapply R_trans; [|exact IHp]. apply (R_set p d' x x' E).
          assert (Hsub : S sub) by (apply (S_sub s ps p sub); assumption).
          assert (V : forall s' y, incl s' sub -> R y (fst (visit' s' y))).
          { induction s' as [|k s' IHs]; intros y Hy; [apply R_refl|]. cbn [visit].
            generalize (IH p sub k Hp (Hy k (or_introl eq_refl)) sub y Hsub (Hy k (or_introl eq_refl))).
            destruct (visit_kw' k y) as [y' es1]. cbn [fst]. intro R1.
            specialize (IHs y' (fun z Hz => Hy z (or_intror Hz))). destruct (visit' s' y') as [y2 es2]. cbn [fst] in *.
            eapply R_trans; eassumption. }
          specialize (V sub x (fun z Hz => Hz)). rewrite Ev in V. exact V. }
        specialize (G ps (fill' ps d) (fun z Hz => Hz)). destruct (visit_props ps (fill' ps d)) as [d2 es]. cbn [fst] in *.
        eapply R_trans; [apply (keep_fill s ps d Hs Hin)|exact G].
      - destruct k; try destruct Hk; apply R_refl.
    Qed.
    Lemma keep_visit : forall s v, S s -> R v (fst (visit' s v)).
    Proof.
      intros s v Hs.
      assert (V : forall s' y, incl s' s -> R y (fst (visit' s' y))).
      { induction s' as [|k s' IHs]; intros y Hy; [apply R_refl|]. cbn [visit].
        generalize (keep_kw k s y Hs (Hy k (or_introl eq_refl))).
        destruct (visit_kw' k y) as [y' es1]. cbn [fst]. intro R1.
        specialize (IHs y' (fun z Hz => Hy z (or_intror Hz))). destruct (visit' s' y') as [y2 es2]. cbn [fst] in *.
        eapply R_trans; eassumption. }
      apply V. intros x Hx. exact Hx.
    Qed.
  End Keep.

  (** [fill_prop] touches its property only. *)
  Lemma fill_prop_other : forall p sub d k, k <> p -> sget k (fill_prop' p sub d) = sget k d.
  Proof.
    intros p sub d k N. unfold fill_prop.
    destruct (get_default sub) as [v|]; [match goal with |- context [if ?c then sset _ _ _ else _] => destruct c end|];
      try (apply sget_sset_neq; congruence);
      match goal with |- context [if ?c then sdel _ _ else _] => destruct c end;
      try (apply sget_sdel_neq; congruence); reflexivity.
  Qed.
  Lemma fill_prop_given : forall p sub d x, sget p d = Some x -> x <> JNull -> fill_prop' p sub d = d.
  Proof.
    intros p sub d x E N. unfold fill_prop. rewrite E.
    assert (Hn : is_null x = false) by (destruct x; congruence || reflexivity). rewrite Hn.
    rewrite !andb_false_r. cbn. destruct (get_default sub); reflexivity.
  Qed.
  Lemma kw_get_In : forall A (sel : kw -> option A) s a, kw_get sel s = Some a -> exists k, In k s /\ sel k = Some a.
  Proof.
    induction s as [|k s IH]; intros a E; cbn in E; [discriminate|].
    destruct (sel k) as [a'|] eqn:Ek.
    - injection E as ->. exists k. split; [left; reflexivity|exact Ek].
    - destruct (IH a E) as [k' [H1 H2]]. exists k'. split; [right; exact H1|exact H2].
  Qed.
  Lemma get_default_In : forall s v, get_default s = Some v -> In (KDefault v) s.
  Proof.
    intros s v E. destruct (kw_get_In _ _ _ _ E) as [k [Hin Ek]]. destruct k; try discriminate. injection Ek as ->. exact Hin.
  Qed.
  (** Either left, or removed when null, or the default *)
  Lemma fill_prop_self : forall p sub d,
    fill_prop' p sub d = d
    \/ (sget p d = Some JNull /\ fill_prop' p sub d = sdel p d)
    \/ ((sget p d = None \/ sget p d = Some JNull) /\ exists v, get_default sub = Some v /\ fill_prop' p sub d = sset p v d).
  Proof.
    intros p sub d. destruct (sget p d) as [x|] eqn:E.
    - assert (X : x = JNull \/ x <> JNull) by (destruct x; (left; reflexivity) || (right; discriminate)).
      destruct X as [->|N]; [|left; apply (fill_prop_given p sub d x E N)].
      unfold fill_prop. rewrite E.
      destruct (get_default sub) as [v|] eqn:Ed.
      + match goal with |- context [if ?c then sset _ _ _ else _] => destruct c end.
        * right. right. split; [right; reflexivity|]. exists v. split; reflexivity.
        * match goal with |- context [if ?c then sdel _ _ else _] => destruct c end; [right; left; split; reflexivity|left; reflexivity].
      + match goal with |- context [if ?c then sdel _ _ else _] => destruct c end; [right; left; split; reflexivity|left; reflexivity].
    - unfold fill_prop. rewrite E. rewrite !andb_false_r.
      destruct (get_default sub) as [v|] eqn:Ed; [|left; reflexivity].
      match goal with |- context [if ?c then sset _ _ _ else _] => destruct c end; [|left; reflexivity].
      right. right. split; [left; reflexivity|]. exists v. split; reflexivity.
  Qed.

  (** Present values that are not null are kept. *)
  Definition kept (v v' : json) : Prop :=
    forall p x, at_path p v = Some x -> x <> JNull -> same_node (Some x) (at_path p v').
  Lemma kept_refl : forall v, kept v v.
  Proof. intros v p x E _. rewrite E. apply same_node_refl. Qed.
  Lemma kept_trans : forall u v w, kept u v -> kept v w -> kept u w.
  Proof.
    intros u v w H1 H2 p x E N. specialize (H1 p x E N).
    destruct (same_node_some _ _ H1) as [y Ey]. rewrite Ey in H1.
    eapply same_node_trans; [exact H1|]. apply (H2 p y Ey).
    intros ->. destruct H1 as [H|[d [d' [H H']]]]; congruence.
  Qed.
  Theorem visit_keeps : forall s v, kept v (fst (visit' s v)).
  Proof.
    intros s v. apply (keep_visit kept kept_refl kept_trans (fun _ => True)); [auto| |  |exact I].
    - intros s0 ps p sub d _ _ _ q x E N. destruct q as [|k q]; [cbn in *; injection E as <-; right; eauto|].
      cbn in E |- *. destruct (str_dec k p) as [->|Nk].
      + destruct (sget p d) as [y|] eqn:Ep; [|discriminate].
        assert (Ny : y <> JNull).
        { intros ->. destruct q; cbn in E; [congruence|discriminate]. }
        rewrite (fill_prop_given p sub d y Ep Ny), Ep, E. apply same_node_refl.
      + rewrite fill_prop_other by exact Nk. rewrite E. apply same_node_refl.
    - intros p d x y E H q z Ez N. destruct q as [|k q]; [cbn in *; injection Ez as <-; right; eauto|].
      cbn in Ez |- *. destruct (str_dec p k) as [<-|Nk].
      + rewrite sget_sset_eq. rewrite E in Ez. apply (H q z Ez N).
      + rewrite sget_sset_neq by exact Nk. rewrite Ez. apply same_node_refl.
  Qed.
  (** What is new lies inside a default. *)
  Definition explained (s : schema) (v v' : json) : Prop :=
    forall q x, at_path q v' = Some x -> at_path q v = None \/ (at_path q v = Some JNull /\ x <> JNull) ->
      exists p r d, q = p ++ r /\ declares s p d /\ p <> [].
  Lemma explained_refl : forall s v, explained s v v.
  Proof. intros s v q x E [E'|(E' & N)]; congruence. Qed.
  Lemma explained_trans : forall s u v w, explained s u v -> explained s v w -> explained s u w.
  Proof.
    intros s u v w H1 H2 q x E N. destruct (at_path q v) as [y|] eqn:Ey; [|apply (H2 q x E (or_introl Ey))].
    assert (D : y = JNull \/ y <> JNull) by (destruct y; auto; right; discriminate). destruct D as [->|D].
    - destruct N as [N|(N & Nx)].
      + apply (H1 q JNull Ey (or_introl N)).
      + apply (H2 q x E (or_intror (conj Ey Nx))).
    - apply (H1 q y Ey). destruct N as [N|(N & _)]; [now left|right; now split].
  Qed.
  Lemma explained_fill : forall s ps p sub d, In (KProps ps) s -> In (p, sub) ps -> explained s (JDict d) (JDict (fill_prop' p sub d)).
  Proof.
    intros s ps p sub d Hps Hp q x E N. destruct q as [|k q]; [destruct N as [N|(N & _)]; discriminate|].
    cbn in E, N. destruct (str_dec k p) as [->|Nk].
    - destruct (fill_prop_self p sub d) as [F|[[_ F]|[_ [v [Ed F]]]]].
      + rewrite F in E. rewrite E in N. destruct N as [N|(N & Nx)]; [discriminate|congruence].
      + rewrite F, sget_sdel_eq in E. discriminate.
      + exists [p], q, v. split; [reflexivity|]. split; [|discriminate].
        apply (declares_here s ps p sub v Hps Hp (get_default_In _ _ Ed)).
    - rewrite fill_prop_other in E by exact Nk. rewrite E in N. destruct N as [N|(N & Nx)]; [discriminate|congruence].
  Qed.
  Lemma visit_explained_kw : forall k s v, In k s -> explained s v (fst (visit_kw' k v)).
  Proof.
    induction k as [ps IH|k Hk] using kw_ind'; intros s v Hin.
    - destruct v as [| | | | |d]; try apply explained_refl. rewrite visit_kw_props.
      assert (G : forall ps' d', incl ps' ps -> explained s (JDict d') (JDict (fst (visit_props ps' d')))).
      { induction ps' as [|[p sub] ps' IHp]; intros d' Hi; [apply explained_refl|]. cbn [visit_props].
        assert (Hi' : incl ps' ps) by (intros x Hx; apply Hi; right; exact Hx).
        assert (Hp : In (p, sub) ps) by (apply Hi; left; reflexivity).
        destruct (sget p d') as [x|] eqn:E; [|apply IHp; exact Hi'].
        destruct (visit' sub x) as [x' es] eqn:Ev.
        specialize (IHp (sset p x' d') Hi'). destruct (visit_props ps' (sset p x' d')) as [d2 es']. cbn [fst] in *.
        eapply explained_trans; [|exact IHp].
        assert (V : forall s' y, incl s' sub -> explained sub y (fst (visit' s' y))).
        { induction s' as [|k s' IHs]; intros y Hy; [apply explained_refl|]. cbn [visit].
          generalize (IH p sub k Hp (Hy k (or_introl eq_refl)) sub y (Hy k (or_introl eq_refl))).
          destruct (visit_kw' k y) as [y' es1]. cbn [fst]. intro R1.
          specialize (IHs y' (fun z Hz => Hy z (or_intror Hz))). destruct (visit' s' y') as [y2 es2]. cbn [fst] in *.
          eapply explained_trans; eassumption. }
        specialize (V sub x (fun z Hz => Hz)). rewrite Ev in V. cbn [fst] in V.
        intros q z Ez Nz. destruct q as [|k q]; [destruct Nz as [Nz|(Nz & _)]; discriminate|]. cbn in Ez, Nz. destruct (str_dec p k) as [<-|Nk].
        - rewrite sget_sset_eq in Ez. rewrite E in Nz. destruct (V q z Ez Nz) as [p1 [r [dd [-> [HD Np]]]]].
          exists (p :: p1), r, dd. split; [reflexivity|]. split; [|discriminate].
          apply (declares_deeper s ps p sub p1 dd Hin Hp HD).
        - rewrite sget_sset_neq in Ez by exact Nk. rewrite Ez in Nz. destruct Nz as [Nz|(Nz & Nx)]; [discriminate|congruence]. }
      specialize (G ps (fill' ps d) (fun z Hz => Hz)). destruct (visit_props ps (fill' ps d)) as [d2 es]. cbn [fst] in *.
      eapply explained_trans; [|exact G].
      unfold fill. destruct (installed _ _ _); [|apply explained_refl].
      assert (F : forall ps' d, incl ps' ps -> explained s (JDict d) (JDict (fold_left (fun d ps => fill_prop' (fst ps) (snd ps) d) ps' d))).
      { induction ps' as [|[p sub] ps' IHf]; intros d' Hi; [apply explained_refl|]. cbn.
        eapply explained_trans; [|apply IHf; intros x Hx; apply Hi; right; exact Hx].
        apply (explained_fill s ps); [exact Hin|apply Hi; left; reflexivity]. }
      apply F. intros x Hx. exact Hx.
    - destruct k; try destruct Hk; apply explained_refl.
  Qed.
  Theorem visit_explained : forall s v, explained s v (fst (visit' s v)).
  Proof.
    intros s v.
    assert (V : forall s' y, incl s' s -> explained s y (fst (visit' s' y))).
    { induction s' as [|k s' IHs]; intros y Hy; [apply explained_refl|]. cbn [visit].
      generalize (visit_explained_kw k s y (Hy k (or_introl eq_refl))).
      destruct (visit_kw' k y) as [y' es1]. cbn [fst]. intro R1.
      specialize (IHs y' (fun z Hz => Hy z (or_intror Hz))). destruct (visit' s' y') as [y2 es2]. cbn [fst] in *.
      eapply explained_trans; eassumption. }
    apply V. intros x Hx. exact Hx.
  Qed.

  (** Without defaults: nothing changes, except nulls that are removed. *)
  Definition only_nulls_removed (v v' : json) : Prop :=
    forall q, at_path q v' = at_path q v
              \/ same_node (at_path q v') (at_path q v)
              \/ (at_path q v = Some JNull /\ at_path q v' = None).
  Lemma visit_no_defaults : forall s v p, no_defaults s ->
    same_node (at_path p (fst (visit' s v))) (at_path p v)
    \/ (at_path p v = Some JNull /\ at_path p (fst (visit' s v)) = None).
  Proof.
    intros s v p H.
    pose (R := fun v v' : json => forall p, same_node (at_path p v') (at_path p v) \/ (at_path p v = Some JNull /\ at_path p v' = None)).
    apply (keep_visit R) with (S := no_defaults); [| | | | |exact H].
    - intros u q. left. apply same_node_refl.
    - intros u w z H1 H2 q. destruct (H1 q) as [S1|[E1 E1']]; destruct (H2 q) as [S2|[E2 E2']].
      + left. eapply same_node_trans; eassumption.
      + right. split; [|exact E2']. rewrite E2 in S1. destruct S1 as [E|[d [d' [E _]]]]; congruence.
      + right. split; [exact E1|]. rewrite E1' in S2. destruct S2 as [E|[d [d' [_ E]]]]; congruence.
      + congruence.
    - intros s0 ps q sub H0 Hps Hq r w HD. apply (H0 (q :: r) w). apply (declares_deeper s0 ps q sub r w Hps Hq HD).
    - intros s0 ps q sub d H0 Hps Hq r. destruct (fill_prop_self q sub d) as [F|[[E F]|[_ [w [Ed F]]]]].
      + rewrite F. left. apply same_node_refl.
      + rewrite F. destruct r as [|k r]; [left; right; cbn; eauto|]. cbn. destruct (str_dec q k) as [<-|Nk].
        * rewrite sget_sdel_eq, E. destruct r; [right; split; reflexivity|left; left; reflexivity].
        * rewrite sget_sdel_neq by exact Nk. left. apply same_node_refl.
      + destruct (H0 [q] w). apply (declares_here s0 ps q sub w Hps Hq (get_default_In _ _ Ed)).
    - intros q d x y E H0 r. destruct r as [|k r]; [left; right; cbn; eauto|]. cbn. destruct (str_dec q k) as [<-|Nk].
      + rewrite sget_sset_eq, E. apply H0.
      + rewrite sget_sset_neq by exact Nk. left. apply same_node_refl.
  Qed.
  (** Dicts stay dicts of unique keys. *)
  Lemma visit_dicts_ok : forall s v, defaults_ok s -> dicts_ok v -> dicts_ok (fst (visit' s v)).
  Proof.
    intros s v H. apply (keep_visit (fun v v' => dicts_ok v -> dicts_ok v')) with (S := defaults_ok); [auto|auto| | | |exact H].
    - intros s0 ps q sub H0 Hps Hq r w HD. apply (H0 (q :: r) w). apply (declares_deeper s0 ps q sub r w Hps Hq HD).
    - intros s0 ps q sub d H0 Hps Hq W. destruct (fill_prop_self q sub d) as [F|[[E F]|[_ [w [Ed F]]]]]; rewrite F; [exact W| |].
      + apply dicts_ok_intro; [apply NoDup_sdel, dicts_ok_top, W|]. intros k x Ek. destruct (str_dec q k) as [<-|Nk].
        * rewrite sget_sdel_eq in Ek. discriminate.
        * rewrite sget_sdel_neq in Ek by exact Nk. apply (dicts_ok_get _ _ _ W Ek).
      + apply dicts_ok_intro; [apply (NoDup_dset str_eqb str_eqb_eq), dicts_ok_top, W|]. intros k x Ek. destruct (str_dec q k) as [<-|Nk].
        * rewrite sget_sset_eq in Ek. injection Ek as <-. apply (H0 [q] w). apply (declares_here s0 ps q sub w Hps Hq (get_default_In _ _ Ed)).
        * rewrite sget_sset_neq in Ek by exact Nk. apply (dicts_ok_get _ _ _ W Ek).
    - intros q d x y E H0 W. apply dicts_ok_intro; [apply (NoDup_dset str_eqb str_eqb_eq), dicts_ok_top, W|].
      intros k z Ek. destruct (str_dec q k) as [<-|Nk].
      + rewrite sget_sset_eq in Ek. injection Ek as <-. apply H0. apply (dicts_ok_get _ _ _ W E).
      + rewrite sget_sset_neq in Ek by exact Nk. apply (dicts_ok_get _ _ _ W Ek).
  Qed.

  (** What [fill] leaves at each property *)
  Lemma fill_other : forall ps d k, ~ In k (map fst ps) -> sget k (fill' ps d) = sget k d.
  Proof.
    intros ps d k. unfold fill. destruct (installed _ _ _); [|reflexivity]. revert d.
    induction ps as [|[p sub] ps IH]; intros d N; [reflexivity|]. cbn in N |- *. rewrite IH by tauto.
    apply fill_prop_other. intros ->. apply N. left. reflexivity.
  Qed.
  Lemma fill_get : forall ps d p sub, NoDup (map fst ps) -> In (p, sub) ps ->
    sget p (fill' ps d) = if installed auto_default auto_default_nulls auto_remove_nulls then sget p (fill_prop' p sub d) else sget p d.
  Proof.
    intros ps d p sub. unfold fill. destruct (installed _ _ _); [|reflexivity]. revert d.
    induction ps as [|[p0 sub0] ps IH]; intros d ND Hin; [destruct Hin|].
    cbn in ND. inversion ND as [|x l Hx Hl]; subst. cbn [fold_left fst snd].
    destruct Hin as [E|Hin].
    - injection E as -> ->.
      assert (F : forall d', sget p (fold_left (fun d ps => fill_prop' (fst ps) (snd ps) d) ps d') = sget p d').
      { clear - Hx. induction ps as [|[p1 sub1] ps IH]; intro d'; [reflexivity|]. cbn in Hx |- *. rewrite IH by tauto.
        apply fill_prop_other. intros ->. apply Hx. left. reflexivity. }
      apply F.
    - rewrite IH by assumption.
      assert (N : p <> p0) by (intros ->; apply Hx; apply (in_map fst) in Hin; exact Hin).
      unfold fill_prop at 1 3. rewrite fill_prop_other by exact N.
      destruct (get_default sub); [match goal with |- context [if ?c then sset p _ _ else _] => destruct c end|];
        try (rewrite !sget_sset_eq; reflexivity);
        match goal with |- context [if ?c then sdel p _ else _] => destruct c end;
        try (rewrite !sget_sdel_eq; reflexivity); apply fill_prop_other; exact N.
  Qed.
End Visit.

Lemma kw_get_None : forall A (sel : kw -> option A) s, (forall k a, In k s -> sel k <> Some a) -> kw_get sel s = None.
Proof.
  induction s as [|k s IH]; intro H; [reflexivity|]. cbn. destruct (sel k) as [a|] eqn:E.
  - destruct (H k a (or_introl eq_refl) E).
  - apply IH. intros k' a' Hin. apply H. right. exact Hin.
Qed.

Section Shapes.
  Variables auto_default auto_default_nulls auto_remove_nulls : bool.
  Variable other : nat -> json -> list nat.
  Notation fill' := (fill auto_default auto_default_nulls auto_remove_nulls).
  Notation visit_kw' := (visit_kw auto_default auto_default_nulls auto_remove_nulls other).
  Notation visit' := (visit auto_default auto_default_nulls auto_remove_nulls other).
  Notation visit_props' := (visit_props auto_default auto_default_nulls auto_remove_nulls other).

  Lemma visit_cons : forall k s v, fst (visit' (k :: s) v) = fst (visit' s (fst (visit_kw' k v))).
  Proof. intros k s v. cbn [visit]. destruct (visit_kw' k v) as [v' es]. cbn [fst]. destruct (visit' s v'). reflexivity. Qed.
  Lemma visit_app : forall s1 s2 v, fst (visit' (s1 ++ s2) v) = fst (visit' s2 (fst (visit' s1 v))).
  Proof.
    induction s1 as [|k s1 IH]; intros s2 v; [reflexivity|]. cbn [app]. rewrite !visit_cons. apply IH.
  Qed.
  Lemma visit_kw_id : forall k v, not_props k -> fst (visit_kw' k v) = v.
  Proof. intros k v H. destruct k; try reflexivity. destruct H. Qed.
  Lemma visit_none : forall s v, (forall k, In k s -> not_props k) -> fst (visit' s v) = v.
  Proof.
    induction s as [|k s IH]; intros v H; [reflexivity|]. rewrite visit_cons, visit_kw_id by (apply H; left; reflexivity).
    apply IH. intros k' Hin. apply H. right. exact Hin.
  Qed.
  Lemma visit_not_dict : forall s v, is_mapping v = false -> fst (visit' s v) = v.
  Proof.
    induction s as [|k s IH]; intros v H; [reflexivity|]. rewrite visit_cons.
    assert (E : fst (visit_kw' k v) = v) by (destruct k; try reflexivity; destruct v; try reflexivity; discriminate).
    rewrite E. apply IH, H.
  Qed.
  Lemma visit_one_props : forall s1 ps s2 v, (forall k, In k s1 -> not_props k) -> (forall k, In k s2 -> not_props k) ->
    fst (visit' (s1 ++ KProps ps :: s2) v) = fst (visit_kw' (KProps ps) v).
  Proof. intros s1 ps s2 v H1 H2. rewrite visit_app, (visit_none s1) by exact H1. rewrite visit_cons. apply visit_none. exact H2. Qed.

  Lemma visit_props_other : forall ps d k, ~ In k (map fst ps) -> sget k (fst (visit_props' ps d)) = sget k d.
  Proof.
    induction ps as [|[p sub] ps IH]; intros d k N; [reflexivity|]. cbn in N. cbn [visit_props].
    destruct (sget p d) as [x|]; [|apply IH; tauto]. destruct (visit' sub x) as [x' es].
    specialize (IH (sset p x' d) k). destruct (visit_props' ps (sset p x' d)) as [d2 es']. cbn [fst] in *.
    rewrite IH by tauto. apply sget_sset_neq. intros ->. apply N. left. reflexivity.
  Qed.
  Lemma visit_props_get : forall ps d p sub, NoDup (map fst ps) -> In (p, sub) ps ->
    sget p (fst (visit_props' ps d)) = match sget p d with Some x => Some (fst (visit' sub x)) | None => None end.
  Proof.
    induction ps as [|[p0 sub0] ps IH]; intros d p sub ND Hin; [destruct Hin|]. cbn in ND.
    inversion ND as [|x l Hx Hl]; subst. cbn [visit_props]. destruct Hin as [E|Hin].
    - injection E as -> ->. destruct (sget p d) as [x|] eqn:Ex.
      + destruct (visit' sub x) as [x' es]. generalize (visit_props_other ps (sset p x' d) p Hx).
        destruct (visit_props' ps (sset p x' d)) as [d2 es']. cbn [fst]. intros ->. apply sget_sset_eq.
      + rewrite visit_props_other by exact Hx. exact Ex.
    - assert (N : p0 <> p) by (intros ->; apply Hx; apply (in_map fst) in Hin; exact Hin).
      destruct (sget p0 d) as [x|]; [|apply IH; assumption]. destruct (visit' sub0 x) as [x' es].
      specialize (IH (sset p0 x' d) p sub Hl Hin). destruct (visit_props' ps (sset p0 x' d)) as [d2 es']. cbn [fst] in *.
      rewrite IH, sget_sset_neq by exact N. reflexivity.
  Qed.

  Lemma declares_nil : forall s v, ~ declares s [] v.
  Proof. intros s v H. inversion H. Qed.
  Lemma declares_inv : forall s q v, declares s q v -> exists ps p sub, In (KProps ps) s /\ In (p, sub) ps /\
    ((q = [p] /\ In (KDefault v) sub) \/ exists q', q = p :: q' /\ declares sub q' v).
  Proof. intros s q v H. destruct H; exists ps, p, sub; eauto 8. Qed.
  Lemma one_props : forall s1 ps s2 ps', (forall k, In k s1 -> not_props k) -> (forall k, In k s2 -> not_props k) ->
    In (KProps ps') (s1 ++ KProps ps :: s2) -> ps' = ps.
  Proof.
    intros s1 ps s2 ps' H1 H2 Hin. apply in_app_or in Hin. destruct Hin as [Hin|[E|Hin]].
    - destruct (H1 _ Hin).
    - congruence.
    - destruct (H2 _ Hin).
  Qed.

End Shapes.

(** Filling does what it should, in schemas without switches, if nulls are not removed. *)
Section Complete.
  Variable auto_default_nulls : bool.
  Variable other : nat -> json -> list nat.
  Notation fill' := (fill true auto_default_nulls false).
  Notation fill_prop' := (fill_prop true auto_default_nulls false).
  Notation visit_kw' := (visit_kw true auto_default_nulls false other).
  Notation visit' := (visit true auto_default_nulls false other).
  Notation visit_props' := (visit_props true auto_default_nulls false other).

  Lemma get_default_some : forall sub v, In (KDefault v) sub -> exists v1, get_default sub = Some v1.
  Proof.
    intros sub v Hd. unfold get_default. destruct (kw_get _ sub) as [v1|] eqn:G; [eauto|]. exfalso.
    induction sub as [|k sub IH]; [destruct Hd|]. cbn in G. destruct Hd as [->|Hd]; [discriminate|].
    destruct k; try (apply IH; assumption). discriminate.
  Qed.
  Section Unswitched.
    Variables (p : pystr) (sub : schema).
    Hypothesis K : forall v, ~ In (KAutoDefault v) sub /\ ~ In (KAutoDefaultNull v) sub /\ ~ In (KAutoRemoveNull v) sub.
    Lemma unswitched_auto : get_auto sub = None.
    Proof. apply kw_get_None. intros k a Hin Hs. destruct k; try discriminate. injection Hs as ->. destruct (K a) as [K1 [K2 K3]]. contradiction. Qed.
    Lemma unswitched_null : get_auto_null sub = None.
    Proof. apply kw_get_None. intros k a Hin Hs. destruct k; try discriminate. injection Hs as ->. destruct (K a) as [K1 [K2 K3]]. contradiction. Qed.
    Lemma unswitched_remove : get_remove_null sub = None.
    Proof. apply kw_get_None. intros k a Hin Hs. destruct k; try discriminate. injection Hs as ->. destruct (K a) as [K1 [K2 K3]]. contradiction. Qed.
    Lemma unswitched_fill : forall d, fill_prop' p sub d =
      match get_default sub, sget p d with
      | Some v, None => sset p v d
      | Some v, Some JNull => if auto_default_nulls && negb (null_in_type (get_type sub)) then sset p v d else d
      | _, _ => d
      end.
    Proof.
      intro d. unfold fill_prop. rewrite unswitched_auto, unswitched_null, unswitched_remove. cbn [first_defined andb].
      destruct (get_default sub) as [v|]; [|reflexivity]. destruct (sget p d) as [x|]; [|reflexivity]. cbn [orb].
      destruct x; cbn [is_null is_type]; rewrite ?andb_false_r, ?andb_true_r; reflexivity.
    Qed.
  End Unswitched.

  Theorem visit_complete : forall s, proper s -> forall v, complete s (fst (visit' s v)).
  Proof.
    intros s P. induction P as [s H|s1 ps s2 H1 H2 ND K P IH]; intros v q p w d D E.
    - inversion D as [? ? ? ? ? Hin|? ? ? ? ? ? Hin]; destruct (H _ Hin).
    - rewrite visit_one_props in E by assumption.
      destruct v as [| | | | |dv]; try (destruct q; cbn in E; discriminate).
      rewrite visit_kw_props in E. destruct (visit_props' ps (fill' ps dv)) as [d2 es] eqn:Ev. cbn [fst] in E.
      assert (E2 : d2 = fst (visit_props' ps (fill' ps dv))) by (rewrite Ev; reflexivity). clear Ev.
      destruct (declares_inv _ _ _ D) as [ps0 [p0 [sub [Hps [Hp [[Eq Hd]|[q0 [Eq HD]]]]]]]]; subst d2.
      + apply one_props in Hps; [|assumption|assumption]. subst ps0.
        destruct q as [|k q]; [|destruct q; discriminate]. cbn in Eq. injection Eq as <-. cbn [at_path] in E. injection E as <-.
        rewrite (visit_props_get _ _ _ _ ps _ p sub ND Hp), (fill_get _ _ _ ps dv p sub ND Hp).
        cbn [installed orb]. rewrite (unswitched_fill p sub) by (intro v1; apply (K p sub v1 Hp)).
        destruct (get_default_some sub w Hd) as [v1 ->].
        destruct (sget p dv) as [x|] eqn:Ex; [|rewrite sget_sset_eq; discriminate].
        destruct x; try (rewrite Ex; discriminate).
        destruct (_ && _); [rewrite sget_sset_eq; discriminate|rewrite Ex; discriminate].
      + apply one_props in Hps; [|assumption|assumption]. subst ps0.
        destruct q as [|k q]; cbn in Eq; injection Eq as <- <-; [destruct (declares_nil _ _ HD)|].
        cbn [at_path] in E. rewrite (visit_props_get _ _ _ _ ps _ k sub ND Hp) in E.
        destruct (sget k (fill' ps dv)) as [x|]; [|discriminate].
        apply (IH k sub Hp x q p w d HD E).
  Qed.
  Theorem complete_visit : forall s, proper s -> auto_default_nulls = false -> forall v, complete s v -> fst (visit' s v) = v.
  Proof.
    intros s P Hn. induction P as [s H|s1 ps s2 H1 H2 ND K P IH]; intros v C.
    - apply visit_none. exact H.
    - rewrite visit_one_props by assumption. destruct v as [| | | | |d]; try reflexivity.
      rewrite visit_kw_props.
      assert (Hps : In (KProps ps) (s1 ++ KProps ps :: s2)) by (apply in_or_app; right; left; reflexivity).
      assert (F : fill' ps d = d).
      { unfold fill. cbn [installed orb].
        assert (G : forall ps', incl ps' ps -> fold_left (fun d ps => fill_prop' (fst ps) (snd ps) d) ps' d = d).
        { induction ps' as [|[p sub] ps' IHp]; intro Hi; [reflexivity|]. cbn [fold_left fst snd].
          assert (Hp : In (p, sub) ps) by (apply Hi; left; reflexivity).
          rewrite (unswitched_fill p sub) by (intro v1; apply (K p sub v1 Hp)).
          assert (N : forall w, get_default sub = Some w -> sget p d <> None).
          { intros w Ew. apply (C [] p w d); [|reflexivity]. apply (declares_here _ ps p sub w Hps Hp). apply get_default_In. exact Ew. }
          assert (X : forall b, auto_default_nulls && b = false) by (intro b; rewrite Hn; reflexivity). rewrite X.
          destruct (get_default sub) as [w|].
          - destruct (sget p d) as [x|]; [|destruct (N w eq_refl eq_refl)]. destruct x; apply IHp; intros y Hy; apply Hi; right; exact Hy.
          - apply IHp. intros y Hy. apply Hi. right. exact Hy. }
        apply G. intros y Hy. exact Hy. }
      rewrite F.
      assert (G : forall ps', incl ps' ps -> fst (visit_props' ps' d) = d).
      { induction ps' as [|[p sub] ps' IHp]; intro Hi; [reflexivity|]. cbn [visit_props].
        assert (Hp : In (p, sub) ps) by (apply Hi; left; reflexivity).
        assert (Hi' : incl ps' ps) by (intros y Hy; apply Hi; right; exact Hy).
        destruct (sget p d) as [x|] eqn:Ex; [|apply IHp; exact Hi'].
        assert (Ev : fst (visit' sub x) = x).
        { apply (IH p sub Hp). intros q p' w d' D E. apply (C (p :: q) p' w d').
          - apply (declares_deeper _ ps p sub _ w Hps Hp D).
          - cbn. rewrite Ex. exact E. }
        destruct (visit' sub x) as [x' es]. cbn [fst] in Ev. subst x'. rewrite (sset_same _ _ _ _ Ex).
        specialize (IHp Hi'). destruct (visit_props' ps' d) as [d2 es']. exact IHp. }
      specialize (G ps (fun y Hy => Hy)). destruct (visit_props' ps d) as [d2 es]. cbn [fst] in *. congruence.
  Qed.
End Complete.

(** ** Checking only *)
Section Off.
  Variable other : nat -> json -> list nat.
  Lemma visit_kw_off : forall k v, fst (visit_kw false false false other k v) = v.
  Proof.
    induction k as [ps IH|k Hk] using kw_ind'; intro v; [|apply visit_kw_id; exact Hk].
    destruct v as [| | | | |d]; try reflexivity. rewrite visit_kw_props. unfold fill. cbn [installed orb].
    assert (G : forall ps', incl ps' ps -> fst (visit_props false false false other ps' d) = d).
    { induction ps' as [|[p sub] ps' IHp]; intro Hi; [reflexivity|]. cbn [visit_props].
      assert (Hp : In (p, sub) ps) by (apply Hi; left; reflexivity).
      assert (Hi' : incl ps' ps) by (intros y Hy; apply Hi; right; exact Hy).
      destruct (sget p d) as [x|] eqn:Ex; [|apply IHp; exact Hi'].
      assert (V : forall s', incl s' sub -> fst (visit false false false other s' x) = x).
      { induction s' as [|k s' IHs]; intro Hs; [reflexivity|]. rewrite visit_cons.
        rewrite (IH p sub k Hp (Hs k (or_introl eq_refl))). apply IHs. intros y Hy. apply Hs. right. exact Hy. }
      specialize (V sub (fun y Hy => Hy)). destruct (visit false false false other sub x) as [x' es]. cbn [fst] in V. subst x'.
      rewrite (sset_same _ _ _ _ Ex). specialize (IHp Hi'). destruct (visit_props _ _ _ other ps' d) as [d2 es']. exact IHp. }
    specialize (G ps (fun y Hy => Hy)). destruct (visit_props _ _ _ other ps d) as [d2 es]. cbn [fst] in *. congruence.
  Qed.
  Lemma visit_off : forall s v, visit false false false other s v = (v, flat_map (fun k => snd (visit_kw false false false other k v)) s).
  Proof.
    induction s as [|k s IH]; intro v; [reflexivity|]. cbn [visit flat_map].
    generalize (visit_kw_off k v). destruct (visit_kw false false false other k v) as [v' es]. cbn [fst snd]. intros ->.
    rewrite IH. reflexivity.
  Qed.
End Off.

(** ** Errors *)
Section Errors.
  Variables auto_default auto_default_nulls auto_remove_nulls : bool.
  Variable other : nat -> json -> list nat.
  Definition of_check (e : verr) : Prop := match e with WrongType | Missing _ | Other _ => True | _ => False end.
  Lemma visit_kw_errors : forall k v, Forall of_check (snd (visit_kw auto_default auto_default_nulls auto_remove_nulls other k v)).
  Proof.
    induction k as [ps IH|k Hk] using kw_ind'; intro v.
    - destruct v as [| | | | |d]; try constructor. rewrite visit_kw_props.
      assert (G : forall ps' d', incl ps' ps -> Forall of_check (snd (visit_props auto_default auto_default_nulls auto_remove_nulls other ps' d'))).
      { induction ps' as [|[p sub] ps' IHp]; intros d' Hi; [constructor|]. cbn [visit_props].
        assert (Hp : In (p, sub) ps) by (apply Hi; left; reflexivity).
        assert (Hi' : incl ps' ps) by (intros y Hy; apply Hi; right; exact Hy).
        destruct (sget p d') as [x|] eqn:Ex; [|apply IHp; exact Hi'].
        assert (V : forall s' y, incl s' sub -> Forall of_check (snd (visit auto_default auto_default_nulls auto_remove_nulls other s' y))).
        { induction s' as [|k s' IHs]; intros y Hs; [constructor|]. cbn [visit].
          generalize (IH p sub k Hp (Hs k (or_introl eq_refl)) y). destruct (visit_kw _ _ _ other k y) as [y' es1]. cbn [snd]. intro F.
          specialize (IHs y' (fun z Hz => Hs z (or_intror Hz))). destruct (visit _ _ _ other s' y') as [y2 es2]. cbn [snd] in *.
          apply Forall_app. split; assumption. }
        specialize (V sub x (fun z Hz => Hz)). destruct (visit _ _ _ other sub x) as [x' es]. cbn [snd] in V.
        specialize (IHp (sset p x' d') Hi'). destruct (visit_props _ _ _ other ps' (sset p x' d')) as [d2 es']. cbn [snd] in *.
        apply Forall_app. split; assumption. }
      specialize (G ps (fill auto_default auto_default_nulls auto_remove_nulls ps d) (fun z Hz => Hz)).
      destruct (visit_props _ _ _ other ps _) as [d2 es]. exact G.
    - destruct k; try destruct Hk; cbn [visit_kw snd]; try constructor.
      + destruct (existsb (is_type v) ts); repeat constructor.
      + destruct v; try constructor. apply Forall_flat_map. rewrite Forall_forall. intros p _. destruct (smem p d); repeat constructor.
      + apply Forall_forall. intros e He. apply in_map_iff in He. destruct He as [x [<- _]]. exact I.
  Qed.
  Lemma visit_errors : forall s v, Forall of_check (snd (visit auto_default auto_default_nulls auto_remove_nulls other s v)).
  Proof.
    induction s as [|k s IH]; intro v; [constructor|]. cbn [visit].
    generalize (visit_kw_errors k v). destruct (visit_kw _ _ _ other k v) as [v' es1]. cbn [snd]. intro F.
    specialize (IH v'). destruct (visit _ _ _ other s v') as [v2 es2]. cbn [snd] in *. apply Forall_app. split; assumption.
  Qed.
End Errors.

(** ** Conforming *)
Lemma is_type_spec : forall v t, is_type v t = true <-> has_type v t.
Proof.
  intros v t. destruct t; destruct v; cbn; split; intro H; try discriminate; try reflexivity; eauto;
    try (destruct H as [? H]; discriminate).
Qed.
Lemma allows_null_spec : forall sub, null_in_type (get_type sub) = true <-> allows_null sub.
Proof.
  intro sub. unfold allows_null, null_in_type. destruct (get_type sub) as [ts|].
  - rewrite existsb_exists. split.
    + intros [t [Hin E]]. destruct t; try discriminate. eauto.
    + intros [ts' [E Hin]]. injection E as <-. exists TNull. split; [exact Hin|reflexivity].
  - split; [discriminate|]. intros [ts [E _]]. discriminate.
Qed.

Section Conforming.
  Variables auto_default auto_default_nulls auto_remove_nulls : bool.
  Variable other : nat -> json -> list nat.
  Notation visit_kw' := (visit_kw auto_default auto_default_nulls auto_remove_nulls other).
  Notation visit' := (visit auto_default auto_default_nulls auto_remove_nulls other).
  Notation visit_props' := (visit_props auto_default auto_default_nulls auto_remove_nulls other).

  Lemma visit_cons_errors : forall k s v, snd (visit' (k :: s) v) = snd (visit_kw' k v) ++ snd (visit' s (fst (visit_kw' k v))).
  Proof. intros k s v. cbn [visit]. destruct (visit_kw' k v) as [v' es]. cbn [fst snd]. destruct (visit' s v'). reflexivity. Qed.
  Lemma visit_app_errors : forall s1 s2 v, snd (visit' (s1 ++ s2) v) = snd (visit' s1 v) ++ snd (visit' s2 (fst (visit' s1 v))).
  Proof.
    induction s1 as [|k s1 IH]; intros s2 v; [reflexivity|]. cbn [app]. rewrite !visit_cons_errors, visit_cons, IH, app_assoc. reflexivity.
  Qed.
  (** The keywords that only check *)
  Definition holds (k : kw) (v : json) : Prop :=
    match k with
    | KType ts => exists t, In t ts /\ has_type v t
    | KRequired ps => forall d p, v = JDict d -> In p ps -> sget p d <> None
    | KOther n => other n v = []
    | _ => True
    end.
  Lemma no_errors_holds : forall k v, not_props k -> (snd (visit_kw' k v) = [] <-> holds k v).
  Proof.
    intros k v H. destruct k; try destruct H; cbn [visit_kw snd holds]; try tauto.
    - destruct (existsb (is_type v) ts) eqn:E.
      + split; [intros _|reflexivity]. apply existsb_exists in E. destruct E as [t [Hin E]]. apply is_type_spec in E. eauto.
      + split; [discriminate|]. intros [t [Hin HT]]. exfalso. apply is_type_spec in HT.
        assert (X : existsb (is_type v) ts = true) by (apply existsb_exists; eauto). congruence.
    - destruct v as [| | | | |d]; try (split; [intros _ d p E; discriminate|reflexivity]). split.
      + intros E d' p Ed Hin. injection Ed as <-. intro N.
        assert (X : In (Missing p) (flat_map (fun p => if smem p d then [] else [Missing p]) ps)).
        { apply in_flat_map. exists p. split; [exact Hin|]. unfold smem, dmem. unfold sget in N. rewrite N. left. reflexivity. }
        rewrite E in X. destruct X.
      + intro HR. induction ps as [|p ps IH]; [reflexivity|]. cbn [flat_map].
        generalize (HR d p eq_refl (or_introl eq_refl)). unfold smem, dmem, sget. destruct (dget str_eqb p d); [|congruence].
        intros _. apply IH. intros d' p' Ed Hin. apply HR; [exact Ed|right; exact Hin].
    - split; [|intros ->; reflexivity]. destruct (other n v); [reflexivity|discriminate].
  Qed.
  Lemma visit_none_errors : forall s v, (forall k, In k s -> not_props k) -> (snd (visit' s v) = [] <-> forall k, In k s -> holds k v).
  Proof.
    induction s as [|k s IH]; intros v H; [split; [intros _ k []|reflexivity]|].
    rewrite visit_cons_errors, visit_kw_id by (apply H; left; reflexivity).
    assert (H' : forall k, In k s -> not_props k) by (intros k' Hin; apply H; right; exact Hin).
    split.
    - intros E k' Hin. apply app_eq_nil in E. destruct E as [E1 E2]. destruct Hin as [<-|Hin].
      + apply no_errors_holds; [apply H; left; reflexivity|exact E1].
      + apply (proj1 (IH v H') E2). exact Hin.
    - intro A. rewrite (proj2 (no_errors_holds k v (H k (or_introl eq_refl))) (A k (or_introl eq_refl))).
      apply IH; [exact H'|]. intros k' Hin. apply A. right. exact Hin.
  Qed.
  Lemma visit_props_errors : forall ps d p sub x, NoDup (map fst ps) -> snd (visit_props' ps d) = [] ->
    In (p, sub) ps -> sget p d = Some x -> snd (visit' sub x) = [].
  Proof.
    induction ps as [|[p0 sub0] ps IH]; intros d p sub x ND E Hin Ex; [destruct Hin|]. cbn in ND.
    inversion ND as [|x0 l Hx Hl]; subst. cbn [visit_props] in E. destruct Hin as [H|Hin].
    - injection H as -> ->. rewrite Ex in E. destruct (visit' sub x) as [x' es]. destruct (visit_props' ps (sset p x' d)) as [d2 es'].
      cbn [snd] in *. apply app_eq_nil in E. apply E.
    - assert (N : p0 <> p) by (intros ->; apply Hx; apply (in_map fst) in Hin; exact Hin).
      destruct (sget p0 d) as [y|].
      + destruct (visit' sub0 y) as [y' es]. specialize (IH (sset p0 y' d) p sub x Hl).
        destruct (visit_props' ps (sset p0 y' d)) as [d2 es']. cbn [snd] in *. apply app_eq_nil in E.
        apply IH; [apply E|exact Hin|]. rewrite sget_sset_neq by exact N. exact Ex.
      + apply (IH d p sub x Hl E Hin Ex).
  Qed.
End Conforming.

(** What passed, conforms. *)
Section Passed.
  Variable other : nat -> json -> list nat.
  Notation visit' := (visit true false false other).
  Notation fill' := (fill true false false).

  Theorem passed_conforms : forall s, proper s -> timely s -> forall v, snd (visit' s v) = [] -> conforms other s (fst (visit' s v)).
  Proof.
    intros s P. induction P as [s H|s1 ps s2 H1 H2 ND K P IH]; intros S v E; inversion S as [s0 SO SP]; subst.
    - rewrite visit_none by exact H. rewrite visit_none_errors in E by exact H. constructor.
      + intros ts Hin. apply (E _ Hin).
      + intros ps p d Hin -> Hp. apply (E _ Hin d p eq_refl Hp).
      + intros n Hin. exact (E _ Hin).
      + intros ps p sub d x Hin. destruct (H _ Hin).
    - rewrite visit_one_props by assumption.
      rewrite visit_app_errors in E. apply app_eq_nil in E. destruct E as [E1 E2]. rewrite (visit_none _ _ _ _ s1) in E2 by exact H1.
      rewrite visit_cons_errors in E2. apply app_eq_nil in E2. destruct E2 as [Ep E2].
      rewrite visit_none_errors in E1 by exact H1. rewrite visit_none_errors in E2 by exact H2.
      destruct (is_mapping v) eqn:M.
      + destruct v as [| | | | |d]; try discriminate. rewrite visit_kw_props in Ep, E2 |- *.
        remember (fill' ps d) as d0 eqn:E0.
        destruct (visit_props true false false other ps d0) as [d1 es] eqn:Ev. cbn [fst snd] in *. subst es.
        assert (Ed : d1 = fst (visit_props true false false other ps d0)) by (rewrite Ev; reflexivity).
        assert (Ee : snd (visit_props true false false other ps d0) = []) by (rewrite Ev; reflexivity).
        constructor.
        * intros ts Hin. apply in_app_or in Hin. destruct Hin as [Hin|[Hin|Hin]]; [|discriminate|apply (E2 _ Hin)].
          destruct (E1 _ Hin) as [t [Ht HT]]. exists t. split; [exact Ht|]. destruct t; cbn in HT |- *; eauto; try discriminate; destruct HT; discriminate.
        * intros ps' p d' Hin Ed' Hp. injection Ed' as <-. apply in_app_or in Hin.
          destruct Hin as [Hin|[Hin|Hin]]; [|discriminate|apply (E2 _ Hin d1 p eq_refl Hp)].
          generalize (E1 _ Hin d p eq_refl Hp). intro N. rewrite Ed.
          assert (N0 : sget p d0 <> None).
          { rewrite E0. destruct (in_dec str_dec p (map fst ps)) as [I|I].
            - apply in_map_iff in I. destruct I as [[p' sub] [<- Hps]]. cbn [fst] in *. rewrite (fill_get _ _ _ ps d p' sub ND Hps).
              cbn [installed orb]. rewrite (unswitched_fill false p' sub) by (intro v1; apply (K p' sub v1 Hps)).
              destruct (sget p' d) as [x|] eqn:Ex; [|congruence].
              destruct (get_default sub); [destruct x|]; cbn [andb]; rewrite Ex; discriminate.
            - rewrite fill_other by exact I. exact N. }
          destruct (in_dec str_dec p (map fst ps)) as [I|I].
          -- apply in_map_iff in I. destruct I as [[p' sub] [<- Hps]]. cbn [fst] in *.
             rewrite (visit_props_get _ _ _ _ ps d0 p' sub ND Hps). destruct (sget p' d0); [discriminate|congruence].
          -- rewrite visit_props_other by exact I. exact N0.
        * intros n Hin. apply in_app_or in Hin. destruct Hin as [Hin|[Hin|Hin]]; [|discriminate|exact (E2 _ Hin)].
          assert (NoD : no_defaults (s1 ++ KProps ps :: s2)) by (exact (SO s1 ps s2 n eq_refl Hin)).
          assert (Same : fst (visit' (s1 ++ KProps ps :: s2) (JDict d)) = JDict d).
          { apply complete_visit; [now apply proper_props|reflexivity|]. intros q p w d' Dq. destruct (NoD _ _ Dq). }
          rewrite visit_one_props, visit_kw_props, <- E0, Ev in Same by assumption. cbn [fst] in Same. injection Same as ->. exact (E1 _ Hin).
        * intros ps' p sub d' x Hin Ed' Hp Ex. apply one_props in Hin; [|assumption|assumption]. subst ps'. injection Ed' as <-.
          rewrite Ed, (visit_props_get _ _ _ _ ps d0 p sub ND Hp) in Ex. destruct (sget p d0) as [x0|] eqn:Ex0; [|discriminate].
          injection Ex as <-. apply (IH p sub Hp).
          -- apply (SP ps p sub); [apply in_or_app; right; left; reflexivity|exact Hp].
          -- apply (visit_props_errors _ _ _ other ps d0 p sub x0 ND Ee Hp Ex0).
      + assert (Ek : fst (visit_kw true false false other (KProps ps) v) = v) by (destruct v; try reflexivity; discriminate).
        rewrite Ek in *. constructor.
        * intros ts Hin. apply in_app_or in Hin. destruct Hin as [Hin|[Hin|Hin]]; [apply (E1 _ Hin)|discriminate|apply (E2 _ Hin)].
        * intros ps' p d' Hin ->. discriminate.
        * intros n Hin. apply in_app_or in Hin. destruct Hin as [Hin|[Hin|Hin]]; [exact (E1 _ Hin)|discriminate|exact (E2 _ Hin)].
        * intros ps' p sub d' x Hin ->. discriminate.
  Qed.
  Theorem passed_heeded : forall s, proper s -> forall v, snd (visit' s v) = [] -> heeded other s (fst (visit' s v)) -> conforms other s (fst (visit' s v)).
  Proof.
    intros s P. induction P as [s H|s1 ps s2 H1 H2 ND K P IH]; intros v E S; inversion S as [s0 w SO SP]; subst; clear S.
    - rewrite visit_none by exact H. rewrite visit_none_errors in E by exact H. constructor.
      + intros ts Hin. apply (E _ Hin).
      + intros ps p d Hin -> Hp. apply (E _ Hin d p eq_refl Hp).
      + intros n Hin. exact (E _ Hin).
      + intros ps p sub d x Hin. destruct (H _ Hin).
    - rewrite visit_one_props in SO, SP |- * by assumption.
      rewrite visit_app_errors in E. apply app_eq_nil in E. destruct E as [E1 E2]. rewrite (visit_none _ _ _ _ s1) in E2 by exact H1.
      rewrite visit_cons_errors in E2. apply app_eq_nil in E2. destruct E2 as [Ep E2].
      rewrite visit_none_errors in E1 by exact H1. rewrite visit_none_errors in E2 by exact H2.
      destruct (is_mapping v) eqn:M.
      + destruct v as [| | | | |d]; try discriminate. rewrite visit_kw_props in Ep, E2, SO, SP |- *.
        remember (fill' ps d) as d0 eqn:E0.
        destruct (visit_props true false false other ps d0) as [d1 es] eqn:Ev. cbn [fst snd] in *. subst es.
        assert (Ed : d1 = fst (visit_props true false false other ps d0)) by (rewrite Ev; reflexivity).
        assert (Ee : snd (visit_props true false false other ps d0) = []) by (rewrite Ev; reflexivity).
        constructor.
        * intros ts Hin. apply in_app_or in Hin. destruct Hin as [Hin|[Hin|Hin]]; [|discriminate|apply (E2 _ Hin)].
          destruct (E1 _ Hin) as [t [Ht HT]]. exists t. split; [exact Ht|]. destruct t; cbn in HT |- *; eauto; try discriminate; destruct HT; discriminate.
        * intros ps' p d' Hin Ed' Hp. injection Ed' as <-. apply in_app_or in Hin.
          destruct Hin as [Hin|[Hin|Hin]]; [|discriminate|apply (E2 _ Hin d1 p eq_refl Hp)].
          generalize (E1 _ Hin d p eq_refl Hp). intro N. rewrite Ed.
          assert (N0 : sget p d0 <> None).
          { rewrite E0. destruct (in_dec str_dec p (map fst ps)) as [I|I].
            - apply in_map_iff in I. destruct I as [[p' sub] [<- Hps]]. cbn [fst] in *. rewrite (fill_get _ _ _ ps d p' sub ND Hps).
              cbn [installed orb]. rewrite (unswitched_fill false p' sub) by (intro v1; apply (K p' sub v1 Hps)).
              destruct (sget p' d) as [x|] eqn:Ex; [|congruence].
              destruct (get_default sub); [destruct x|]; cbn [andb]; rewrite Ex; discriminate.
            - rewrite fill_other by exact I. exact N. }
          destruct (in_dec str_dec p (map fst ps)) as [I|I].
          -- apply in_map_iff in I. destruct I as [[p' sub] [<- Hps]]. cbn [fst] in *.
             rewrite (visit_props_get _ _ _ _ ps d0 p' sub ND Hps). destruct (sget p' d0); [discriminate|congruence].
          -- rewrite visit_props_other by exact I. exact N0.
        * intros n Hin. apply in_app_or in Hin. destruct Hin as [Hin|[Hin|Hin]]; [|discriminate|exact (E2 _ Hin)].
          exact (SO s1 ps s2 n eq_refl Hin).
        * intros ps' p sub d' x Hin Ed' Hp Ex. apply one_props in Hin; [|assumption|assumption]. subst ps'. injection Ed' as <-.
          rewrite Ed, (visit_props_get _ _ _ _ ps d0 p sub ND Hp) in Ex. destruct (sget p d0) as [x0|] eqn:Ex0; [|discriminate].
          injection Ex as <-. apply (IH p sub Hp).
          -- apply (visit_props_errors _ _ _ other ps d0 p sub x0 ND Ee Hp Ex0).
          -- apply (SP ps p sub d1); [apply in_or_app; right; left; reflexivity|reflexivity|exact Hp|].
             rewrite Ed, (visit_props_get _ _ _ _ ps d0 p sub ND Hp), Ex0. reflexivity.
      + assert (Ek : fst (visit_kw true false false other (KProps ps) v) = v) by (destruct v; try reflexivity; discriminate).
        rewrite Ek in *. constructor.
        * intros ts Hin. apply in_app_or in Hin. destruct Hin as [Hin|[Hin|Hin]]; [apply (E1 _ Hin)|discriminate|apply (E2 _ Hin)].
        * intros ps' p d' Hin ->. discriminate.
        * intros n Hin. apply in_app_or in Hin. destruct Hin as [Hin|[Hin|Hin]]; [exact (E1 _ Hin)|discriminate|exact (E2 _ Hin)].
        * intros ps' p sub d' x Hin ->. discriminate.
  Qed.
  Theorem conforming_heeded : forall s v, conforms other s v -> heeded other s v.
  Proof.
    fix IH 3. intros s v C. destruct C as [s v _ _ O P]. constructor.
    - intros s1 ps s2 n -> Hin. apply O. apply in_or_app. now left.
    - intros ps p sub d x H1 H2 H3 H4. apply IH. exact (P ps p sub d x H1 H2 H3 H4).
  Qed.
End Passed.

(** Without filling, exactly what conforms is accepted. *)
Section Accepting.
  Variable other : nat -> json -> list nat.
  Notation visit_kw' := (visit_kw false false false other).
  Notation visit' := (visit false false false other).

  Lemma props_off : forall ps d, snd (visit_props false false false other ps d) = [] <->
    forall p sub x, In (p, sub) ps -> sget p d = Some x -> snd (visit' sub x) = [].
  Proof.
    induction ps as [|[p0 sub0] ps IH]; intro d; [split; [intros _ p sub x []|reflexivity]|]. cbn [visit_props].
    destruct (sget p0 d) as [x0|] eqn:E0.
    - generalize (visit_off other sub0 x0). destruct (visit' sub0 x0) as [x' es] eqn:Ev. intro X. injection X as -> _.
      rewrite (sset_same _ _ _ _ E0). specialize (IH d). destruct (visit_props _ _ _ other ps d) as [d2 es']. cbn [snd] in *. split.
      + intros E p sub x Hin Ex. apply app_eq_nil in E. destruct E as [Ea Eb]. destruct Hin as [H|Hin].
        * injection H as <- <-. rewrite E0 in Ex. injection Ex as <-. rewrite Ev. exact Ea.
        * apply (proj1 IH Eb p sub x Hin Ex).
      + intro A. rewrite (proj2 IH).
        * rewrite app_nil_r. generalize (A p0 sub0 x0 (or_introl eq_refl) E0). rewrite Ev. exact (fun H => H).
        * intros p sub x Hin. apply A. right. exact Hin.
    - rewrite IH. split.
      + intros A p sub x [H|Hin] Ex; [injection H as <- <-; congruence|]. apply (A p sub x Hin Ex).
      + intros A p sub x Hin. apply A. right. exact Hin.
  Qed.
  Definition passes (k : kw) (v : json) : Prop := snd (visit_kw' k v) = [].
  Lemma visit_off_errors : forall s v, snd (visit' s v) = [] <-> forall k, In k s -> passes k v.
  Proof.
    intros s v. rewrite visit_off. cbn [snd]. induction s as [|k s IH]; cbn [flat_map]; [split; [intros _ k []|reflexivity]|]. split.
    - intros E k' Hin. apply app_eq_nil in E. destruct Hin as [<-|Hin]; [apply E|]. apply IH; [apply E|exact Hin].
    - intro A. rewrite (A k (or_introl eq_refl)). apply IH. intros k' Hin. apply A. right. exact Hin.
  Qed.
  Definition kw_ok (k : kw) (v : json) : Prop :=
    match k with
    | KProps ps => forall d p sub x, v = JDict d -> In (p, sub) ps -> sget p d = Some x -> conforms other sub x
    | k => holds other k v
    end.
  Lemma conforms_kws : forall s v, conforms other s v <-> forall k, In k s -> kw_ok k v.
  Proof.
    intros s v. split.
    - intros C k Hin. inversion C as [s0 v0 C1 C2 C3 C4]; subst. destruct k; cbn; eauto.
    - intro A. constructor.
      + intros ts Hin. apply (A _ Hin).
      + intros ps p d Hin E Hp. apply (A _ Hin d p E Hp).
      + intros n Hin. apply (A _ Hin).
      + intros ps p sub d x Hin E Hp Ex. apply (A _ Hin d p sub x E Hp Ex).
  Qed.
  Lemma passes_ok : forall k v, passes k v <-> kw_ok k v.
  Proof.
    induction k as [ps IH|k Hk] using kw_ind'; intro v.
    - unfold passes. destruct v as [| | | | |d]; try (split; [intros _ d p sub x E; discriminate|reflexivity]).
      rewrite visit_kw_props. unfold fill. cbn [installed orb].
      assert (X : snd (let '(d0, es) := visit_props false false false other ps d in (JDict d0, es)) = snd (visit_props false false false other ps d))
        by (destruct (visit_props _ _ _ other ps d); reflexivity).
      rewrite X, props_off. cbn [kw_ok].
      assert (Y : forall p sub x, In (p, sub) ps -> (snd (visit' sub x) = [] <-> conforms other sub x)).
      { intros p sub x Hp. rewrite visit_off_errors, conforms_kws. split; intros A k Hin; apply (IH p sub k Hp Hin), A, Hin. }
      split.
      + intros A d' p sub x E Hp Ex. injection E as <-. apply (Y p sub x Hp). apply (A p sub x Hp Ex).
      + intros A p sub x Hp Ex. apply (Y p sub x Hp). apply (A d p sub x eq_refl Hp Ex).
    - unfold passes. rewrite (no_errors_holds _ _ _ other k v Hk). destruct k; try destruct Hk; reflexivity.
  Qed.
  Theorem accepts_conforming : forall s v, snd (visit' s v) = [] <-> conforms other s v.
  Proof. intros s v. rewrite visit_off_errors, conforms_kws. split; intros A k Hin; apply passes_ok, A, Hin. Qed.
End Accepting.
