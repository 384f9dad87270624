(** * Factories of sheets: proofs *)
From Verif Require Import PyBase PyBase_Proofs Sheets_Model Sheets_Spec.

Lemma sid_eqb_eq : forall a b, sid_eqb a b = true <-> a = b.
Proof.
  intros [|x|x] [|y|y]; cbn; split; intros H; try discriminate H; try reflexivity.
  - apply Z.eqb_eq in H. now subst.
  - injection H as ->. apply Z.eqb_refl.
  - apply str_eqb_eq in H. now subst.
  - injection H as ->. apply str_eqb_refl.
Qed.

Definition key_eqb (a b : key) : bool := str_eqb (fst a) (fst b) && sid_eqb (snd a) (snd b).
Lemma key_eqb_eq : forall a b, key_eqb a b = true <-> a = b.
Proof.
  intros [a x] [b y]. unfold key_eqb. cbn. rewrite andb_true_iff, str_eqb_eq, sid_eqb_eq.
  split; [intros (-> & ->); reflexivity | intros H; injection H as -> ->; auto].
Qed.
Lemma key_eq_dec : forall a b : key, {a = b} + {a <> b}.
Proof.
  intros a b. destruct (key_eqb a b) eqn:E.
  - left. now apply key_eqb_eq.
  - right. intros H. apply key_eqb_eq in H. congruence.
Defined.

Lemma in_key_existsb : forall k l, existsb (key_eqb k) l = true <-> In k l.
Proof.
  intros k l. rewrite existsb_exists. split.
  - intros (x & H & E). apply key_eqb_eq in E. now subst.
  - intros H. exists k. split; [exact H | now apply key_eqb_eq].
Qed.

(** ** The cache as a map *)
Lemma cached_get : forall f k s, proper_dicts f -> (cached_at f k s <-> cache_get f k = Some s).
Proof.
  intros f [wb sh] s (H1 & H2). unfold cached_at, cache_get. cbn [fst snd]. split.
  - intros (d & Hd & Hs). rewrite (dget_In_NoDup str_eqb str_eqb_eq wb d _ H1 Hd).
    exact (dget_In_NoDup sid_eqb sid_eqb_eq sh s d (H2 _ _ Hd) Hs).
  - destruct (dget str_eqb wb (cached f)) as [d|] eqn:E; [|discriminate]. intros Hs. exists d. split.
    + exact (dget_Some_In str_eqb str_eqb_eq _ _ _ E).
    + exact (dget_Some_In sid_eqb sid_eqb_eq _ _ _ Hs).
Qed.

Lemma get_put : forall f k s k', cache_get (cache_put k s f) k' = if key_eqb k' k then Some s else cache_get f k'.
Proof.
  intros f [wb sh] s [wb' sh']. unfold cache_get, cache_put, key_eqb. cbn [fst snd cached].
  destruct (str_eqb wb' wb) eqn:E.
  - apply str_eqb_eq in E. subst wb'. rewrite (dget_dset_eq str_eqb str_eqb_eq). cbn [andb].
    destruct (sid_eqb sh' sh) eqn:F.
    + apply sid_eqb_eq in F. subst sh'. apply (dget_dset_eq sid_eqb sid_eqb_eq).
    + rewrite (dget_dset_neq sid_eqb sid_eqb_eq); [|intros ->; rewrite (proj2 (sid_eqb_eq sh' sh') eq_refl) in F; discriminate].
      destruct (dget str_eqb wb (cached f)); reflexivity.
  - cbn [andb]. rewrite (dget_dset_neq str_eqb str_eqb_eq); [reflexivity|].
    intros ->. rewrite str_eqb_refl in E. discriminate.
Qed.

Lemma get_logged : forall e f k, cache_get (logged e f) k = cache_get f k.
Proof. reflexivity. Qed.

Lemma dget_map_dict : forall (g : list (sid * nat) -> list (sid * nat)) wb (c : list (pystr * list (sid * nat))),
  dget str_eqb wb (map (fun wd => (fst wd, g (snd wd))) c) = option_map g (dget str_eqb wb c).
Proof.
  intros g wb c. induction c as [|[w d] c IH]; [reflexivity|]. cbn.
  destruct (str_eqb wb w); [reflexivity | exact IH].
Qed.

Lemma dget_filter_val : forall s sh (d : list (sid * nat)), NoDup (map fst d) ->
  dget sid_eqb sh (filter (fun x => negb (Nat.eqb (snd x) s)) d)
  = match dget sid_eqb sh d with Some x => if Nat.eqb x s then None else Some x | None => None end.
Proof.
  intros s sh d. induction d as [|[h x] d IH]; intros H; [reflexivity|].
  cbn [map fst] in H. inversion H as [|? ? Hn Hd E]; subst. cbn [filter snd dget].
  destruct (sid_eqb sh h) eqn:E.
  - apply sid_eqb_eq in E. subst h. destruct (Nat.eqb x s) eqn:F; cbn [negb].
    + rewrite (IH Hd). apply (dget_None_notin sid_eqb sid_eqb_eq) in Hn. rewrite Hn. reflexivity.
    + cbn [dget]. rewrite (proj2 (sid_eqb_eq sh sh) eq_refl). reflexivity.
  - destruct (Nat.eqb x s); cbn [negb dget]; rewrite ?E; exact (IH Hd).
Qed.

Lemma get_close_sheet : forall f k k', proper_dicts f ->
  cache_get (close_sheet k f) k' =
  match cache_get f k with
  | None => cache_get f k'
  | Some s => match cache_get f k' with Some x => if Nat.eqb x s then None else Some x | None => None end
  end.
Proof.
  intros f k k' (H1 & H2). unfold close_sheet. destruct (cache_get f k) as [s|]; [|reflexivity].
  unfold cache_get, logged. cbn [cached events opens].
  rewrite (dget_map_dict (filter (fun x => negb (Nat.eqb (snd x) s)))).
  destruct (dget str_eqb (fst k') (cached f)) as [d|] eqn:E; [|reflexivity]. cbn [option_map].
  apply dget_filter_val. exact (H2 _ _ (dget_Some_In str_eqb str_eqb_eq _ _ _ E)).
Qed.

Lemma proper_put : forall k s f, proper_dicts f -> proper_dicts (cache_put k s f).
Proof.
  intros [wb sh] s f (H1 & H2). unfold cache_put. cbn [fst snd]. split; cbn [cached].
  - now apply (NoDup_dset str_eqb str_eqb_eq).
  - intros w d H. apply (dget_In_NoDup str_eqb str_eqb_eq) in H; [|now apply (NoDup_dset str_eqb str_eqb_eq)].
    destruct (str_eqb wb w) eqn:E.
    + apply str_eqb_eq in E. subst w. rewrite (dget_dset_eq str_eqb str_eqb_eq) in H. injection H as <-.
      apply (NoDup_dset sid_eqb sid_eqb_eq). destruct (dget str_eqb wb (cached f)) as [d|] eqn:E; [|constructor].
      exact (H2 _ _ (dget_Some_In str_eqb str_eqb_eq _ _ _ E)).
    + rewrite (dget_dset_neq str_eqb str_eqb_eq) in H; [|intros ->; rewrite str_eqb_refl in E; discriminate].
      exact (H2 _ _ (dget_Some_In str_eqb str_eqb_eq _ _ _ H)).
Qed.

Lemma NoDup_filter_keys : forall (p : sid * nat -> bool) d, NoDup (map fst d) -> NoDup (map fst (filter p d)).
Proof.
  intros p d. induction d as [|x d IH]; intros H; [exact H|]. cbn in H. inversion H as [|? ? Hn Hd E]; subst. cbn.
  destruct (p x); [|exact (IH Hd)]. cbn. constructor; [|exact (IH Hd)].
  intros Hin. apply Hn. apply in_map_iff in Hin. destruct Hin as (y & Ey & Hy). apply filter_In in Hy.
  apply in_map_iff. exists y. tauto.
Qed.

Lemma proper_close_sheet : forall k f, proper_dicts f -> proper_dicts (close_sheet k f).
Proof.
  intros k f (H1 & H2). unfold close_sheet. destruct (cache_get f k) as [s|]; [|split; assumption].
  split; cbn [cached logged].
  - rewrite map_map. exact H1.
  - intros w d H. apply in_map_iff in H. destruct H as ([w0 d0] & E & Hin). cbn in E. injection E as <- <-.
    apply NoDup_filter_keys. exact (H2 _ _ Hin).
Qed.

Lemma proper_add_key : forall s f k, proper_dicts f -> proper_dicts (add_key s f k).
Proof.
  intros s f k H. unfold add_key. apply proper_put.
  destruct (cache_get f k) as [o|]; [|exact H]. destruct (Nat.eqb o s); [exact H | exact (proper_close_sheet k f H)].
Qed.
Lemma proper_fold : forall s l f, proper_dicts f -> proper_dicts (fold_left (add_key s) l f).
Proof. intros s l. induction l as [|k l IH]; intros f H; [exact H|]. cbn. apply IH. now apply proper_add_key. Qed.

(** ** Adding the keys of a sheet *)
Definition holds (f : factory) (x : nat) (k : key) : bool := match cache_get f k with Some y => Nat.eqb y x | None => false end.
Lemma holds_eq : forall f x k, holds f x k = true <-> cache_get f k = Some x.
Proof.
  intros f x k. unfold holds. destruct (cache_get f k) as [y|]; [|split; discriminate].
  rewrite Nat.eqb_eq. split; congruence.
Qed.
Definition evicted (f : factory) (s : nat) (l : list key) (x : nat) : bool := negb (Nat.eqb x s) && existsb (holds f x) l.
Definition expected (f : factory) (s : nat) (l : list key) (k : key) : option nat :=
  if existsb (key_eqb k) l then Some s
  else match cache_get f k with Some x => if evicted f s l x then None else Some x | None => None end.

Lemma get_add_key : forall f s k k', proper_dicts f ->
  cache_get (add_key s f k) k' =
  if key_eqb k' k then Some s
  else match cache_get f k' with
       | Some x => if negb (Nat.eqb x s) && holds f x k then None else Some x
       | None => None
       end.
Proof.
  intros f s k k' H. unfold add_key. rewrite get_put. destruct (key_eqb k' k); [reflexivity|].
  unfold holds. destruct (cache_get f k) as [o|] eqn:Eo.
  - destruct (Nat.eqb_spec o s) as [->|Hn].
    + destruct (cache_get f k') as [x|]; [|reflexivity].
      destruct (Nat.eqb_spec x s), (Nat.eqb_spec s x); try reflexivity; congruence.
    + rewrite (get_close_sheet f k k' H), Eo. destruct (cache_get f k') as [x|]; [|reflexivity].
      destruct (Nat.eqb_spec x o), (Nat.eqb_spec o x), (Nat.eqb_spec x s); try reflexivity; congruence.
  - destruct (cache_get f k') as [x|]; [|reflexivity]. rewrite andb_false_r. reflexivity.
Qed.

Lemma get_fold : forall s l f k, proper_dicts f -> cache_get (fold_left (add_key s) l f) k = expected f s l k.
Proof.
  intros s l f. induction l as [|k0 l IH] using rev_ind; intros k H.
  - unfold expected, evicted. cbn. destruct (cache_get f k); [rewrite andb_false_r|]; reflexivity.
  - rewrite fold_left_app. cbn [fold_left]. rewrite get_add_key by (apply proper_fold; exact H).
    unfold holds. rewrite !IH by exact H. unfold expected, evicted. rewrite !existsb_app. cbn [existsb].
    rewrite !orb_false_r. unfold holds.
    destruct (key_eqb k k0) eqn:E.
    { rewrite orb_true_r. reflexivity. }
    rewrite orb_false_r. destruct (existsb (key_eqb k) l) eqn:El.
    { rewrite Nat.eqb_refl. reflexivity. }
    destruct (cache_get f k) as [x|] eqn:Ex; [|reflexivity].
    rewrite existsb_app. cbn [existsb]. rewrite orb_false_r.
    set (ex := existsb (fun k1 => match cache_get f k1 with Some y => Nat.eqb y x | None => false end) l) in *.
    destruct (Nat.eqb_spec x s) as [->|Hx]; cbn [negb andb]; [rewrite Nat.eqb_refl; reflexivity|].
    destruct ex eqn:Eex; cbn [orb]; [reflexivity|].
    destruct (Nat.eqb_spec x s) as [->|_]; [congruence|]. cbn [negb andb].
    destruct (existsb (key_eqb k0) l) eqn:Ek0.
    + (* k0 was already added *)
      destruct (Nat.eqb_spec s x) as [->|_]; [congruence|].
      destruct (cache_get f k0) as [y|] eqn:Ey; [|reflexivity].
      destruct (Nat.eqb_spec y x) as [->|_]; [|reflexivity].
      exfalso. apply in_key_existsb in Ek0. unfold ex in Eex.
      assert (existsb (fun k1 => match cache_get f k1 with Some y => Nat.eqb y x | None => false end) l = true) as F.
      { apply existsb_exists. exists k0. split; [exact Ek0|]. rewrite Ey. apply Nat.eqb_refl. }
      congruence.
    + destruct (cache_get f k0) as [y|] eqn:Ey; [|reflexivity].
      destruct (Nat.eqb_spec y x) as [->|Hy].
      * fold ex. rewrite Eex, andb_false_r, Nat.eqb_refl. reflexivity.
      * destruct (negb (Nat.eqb y s) && _); [reflexivity|]. destruct (Nat.eqb_spec y x); [congruence | reflexivity].
Qed.

Lemma NoDup_snoc : forall A (l : list A) x, NoDup l -> ~ In x l -> NoDup (l ++ [x]).
Proof.
  intros A l x H Hx. induction H as [|y l Hy H IH]; cbn; [constructor; [exact Hx | constructor]|].
  constructor.
  - rewrite in_app_iff. cbn. intros [F|[F|[]]]; [exact (Hy F)|]. apply Hx. left. now symmetry.
  - apply IH. intros F. apply Hx. now right.
Qed.

Lemma events_close_sheet : forall k f, events (close_sheet k f) = events f ++ match cache_get f k with Some s => [Closed s] | None => [] end.
Proof. intros k f. unfold close_sheet. destruct (cache_get f k); cbn; [reflexivity | now rewrite app_nil_r]. Qed.

Lemma events_fold : forall s l f, proper_dicts f ->
  exists cl, events (fold_left (add_key s) l f) = events f ++ map Closed cl /\ NoDup cl
    /\ forall x, In x cl <-> evicted f s l x = true.
Proof.
  intros s l f H. induction l as [|k0 l IH] using rev_ind.
  - exists []. split; [cbn; now rewrite app_nil_r|]. split; [constructor|].
    intros x. unfold evicted. cbn. rewrite andb_false_r. split; [contradiction | discriminate].
  - destruct IH as (cl & E & Hnd & Hcl). rewrite fold_left_app. cbn [fold_left]. unfold add_key at 1.
    set (f1 := fold_left (add_key s) l f) in *.
    assert (cache_get f1 k0 = expected f s l k0) as Eg by (apply get_fold; exact H).
    assert (forall x, evicted f s (l ++ [k0]) x = evicted f s l x || (negb (Nat.eqb x s) && holds f x k0)) as Ev.
    { intros x. unfold evicted. rewrite existsb_app. cbn [existsb]. rewrite orb_false_r.
      destruct (negb (Nat.eqb x s)), (existsb (holds f x) l); reflexivity. }
    unfold expected in Eg.
    destruct (existsb (key_eqb k0) l) eqn:Ek.
    { (* already there *)
      rewrite Eg, Nat.eqb_refl. exists cl. cbn. split; [exact E|]. split; [exact Hnd|]. intros x. rewrite Hcl, Ev.
      destruct (negb (Nat.eqb x s) && holds f x k0) eqn:F; [|now rewrite orb_false_r].
      apply andb_true_iff in F. destruct F as (F1 & F2).
      assert (evicted f s l x = true) as ->; [|reflexivity].
      unfold evicted. rewrite F1. apply existsb_exists. exists k0. split; [now apply in_key_existsb | exact F2]. }
    destruct (cache_get f k0) as [y|] eqn:Ey.
    + destruct (evicted f s l y) eqn:Eev.
      * rewrite Eg. exists cl. cbn. split; [exact E|]. split; [exact Hnd|]. intros x. rewrite Hcl, Ev.
        destruct (negb (Nat.eqb x s) && holds f x k0) eqn:F; [|now rewrite orb_false_r].
        apply andb_true_iff in F. destruct F as (F1 & F2). apply holds_eq in F2.
        assert (x = y) as -> by congruence. rewrite Eev. reflexivity.
      * rewrite Eg. destruct (Nat.eqb_spec y s) as [->|Hy].
        -- exists cl. cbn. split; [exact E|]. split; [exact Hnd|]. intros x. rewrite Hcl, Ev.
           destruct (negb (Nat.eqb x s) && holds f x k0) eqn:F; [|now rewrite orb_false_r].
           apply andb_true_iff in F. destruct F as (F1 & F2). apply holds_eq in F2.
           assert (x = s) as -> by congruence. rewrite Nat.eqb_refl in F1. discriminate.
        -- exists (cl ++ [y]). cbn [events cache_put]. rewrite events_close_sheet, Eg, E, map_app, app_assoc. cbn [map].
           split; [reflexivity|]. split.
           { apply NoDup_snoc; [exact Hnd|]. rewrite Hcl. congruence. }
           { intros x. rewrite in_app_iff, Hcl, Ev. cbn [In]. rewrite orb_true_iff, andb_true_iff, negb_true_iff, Nat.eqb_neq, holds_eq, Ey.
             split; [intros [A|[->|[]]]; auto | intros [A|(A & B)]; [auto|]]. right. left. congruence. }
    + rewrite Eg. exists cl. cbn. split; [exact E|]. split; [exact Hnd|]. intros x. rewrite Hcl, Ev.
      assert (holds f x k0 = false) as -> by (unfold holds; rewrite Ey; reflexivity).
      rewrite andb_false_r, orb_false_r. reflexivity.
Qed.

(** ** Adding, fetching, closing *)
Lemma as_list_among : forall A (x : A) i, In x (as_list i) <-> among x i.
Proof. intros A x [a|l]; cbn; [split; [intros [->|[]]; reflexivity | intros ->; now left] | reflexivity]. Qed.

Lemma closed_now_app : forall a b s, closed_now (a ++ b) s <->
  closed_now b s \/ (closed_now a s /\ ~ In (Added s) b).
Proof.
  intros a b s. split.
  - intros (x & e & y & E & He & Hn). apply app_eq_app in E. destruct E as (l & [(E1 & E2)|(E1 & E2)]).
    + destruct l as [|e' l]; cbn in E2.
      * left. exists [], e, y. rewrite app_nil_r in E1. split; [now rewrite <- E2 | auto].
      * injection E2 as <- ->. right. split; [|rewrite in_app_iff in Hn; tauto].
        exists x, e, l. split; [exact E1|]. split; [exact He|]. rewrite in_app_iff in Hn. tauto.
    + left. exists l, e, y. auto.
  - intros [(x & e & y & -> & He & Hn)|((x & e & y & -> & He & Hn) & Hb)].
    + exists (a ++ x), e, y. rewrite app_assoc. auto.
    + exists x, e, (y ++ b). rewrite <- app_assoc. split; [reflexivity|]. split; [exact He|]. rewrite in_app_iff. tauto.
Qed.

Lemma closed_now_closes : forall cl s, closed_now (map Closed cl) s -> In s cl.
Proof.
  intros cl s (a & e & b & E & He & _). assert (In e (map Closed cl)) as H by (rewrite E; apply in_elt).
  apply in_map_iff in H. destruct H as (x & <- & H). destruct He as [He|He]; [injection He as ->; exact H | discriminate].
Qed.

Section Adding.
  Variable set_list : list key -> list key.
  Variable sheet_ids : nat -> option pystr * list sid.
  Hypothesis Hset : distinct_members set_list.

  Local Notation derive_keys := (derive_keys set_list sheet_ids).
  Local Notation add_sheet := (add_sheet set_list sheet_ids).
  Local Notation open_and_add := (open_and_add set_list sheet_ids).
  Local Notation id_of := (id_of sheet_ids).

  Definition key_list (wb : pystr) (shs : list sid) (wb_ids : ids (option pystr)) (sh_ids : ids sid) : list key :=
    flat_map (fun w => match w with None | Some [] => [] | Some w => map (fun sh => (w, sh)) (shs ++ as_list sh_ids) end)
             (Some wb :: as_list wb_ids).

  Lemma key_list_in : forall wb shs wb_ids sh_ids k, In k (key_list wb shs wb_ids sh_ids) <->
    (fst k = wb \/ among (Some (fst k)) wb_ids) /\ fst k <> [] /\ (In (snd k) shs \/ among (snd k) sh_ids).
  Proof.
    intros wb shs wb_ids sh_ids [w h]. unfold key_list. rewrite in_flat_map. cbn [fst snd]. rewrite <- !as_list_among. split.
    - intros ([[|c t]|] & Hw & Hk); cbn in Hk; try contradiction.
      apply in_map_iff in Hk. destruct Hk as (h' & E & Hh). injection E as <- <-. apply in_app_iff in Hh.
      split; [|split; [discriminate | exact Hh]]. destruct Hw as [Hw|Hw]; [injection Hw as <-; now left | now right].
    - intros (Hw & Hn & Hh). exists (Some w). split; [destruct Hw as [->|Hw]; [now left | now right]|].
      destruct w as [|c t]; [congruence|]. apply in_map_iff. exists h. split; [reflexivity|]. now apply in_app_iff.
  Qed.

  Lemma derive_keys_ok : forall s wb_ids sh_ids keys, derive_keys s wb_ids sh_ids = Ok keys ->
    keys <> [] /\ (forall k, In k keys <-> id_of s wb_ids sh_ids k).
  Proof.
    intros s wb_ids sh_ids keys H. unfold Sheets_Model.derive_keys in H.
    destruct (sheet_ids s) as [[wb|] shs] eqn:E; [|discriminate].
    fold (key_list wb shs wb_ids sh_ids) in H. destruct (set_list (key_list wb shs wb_ids sh_ids)) as [|k0 l] eqn:F; [discriminate|].
    injection H as <-. split; [discriminate|]. intros k. rewrite <- F, (proj2 (Hset _)), key_list_in. unfold Sheets_Spec.id_of. split.
    - intros H. exists wb, shs. tauto.
    - intros (wb' & shs' & E' & H). rewrite E in E'. injection E' as <- <-. exact H.
  Qed.

  Lemma derive_keys_succeeds : forall s wb_ids sh_ids k, id_of s wb_ids sh_ids k -> exists keys, derive_keys s wb_ids sh_ids = Ok keys.
  Proof.
    intros s wb_ids sh_ids k (wb & shs & E & H). unfold Sheets_Model.derive_keys. rewrite E.
    fold (key_list wb shs wb_ids sh_ids). destruct (set_list (key_list wb shs wb_ids sh_ids)) as [|k0 l] eqn:F; [|eauto].
    exfalso. apply key_list_in in H. apply (proj2 (Hset _)) in H. rewrite F in H. exact H.
  Qed.

  Lemma derive_keys_fails : forall s wb_ids sh_ids e, derive_keys s wb_ids sh_ids = Raise e ->
    e = AssertionError /\ forall k, ~ id_of s wb_ids sh_ids k.
  Proof.
    intros s wb_ids sh_ids e H. split.
    - unfold Sheets_Model.derive_keys in H. destruct (sheet_ids s) as [[wb|] shs]; [|now injection H].
      destruct (set_list _) in H; [now injection H | discriminate].
    - intros k Hk. destruct (derive_keys_succeeds _ _ _ _ Hk) as (keys & E). congruence.
  Qed.

  (** Everything that adding does *)
  Lemma evicted_iff : forall f s keys x, evicted f s keys x = true <-> x <> s /\ exists k, In k keys /\ cache_get f k = Some x.
  Proof.
    intros f s keys x. unfold evicted. rewrite andb_true_iff, negb_true_iff, Nat.eqb_neq, existsb_exists.
    split; intros (A & k & B & C); (split; [exact A|]); exists k; (split; [exact B|]); now apply holds_eq.
  Qed.

  Lemma add_sheet_proper : forall s wb_ids sh_ids f, proper_dicts f -> proper_dicts (fst (add_sheet s wb_ids sh_ids f)).
  Proof.
    intros s wb_ids sh_ids f H. unfold Sheets_Model.add_sheet. destruct (derive_keys s wb_ids sh_ids); cbn [fst]; [|exact H].
    apply proper_fold. exact H.
  Qed.

  Lemma add_sheet_get : forall s wb_ids sh_ids f f', proper_dicts f -> add_sheet s wb_ids sh_ids f = (f', Ok tt) ->
    forall k x, cache_get f' k = Some x <->
      (id_of s wb_ids sh_ids k /\ x = s)
      \/ (~ id_of s wb_ids sh_ids k /\ cache_get f k = Some x
          /\ (x <> s -> forall k', id_of s wb_ids sh_ids k' -> cache_get f k' <> Some x)).
  Proof.
    intros s wb_ids sh_ids f f' Hp H k x. unfold Sheets_Model.add_sheet in H.
    destruct (derive_keys s wb_ids sh_ids) as [keys|] eqn:E; [|discriminate]. injection H as <-.
    destruct (derive_keys_ok _ _ _ _ E) as (_ & Hk). rewrite get_fold by exact Hp. unfold expected.
    destruct (existsb (key_eqb k) keys) eqn:Ek.
    - apply in_key_existsb, Hk in Ek. split.
      + intros F. injection F as <-. left. auto.
      + intros [(_ & ->)|(F & _)]; [reflexivity | contradiction].
    - assert (~ id_of s wb_ids sh_ids k) as Nk.
      { rewrite <- Hk, <- in_key_existsb, Ek. discriminate. }
      rewrite get_logged. split.
      + destruct (cache_get f k) as [y|] eqn:Ey; [|discriminate].
        destruct (evicted (logged (Added s) f) s keys y) eqn:Ee; [discriminate|]. intros F. injection F as <-.
        right. split; [exact Nk|]. split; [reflexivity|]. intros Hn k' Hk' F.
        assert (evicted (logged (Added s) f) s keys y = true); [|congruence].
        apply evicted_iff. split; [exact Hn|]. exists k'. split; [now apply Hk | exact F].
      + intros [(F & _)|(_ & Ey & F)]; [contradiction|]. rewrite Ey.
        destruct (evicted (logged (Added s) f) s keys x) eqn:Ee; [|reflexivity].
        apply evicted_iff in Ee. destruct Ee as (Hn & k' & Hk' & G). exfalso. apply (F Hn k'); [now apply Hk | exact G].
  Qed.

  Lemma add_sheet_events : forall s wb_ids sh_ids f f', proper_dicts f -> add_sheet s wb_ids sh_ids f = (f', Ok tt) ->
    exists cl, events f' = events f ++ Added s :: map Closed cl /\ NoDup cl
      /\ forall x, In x cl <-> x <> s /\ exists k, id_of s wb_ids sh_ids k /\ cache_get f k = Some x.
  Proof.
    intros s wb_ids sh_ids f f' Hp H. unfold Sheets_Model.add_sheet in H.
    destruct (derive_keys s wb_ids sh_ids) as [keys|] eqn:E; [|discriminate]. injection H as <-.
    destruct (derive_keys_ok _ _ _ _ E) as (_ & Hk).
    destruct (events_fold s keys (logged (Added s) f) Hp) as (cl & Ev & Hn & Hc). exists cl. split.
    - rewrite Ev. cbn [events logged]. rewrite <- app_assoc. reflexivity.
    - split; [exact Hn|]. intros x. rewrite Hc, evicted_iff. split; intros (A & k & B & C); (split; [exact A|]); exists k; (split; [now apply Hk | exact C]).
  Qed.

  Lemma add_sheet_opens : forall s wb_ids sh_ids f, opens (fst (add_sheet s wb_ids sh_ids f)) = opens f.
  Proof.
    intros s wb_ids sh_ids f. unfold Sheets_Model.add_sheet. destruct (derive_keys s wb_ids sh_ids) as [keys|]; [|reflexivity]. cbn [fst].
    change (opens f) with (opens (logged (Added s) f)). generalize (logged (Added s) f) as g.
    induction keys as [|k keys IH]; intros g; [reflexivity|]. cbn [fold_left]. rewrite IH. unfold add_key, cache_put. cbn [opens].
    destruct (cache_get g k) as [o|]; [|reflexivity]. destruct (Nat.eqb o s); [reflexivity|].
    unfold close_sheet. destruct (cache_get g k); reflexivity.
  Qed.

  Lemma add_sheet_failed : forall s wb_ids sh_ids f f' e, add_sheet s wb_ids sh_ids f = (f', Raise e) ->
    f' = f /\ e = AssertionError /\ forall k, ~ id_of s wb_ids sh_ids k.
  Proof.
    intros s wb_ids sh_ids f f' e H. unfold Sheets_Model.add_sheet in H.
    destruct (derive_keys s wb_ids sh_ids) eqn:E; [discriminate|]. injection H as <- <-. split; [reflexivity|].
    exact (derive_keys_fails _ _ _ _ E).
  Qed.

  Lemma add_sheet_key : forall s wb_ids sh_ids f f', add_sheet s wb_ids sh_ids f = (f', Ok tt) -> exists k, id_of s wb_ids sh_ids k.
  Proof.
    intros s wb_ids sh_ids f f' H. unfold Sheets_Model.add_sheet in H.
    destruct (derive_keys s wb_ids sh_ids) as [keys|] eqn:E; [|discriminate].
    destruct (derive_keys_ok _ _ _ _ E) as (Hn & Hk). destruct keys as [|k keys]; [congruence|]. exists k. apply Hk. now left.
  Qed.

  Lemma add_sheet_iff : forall s wb_ids sh_ids f, (exists k, id_of s wb_ids sh_ids k) -> exists f', add_sheet s wb_ids sh_ids f = (f', Ok tt).
  Proof.
    intros s wb_ids sh_ids f (k & Hk). destruct (add_sheet s wb_ids sh_ids f) as [f' [[]|e]] eqn:E; [eauto|].
    destruct (add_sheet_failed _ _ _ _ _ _ E) as (_ & _ & F). destruct (F _ Hk).
  Qed.

  (** ** The invariant of histories *)
  Definition sound (f : factory) : Prop :=
    proper_dicts f /\ forall k s, cache_get f k = Some s -> ~ closed_now (events f) s.

  Lemma sound_add : forall s wb_ids sh_ids f f', sound f -> add_sheet s wb_ids sh_ids f = (f', Ok tt) -> sound f'.
  Proof.
    intros s wb_ids sh_ids f f' (Hp & Hs) H. split.
    - change f' with (fst (f', @Ok unit tt)). rewrite <- H. now apply add_sheet_proper.
    - intros k x Hx. pose proof (proj1 (add_sheet_get _ _ _ _ _ Hp H k x) Hx) as Hg.
      destruct (add_sheet_events _ _ _ _ _ Hp H) as (cl & -> & _ & Hcl).
      rewrite closed_now_app. intros [Hc|(Hc & Hn)].
      + change (Added s :: map Closed cl) with ([Added s] ++ map Closed cl) in Hc. rewrite closed_now_app in Hc. destruct Hc as [Hc|(Hc & _)].
        * apply closed_now_closes, Hcl in Hc. destruct Hc as (Hne & k' & Hk' & Hg').
          destruct Hg as [(_ & ->)|(_ & _ & Hg)]; [congruence|]. exact (Hg Hne k' Hk' Hg').
        * destruct Hc as ([|? [|? ?]] & e & y & E & He & _); cbn in E; try discriminate. injection E as <- <-. destruct He; discriminate.
      + destruct Hg as [(_ & ->)|(_ & Hg & _)]; [apply Hn; now left|]. exact (Hs _ _ Hg Hc).
  Qed.

  Lemma sound_opened : forall f, sound f -> sound (opened f).
  Proof. intros f H. exact H. Qed.

  Lemma sound_open_and_add : forall r wb sh f, sound f -> sound (fst (open_and_add r wb sh f)).
  Proof.
    intros r wb sh f H. unfold Sheets_Model.open_and_add. destruct r as [s|e]; [|exact H].
    destruct (add_sheet s (One (Some wb)) (One sh) (opened f)) as [f' [[]|e]] eqn:E; cbn [fst].
    - exact (sound_add _ _ _ _ _ (sound_opened f H) E).
    - destruct (add_sheet_failed _ _ _ _ _ _ E) as (-> & _). exact H.
  Qed.

  Lemma open_and_add_ok : forall r wb sh f f' x, proper_dicts f -> open_and_add r wb sh f = (f', Ok x) ->
    r = Ok x /\ proper_dicts f' /\ opens f' = S (opens f)
    /\ add_sheet x (One (Some wb)) (One sh) (opened f) = (f', Ok tt).
  Proof.
    intros r wb sh f f' x Hp H. unfold Sheets_Model.open_and_add in H. destruct r as [s|e]; [|discriminate].
    destruct (add_sheet s (One (Some wb)) (One sh) (opened f)) as [g [[]|e]] eqn:E; [|discriminate].
    injection H as <- <-. split; [reflexivity|].
    pose proof (add_sheet_proper s (One (Some wb)) (One sh) (opened f) Hp) as Hg.
    pose proof (add_sheet_opens s (One (Some wb)) (One sh) (opened f)) as Ho. rewrite E in Hg, Ho. auto.
  Qed.

  Lemma open_and_add_cached : forall r wb sh f f' x, proper_dicts f -> open_and_add r wb sh f = (f', Ok x) ->
    (exists k, cache_get f' k = Some x) /\ (wb <> [] -> cache_get f' (wb, sh) = Some x).
  Proof.
    intros r wb sh f f' x Hp H. destruct (open_and_add_ok _ _ _ _ _ _ Hp H) as (_ & _ & _ & E). split.
    - destruct (add_sheet_key _ _ _ _ _ E) as (k & Hk). exists k. apply (add_sheet_get _ _ _ (opened f) _ Hp E). left. auto.
    - intros Hw. apply (add_sheet_get _ _ _ (opened f) _ Hp E). left. split; [|reflexivity].
      destruct (add_sheet_key _ _ _ _ _ E) as (k & wb0 & shs & E0 & _).
      exists wb0, shs. cbn. auto.
  Qed.

End Adding.

Section Factory.
  Variable set_list : list key -> list key.
  Variable sheet_ids : nat -> option pystr * list sid.
  Variable path2url : pystr -> pystr.
  Variable open_sheet : nat -> option pystr -> sid -> res nat.
  Variable open_sibling : nat -> nat -> sid -> res nat.
  Hypothesis Hset : distinct_members set_list.

  Local Notation add_sheet := (add_sheet set_list sheet_ids).
  Local Notation open_and_add := (open_and_add set_list sheet_ids).
  Local Notation fetch_sheet := (fetch_sheet set_list sheet_ids path2url open_sheet open_sibling).
  Local Notation run_op := (run_op set_list sheet_ids path2url open_sheet open_sibling).

  Lemma sound_op : forall f o, sound f -> sound (run_op f o).
  Proof.
    intros f [s w h|w h b|] H; cbn [Sheets_Model.run_op].
    - destruct (add_sheet s w h f) as [f' [[]|e]] eqn:E; cbn [fst].
      + exact (sound_add set_list sheet_ids Hset _ _ _ _ _ H E).
      + destruct (add_sheet_failed set_list sheet_ids Hset _ _ _ _ _ _ E) as (-> & _). exact H.
    - unfold Sheets_Model.fetch_sheet. destruct w as [wb|].
      + destruct (cache_get f (wb, h)); [exact H | now apply sound_open_and_add].
      + destruct b as [b|]; [|exact H]. destruct h; [exact H| |];
          (destruct (fst (sheet_ids b)) as [wb|]; [|exact H]);
          match goal with |- context[cache_get f ?k] => destruct (cache_get f k) end; [exact H | now apply sound_open_and_add | exact H | now apply sound_open_and_add].
    - split; [split; [constructor | intros ? ? []]|]. intros k s F. discriminate F.
  Qed.

  Lemma sound_new : sound new_factory.
  Proof. split; [split; [constructor | intros ? ? []]|]. intros k s F. discriminate F. Qed.

  Lemma sound_history : forall ops, sound (fold_left run_op ops new_factory).
  Proof.
    intros ops. induction ops as [|o ops IH] using rev_ind; [exact sound_new|].
    rewrite fold_left_app. cbn [fold_left]. now apply sound_op.
  Qed.

  (** ** Fetching *)
  (** The workbook that is meant *)
  Definition meant (wb : option pystr) (base : option nat) : option pystr :=
    match wb, base with Some w, _ => Some w | None, Some b => fst (sheet_ids b) | None, None => None end.

  Lemma fetch_cached : forall wb sh base f w s, meant wb base = Some w -> (wb = None -> sh <> SNone) ->
    cache_get f (w, sh) = Some s -> fetch_sheet wb sh base f = (f, Ok s).
  Proof.
    intros wb sh base f w s Hm Hn Hc. unfold Sheets_Model.fetch_sheet. destruct wb as [wb|]; cbn in Hm.
    - injection Hm as ->. rewrite Hc. reflexivity.
    - destruct base as [b|]; [|discriminate]. specialize (Hn eq_refl). rewrite Hm.
      destruct sh; [congruence| |]; rewrite Hc; reflexivity.
  Qed.

  Lemma fetch_fresh : forall wb sh base f w, meant wb base = Some w -> (wb = None -> sh <> SNone) ->
    cache_get f (w, sh) = None ->
    fetch_sheet wb sh base f
    = open_and_add (match wb, base with
                    | None, Some b => open_sibling (opens f) b sh
                    | _, _ => open_sheet (opens f) (Some (path2url w)) sh
                    end) w sh f.
  Proof.
    intros wb sh base f w Hm Hn Hc. unfold Sheets_Model.fetch_sheet. destruct wb as [wb|]; cbn in Hm.
    - injection Hm as ->. rewrite Hc. reflexivity.
    - destruct base as [b|]; [|discriminate]. specialize (Hn eq_refl). rewrite Hm.
      destruct sh; [congruence| |]; rewrite Hc; reflexivity.
  Qed.

  Lemma close_releases : forall f s, In (Released s) (flat_map (fun wd => map (fun x => Released (snd x)) (snd wd)) (cached f)) <-> in_cache f s.
  Proof.
    intros f s. rewrite in_flat_map. unfold in_cache, cached_at. split.
    - intros ([wb d] & Hd & H). apply in_map_iff in H. destruct H as ([sh x] & E & H). cbn in E. injection E as ->.
      exists (wb, sh), d. auto.
    - intros ([wb sh] & d & Hd & Hs). exists (wb, d). split; [exact Hd|]. apply in_map_iff. exists (sh, s). auto.
  Qed.
End Factory.

(** ** Bids *)
Fixpoint ascending {A} (k : A -> Z) (l : list A) : Prop :=
  match l with
  | [] => True
  | x :: l' => (forall y, In y l' -> (k x <= k y)%Z) /\ ascending k l'
  end.

Lemma insert_in : forall A (k : A -> Z) x y l, In y (insert_by k x l) <-> y = x \/ In y l.
Proof.
  intros A k x y l. induction l as [|z l IH]; cbn; [intuition|].
  destruct (k x <=? k z)%Z; cbn; [intuition|]. rewrite IH. intuition.
Qed.

Lemma insert_ascending : forall A (k : A -> Z) x l, ascending k l -> ascending k (insert_by k x l).
Proof.
  intros A k x l. induction l as [|z l IH]; cbn; [intros _; split; [intros y [] | exact I]|]. intros (H & Hl).
  destruct (Z.leb_spec (k x) (k z)) as [E|E]; cbn.
  - split; [|auto]. intros y [<-|Hy]; [exact E|]. specialize (H _ Hy). lia.
  - split; [|exact (IH Hl)]. intros y Hy. apply insert_in in Hy. destruct Hy as [->|Hy]; [lia | exact (H _ Hy)].
Qed.

Lemma sorted_ascending : forall A (k : A -> Z) l, ascending k (sorted_by k l).
Proof. intros A k l. induction l as [|x l IH]; cbn; [exact I | now apply insert_ascending]. Qed.

Lemma insert_last : forall A (k : A -> Z) x l w, ascending k (l ++ [w]) ->
  insert_by k x (l ++ [w]) = (if (k x <=? k w)%Z then insert_by k x l ++ [w] else l ++ [w; x]).
Proof.
  intros A k x l w. induction l as [|z l IH]; cbn [app insert_by]; intros H.
  - destruct (k x <=? k w)%Z; reflexivity.
  - destruct H as (Hz & H). destruct (Z.leb_spec (k x) (k z)) as [E|E].
    + assert (k z <= k w)%Z by (apply Hz; apply in_elt). destruct (Z.leb_spec (k x) (k w)); [reflexivity | lia].
    + rewrite (IH H). destruct (k x <=? k w)%Z; reflexivity.
Qed.

Lemma sorted_last : forall A (k : A -> Z) l, l <> [] -> exists l' w i, sorted_by k l = l' ++ [w] /\ nth_error l i = Some w
  /\ forall j y, nth_error l j = Some y -> (k y < k w)%Z \/ (k y = k w /\ j <= i).
Proof.
  intros A k l. induction l as [|x l IH]; intros Hn; [congruence|]. destruct l as [|x2 l].
  - exists [], x, 0. split; [reflexivity|]. split; [reflexivity|]. intros [|[|j]] y Hy; cbn in Hy; try discriminate. injection Hy as <-. right. lia.
  - destruct IH as (l' & w & i & E & Hi & Hm); [discriminate|]. cbn [sorted_by] in *. rewrite E.
    assert (ascending k (l' ++ [w])) as Ha by (rewrite <- E; apply (sorted_ascending A k (x2 :: l))).
    rewrite (insert_last A k x l' w Ha). destruct (Z.leb_spec (k x) (k w)) as [F|F].
    + exists (insert_by k x l'), w, (S i). split; [reflexivity|]. split; [exact Hi|].
      intros [|j] y Hy; cbn in Hy; [injection Hy as <-; lia|]. destruct (Hm j y Hy); [now left | right; lia].
    + exists (l' ++ [w]), x, 0. split; [now rewrite <- app_assoc|]. split; [reflexivity|].
      intros [|j] y Hy; cbn in Hy; [injection Hy as <-; lia|]. left. destruct (Hm j y Hy); lia.
Qed.

(** Positions among those who bid *)
Lemma bids_nth : forall B (bid : B -> option Z) l i x, nth_error (flat_map (fun b => match bid b with Some z => [(b, z)] | None => [] end) l) i = Some x ->
  exists n, nth_error l n = Some (fst x) /\ bid (fst x) = Some (snd x)
    /\ forall m b z, nth_error l m = Some b -> bid b = Some z -> n < m ->
       exists j, i < j /\ nth_error (flat_map (fun b => match bid b with Some z => [(b, z)] | None => [] end) l) j = Some (b, z).
Proof.
  intros B bid l. induction l as [|b0 l IH]; intros i x H; [destruct i; discriminate|]. cbn [flat_map] in *.
  destruct (bid b0) as [z0|] eqn:E0; cbn [app] in *.
  - destruct i as [|i]; cbn in H.
    + injection H as <-. exists 0. cbn [fst snd]. split; [reflexivity|]. split; [exact E0|].
      intros [|m] b z Hm Hb Hlt; [lia|]. cbn in Hm.
      assert (exists j, nth_error (flat_map (fun b => match bid b with Some z => [(b, z)] | None => [] end) l) j = Some (b, z)) as (j & Hj).
      { apply In_nth_error. apply in_flat_map. exists b. split; [exact (nth_error_In _ _ Hm)|]. rewrite Hb. now left. }
      exists (S j). split; [lia | exact Hj].
    + destruct (IH _ _ H) as (n & A & C & D). exists (S n). split; [exact A|]. split; [exact C|].
      intros [|m] b z Hm Hb Hlt; [lia|]. destruct (D m b z Hm Hb) as (j & J1 & J2); [lia|]. exists (S j). split; [lia | exact J2].
  - destruct (IH _ _ H) as (n & A & C & D). exists (S n). split; [exact A|]. split; [exact C|].
    intros [|m] b z Hm Hb Hlt; [lia|]. destruct (D m b z Hm Hb) as (j & J1 & J2); [lia|]. exists j. auto.
Qed.

Lemma decide_backend_wins : forall B (bid : B -> option Z) l b, decide_backend bid l = Ok b -> exists i, wins bid l i b.
Proof.
  intros B bid l b H. unfold decide_backend in H.
  set (bids := flat_map (fun b => match bid b with Some z => [(b, z)] | None => [] end) l) in *.
  destruct bids as [|x0 bs] eqn:E; [discriminate|].
  destruct (sorted_last _ snd (x0 :: bs)) as (l' & w & i & Es & Hi & Hm); [discriminate|].
  rewrite Es, rev_app_distr in H. cbn in H. injection H as <-. rewrite <- E in Hi, Hm. unfold bids in Hi, Hm.
  destruct (bids_nth _ bid l i w Hi) as (n & A & C & D). exists n, (snd w). split; [exact A|]. split; [exact C|].
  intros j b' z' Hj Hb.
  assert (exists m, nth_error (flat_map (fun b => match bid b with Some z => [(b, z)] | None => [] end) l) m = Some (b', z')) as (m & Hm').
  { apply In_nth_error. apply in_flat_map. exists b'. split; [exact (nth_error_In _ _ Hj)|]. rewrite Hb. now left. }
  destruct (Hm _ _ Hm') as [F|(F & _)]; cbn [snd] in F; [now left|]. right. split; [exact F|].
  destruct (le_lt_dec j n) as [G|G]; [exact G|]. exfalso.
  destruct (D j b' z' Hj Hb G) as (j' & J1 & J2). destruct (Hm _ _ J2) as [K|(_ & K)]; cbn [snd] in *; lia.
Qed.

Lemma decide_backend_fails : forall B (bid : B -> option Z) l e, decide_backend bid l = Raise e <->
  e = ValueError /\ forall b, In b l -> bid b = None.
Proof.
  intros B bid l e. unfold decide_backend.
  set (bids := flat_map (fun b => match bid b with Some z => [(b, z)] | None => [] end) l). split.
  - intros H. destruct bids as [|x0 bs] eqn:E.
    + cbn in H. injection H as <-. split; [reflexivity|]. intros b Hb. destruct (bid b) as [z|] eqn:F; [|reflexivity]. exfalso.
      assert (In (b, z) bids) as G; [|rewrite E in G; exact G]. apply in_flat_map. exists b. split; [exact Hb|]. rewrite F. now left.
    + destruct (sorted_last _ snd (x0 :: bs)) as (l' & w & i & Es & _); [discriminate|]. rewrite Es, rev_app_distr in H. discriminate.
  - intros (-> & H). assert (bids = []) as ->; [|reflexivity].
    destruct bids as [|[b z] bs] eqn:E; [reflexivity|]. exfalso.
    assert (In (b, z) bids) as G by (rewrite E; now left). apply in_flat_map in G. destruct G as (b' & Hb & G). rewrite (H _ Hb) in G. exact G.
Qed.

Lemma wins_unique : forall B (bid : B -> option Z) l i j b c, wins bid l i b -> wins bid l j c -> i = j /\ b = c.
Proof.
  intros B bid l i j b c (z & A1 & A2 & A3) (y & C1 & C2 & C3).
  pose proof (A3 _ _ _ C1 C2). pose proof (C3 _ _ _ A1 A2). assert (i = j) by lia. subst j. split; [reflexivity | congruence].
Qed.
