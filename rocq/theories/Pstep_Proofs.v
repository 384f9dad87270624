(** * Proofs about trees of steps *)
From Coq Require Import String Lia.
From Verif Require Import PyBase PyBase_Proofs Json JsonPointer_Model JsonPointer_Spec JsonPointer_Proofs
  Paths_Model Pmod_Model Pmod_Spec Pmod_Proofs Pstep_Model Pstep_Spec PstepPmod_Proofs.

(** ** Lists *)
Lemma nth_error_Some_nth : forall A (l : list (list A)) d x xs, nth d l [] = x :: xs ->
  nth_error l d = Some (x :: xs).
Proof. induction l as [|y l IH]; intros [|d] x xs; cbn; try discriminate; auto. now intros ->. Qed.

Lemma list_update_id : forall A (l : list A) i x, nth_error l i = Some x -> list_update l i x = l.
Proof. induction l as [|y l IH]; intros [|i] x; cbn; try discriminate; [now intros [= ->]|]. intros E. f_equal. auto. Qed.

Lemma nth_error_app_l : forall A (l l' : list A) i x, nth_error l i = Some x -> nth_error (l ++ l') i = Some x.
Proof. intros A l l' i x E. rewrite nth_error_app1; auto. apply nth_error_Some. congruence. Qed.

Lemma nth_error_snoc : forall A (l : list A) x i y, nth_error (l ++ [x]) i = Some y ->
  nth_error l i = Some y \/ i = length l /\ y = x.
Proof.
  intros A l x i y E. destruct (Nat.lt_ge_cases i (length l)) as [L|L].
  - left. now rewrite nth_error_app1 in E.
  - right. rewrite nth_error_app2 in E by auto. destruct (i - length l)%nat as [|n] eqn:En; cbn in E.
    + injection E as <-. split; auto. lia.
    + destruct n; discriminate.
Qed.
Lemma nth_error_snoc_new : forall A (l : list A) x, nth_error (l ++ [x]) (length l) = Some x.
Proof. intros. rewrite nth_error_app2, Nat.sub_diag; auto. Qed.

Lemma nth_error_update : forall A (l : list A) i v j y, nth_error (list_update l i v) j = Some y ->
  (i <> j /\ nth_error l j = Some y) \/ (i = j /\ y = v /\ (i < length l)%nat).
Proof.
  intros A l i v j y E. destruct (Nat.eq_dec i j) as [<-|N].
  - right. assert (L : (i < length l)%nat).
    { rewrite <- (list_update_length _ l i v). apply nth_error_Some. congruence. }
    rewrite nth_error_update_eq in E by auto. injection E as <-. auto.
  - left. rewrite nth_error_update_neq in E; auto.
Qed.

Lemma In_dset : forall V k (v : V) d a c, In (a, c) (dset str_eqb k v d) -> (a, c) = (k, v) \/ In (a, c) d.
Proof.
  induction d as [|[k' v'] d IH]; intros a c; cbn.
  - intros [E|[]]; auto.
  - destruct (str_eqb_spec k k') as [->|N].
    + intros [E|H]; auto.
    + intros [E|H]; auto. destruct (IH _ _ H); auto.
Qed.
Lemma In_dset_new : forall V k (v : V) d, In (k, v) (dset str_eqb k v d).
Proof.
  induction d as [|[k' v'] d IH]; cbn; auto. destruct (str_eqb_spec k k') as [->|N]; cbn; auto.
Qed.
Lemma In_dset_old : forall V k (v : V) d a c, a <> k -> In (a, c) d -> In (a, c) (dset str_eqb k v d).
Proof.
  induction d as [|[k' v'] d IH]; intros a c N; cbn; auto. destruct (str_eqb_spec k k') as [->|N'].
  - intros [E|H]; cbn; auto. injection E as -> ->. congruence.
  - intros [E|H]; cbn; auto.
Qed.
Lemma dset_keys : forall V k (v : V) d x, In x (map fst (dset str_eqb k v d)) -> x = k \/ In x (map fst d).
Proof.
  induction d as [|[k' v'] d IH]; intros x; cbn.
  - intros [E|[]]; auto.
  - destruct (str_eqb_spec k k') as [->|N]; cbn.
    + intros [E|H]; auto.
    + intros [E|H]; auto. destruct (IH _ H); auto.
Qed.
Lemma NoDup_dset : forall V k (v : V) d, NoDup (map fst d) -> NoDup (map fst (dset str_eqb k v d)).
Proof.
  induction d as [|[k' v'] d IH]; intros H; cbn; [constructor; auto; constructor|].
  destruct (str_eqb_spec k k') as [->|N]; cbn; [inversion H; now constructor|].
  inversion H; subst. constructor; auto. intros Hin. apply dset_keys in Hin. destruct Hin; [congruence|auto].
Qed.
Lemma dget_In : forall V k (d : list (pystr * V)) v, dget str_eqb k d = Some v -> In (k, v) d.
Proof.
  induction d as [|[k' v'] d IH]; intros v; cbn; [discriminate|].
  destruct (str_eqb_spec k k') as [->|N]; [intros [= ->]; auto|auto].
Qed.
Lemma In_dget : forall V k (d : list (pystr * V)) v, NoDup (map fst d) -> In (k, v) d -> dget str_eqb k d = Some v.
Proof.
  induction d as [|[k' v'] d IH]; intros v H Hin; [destruct Hin|]. cbn. inversion H; subst.
  destruct Hin as [E|Hin].
  - injection E as -> ->. now rewrite str_eqb_refl.
  - destruct (str_eqb_spec k k') as [->|N]; auto.
    exfalso. apply H2. apply (in_map fst) in Hin. exact Hin.
Qed.

(** ** Reading the heap *)
Lemma dict_of_some : forall h d x xs, dict_of h d = x :: xs ->
  exists n, d = Some n /\ nth_error (h_dicts h) n = Some (x :: xs).
Proof. intros h [n|] x xs E; [|discriminate]. exists n. split; auto. now apply nth_error_Some_nth. Qed.

Lemma children_child : forall h i a c, In (a, c) (children h i) <-> child_at h i a c.
Proof.
  intros h i a c. unfold children, child_at, step_at. split.
  - destruct (nth_error (h_steps h) i) as [s|]; [|intros []].
    destruct (dict_of h (s_csteps s)) as [|x xs] eqn:E; [intros []|]. intros H.
    destruct (dict_of_some _ _ _ _ E) as [n [E1 E2]]. exists s, n, (x :: xs). auto.
  - intros [s [d [ds [E1 [E2 [E3 H]]]]]]. rewrite E1, E2. cbn. erewrite nth_error_nth; eauto.
Qed.

Lemma leaf_children : forall h i, leaf_at h i <-> children h i = [].
Proof.
  intros h i. split.
  - intros H. destruct (children h i) as [|[a c] l] eqn:E; auto.
    exfalso. apply (H a c). apply children_child. rewrite E. now left.
  - intros E a c H. apply children_child in H. rewrite E in H. destruct H.
Qed.

Lemma text_at : forall h i s, step_at h i s -> text_of h i = s_text s.
Proof. intros h i s E. unfold text_of. now rewrite E. Qed.

Lemma texted_iff : forall h i, texted h i = true <-> text_of h i <> [].
Proof.
  intros h i. unfold texted, text_of. destruct (nth_error (h_steps h) i) as [s|]; [|split; congruence].
  destruct (s_text s); split; congruence.
Qed.

Lemma step_lt : forall h i s, step_at h i s -> (i < length (h_steps h))%nat.
Proof. intros h i s E. apply nth_error_Some. unfold step_at in E. congruence. Qed.

Section Regex.
  Variable M : Type.
  Variable fullmatch : pystr -> pystr -> option M.
  Variable expand : M -> pystr -> res pystr.
  Variable compiles : pystr -> bool.
  Variable class_attr : pystr -> bool.
  Notation new := (new_step M fullmatch expand compiles).
  Notation make := (make_cstep M fullmatch expand compiles).
  Notation get := (getattr M fullmatch expand compiles class_attr).
  Notation set := (setattr M fullmatch expand compiles).
  Notation ex := (exec M fullmatch expand compiles class_attr).
  Notation go := (run M fullmatch expand compiles class_attr).
  Notation ldesc := (ldescend M fullmatch expand).

  (** ** New steps *)
  Definition the_text (alias : option pystr) (name : pystr) : pystr :=
    match alias with Some a => a | None => name end.

  Inductive built (h : heap) (name : pystr) (m : maps) (alias : option pystr) : list (list (pystr * nat)) -> pstep -> Prop :=
  | B_fresh : forall t pm ts, (forall i s, m = MStep i -> step_at h i s -> s_text s = []) ->
      (forall a, alias = Some a -> t = a) ->
      built h name m alias [] (mkStep t name pm None CAN_RELOCATE ts)
  | B_clone : forall i s0 d dx, m = MStep i -> step_at h i s0 -> s_text s0 <> [] ->
      (dict_of h (s_csteps s0) = [] /\ d = s_csteps s0 /\ dx = []
       \/ (exists x xs, dict_of h (s_csteps s0) = x :: xs /\ dx = [x :: xs]) /\ d = Some (length (h_dicts h))) ->
      built h name m alias dx
        (mkStep (the_text alias name) (s_orig s0) (s_pmod s0) d (s_locked s0) (s_tags s0)).

  Definition name_of (n : option pystr) : pystr := match n with Some x => x | None => [] end.

  Lemma by_pmod_inv : forall h n p a ts h' r, step_by_pmod M fullmatch expand h n p a ts = (h', r) ->
    h_dicts h' = h_dicts h /\ (exists cx, h_cells h' = h_cells h ++ cx)
    /\ match r with
       | Raise _ => h_steps h' = h_steps h
       | Ok i => i = length (h_steps h) /\ exists t pm tg,
           h_steps h' = h_steps h ++ [mkStep t n pm None CAN_RELOCATE tg] /\ (forall x, a = Some x -> t = x)
       end.
  Proof.
    intros h n p a ts h' r E. unfold step_by_pmod in E.
    destruct (ldescend_ext M fullmatch expand p n (h_cells h)) as [cx Ex].
    destruct (ldesc p n (h_cells h)) as [c r0]. cbn in Ex. subst c.
    destruct r0 as [[pm al]|e].
    - unfold fresh_step, alloc_step in E. injection E as <- <-. cbn. repeat split; eauto.
      eexists _, pm, _. split; [reflexivity|]. intros x ->. destruct al as [[|y al]|]; reflexivity.
    - injection E as <- <-. cbn. repeat split; eauto.
  Qed.

  Lemma new_inv : forall h n m a ts h' r, new h n m a ts = (h', r) ->
    exists dx cx, h_dicts h' = h_dicts h ++ dx /\ h_cells h' = h_cells h ++ cx
    /\ match r with
       | Raise _ => h_steps h' = h_steps h /\ dx = []
       | Ok i => i = length (h_steps h) /\ exists s, h_steps h' = h_steps h ++ [s] /\ built h (name_of n) m a dx s
       end.
  Proof.
    intros h n m a ts h' r E. unfold new_step in E. fold (name_of n) in E.
    assert (F : forall m', (forall i s, m' = MStep i -> step_at h i s -> s_text s = []) ->
      fresh_step h (name_of n) None a ts = (h', r) ->
      exists dx cx, h_dicts h' = h_dicts h ++ dx /\ h_cells h' = h_cells h ++ cx
      /\ match r with
       | Raise _ => h_steps h' = h_steps h /\ dx = []
       | Ok i => i = length (h_steps h) /\ exists s, h_steps h' = h_steps h ++ [s] /\ built h (name_of n) m' a dx s
       end).
    { intros m' Hm F. unfold fresh_step, alloc_step in F. injection F as <- <-. exists [], [].
      cbn. rewrite !app_nil_r. repeat split; auto. eexists. split; [reflexivity|].
      apply B_fresh; auto. intros x ->. reflexivity. }
    assert (G : forall h0 p m', h_dicts h0 = h_dicts h -> h_steps h0 = h_steps h -> (exists cx, h_cells h0 = h_cells h ++ cx) ->
      (forall i s, m' = MStep i -> step_at h i s -> s_text s = []) ->
      step_by_pmod M fullmatch expand h0 (name_of n) p a ts = (h', r) ->
      exists dx cx, h_dicts h' = h_dicts h ++ dx /\ h_cells h' = h_cells h ++ cx
      /\ match r with
       | Raise _ => h_steps h' = h_steps h /\ dx = []
       | Ok i => i = length (h_steps h) /\ exists s, h_steps h' = h_steps h ++ [s] /\ built h (name_of n) m' a dx s
       end).
    { intros h0 p m' H1 H2 [cy H3] Hm G. destruct (by_pmod_inv _ _ _ _ _ _ _ G) as [A [[cx B] C]].
      exists [], (cy ++ cx). rewrite app_nil_r. rewrite A, B, H1, H3, app_assoc. repeat split; auto.
      destruct r as [i|e].
      - destruct C as [-> [t [pm [tg [C D]]]]]. rewrite C, H2. split; auto.
        eexists. split; [reflexivity|]. apply B_fresh; auto.
      - rewrite C, H2. auto. }
    destruct m as [|p|i|l|].
    - eapply F; eauto. discriminate.
    - eapply (G h p); eauto; [|discriminate]. exists []. now rewrite app_nil_r.
    - destruct (nth_error (h_steps h) i) as [s|] eqn:Es.
      2:{ injection E as <- <-. exists [], []. rewrite !app_nil_r. repeat split; auto. }
      destruct (s_text s) as [|x t] eqn:Et.
      + apply (F (MStep i)); auto. intros j s' [= <-] Hs. unfold step_at in Hs. congruence.
      + unfold clone_csteps in E. destruct (dict_of h (s_csteps s)) as [|y ys] eqn:Ed;
          unfold alloc_step in E; injection E as <- <-; cbn.
        * exists [], []. rewrite !app_nil_r. repeat split; auto. eexists. split; [reflexivity|].
          eapply B_clone; eauto; congruence.
        * exists [y :: ys], []. rewrite !app_nil_r. repeat split; auto. eexists. split; [reflexivity|].
          eapply B_clone; eauto; try congruence. right. split; auto. eauto.
    - destruct l as [|t l]; [eapply F; eauto; discriminate|].
      destruct (pmods_from_tuples compiles (t :: l)) as [p|e].
      + destruct (alloc_pmod p (h_cells h)) as [lp c] eqn:Ea.
        destruct (alloc_spec p _ _ _ Ea) as [[cx ->] _].
        eapply (G (set_cells h (h_cells h ++ cx)) lp); [reflexivity|reflexivity|exists cx; reflexivity|discriminate|exact E].
      + injection E as <- <-. exists [], []. rewrite !app_nil_r. repeat split; auto.
    - injection E as <- <-. exists [], []. rewrite !app_nil_r. repeat split; auto.
  Qed.

  (** ** Preparing the dict of the children *)
  Definition same_id (s s' : pstep) : Prop :=
    s_text s' = s_text s /\ s_orig s' = s_orig s /\ s_locked s' = s_locked s /\ s_tags s' = s_tags s.

  Lemma same_id_refl : forall s, same_id s s. Proof. repeat split. Qed.

  Inductive prepared (h : heap) (self : nat) (s : pstep) (k : pystr) (al : option pystr) (e : option nat)
    : heap -> nat -> option nat -> Prop :=
  | P_given : forall d x xs e0, e = Some e0 -> s_csteps s = Some d -> nth_error (h_dicts h) d = Some (x :: xs) ->
      prepared h self s k al e h d e
  | P_found : forall d x xs, e = None -> s_csteps s = Some d -> nth_error (h_dicts h) d = Some (x :: xs) ->
      prepared h self s k al e (update_pmod h self s al) d (dget str_eqb k (x :: xs))
  | P_empty : dict_of h (s_csteps s) = [] ->
      prepared h self s k al e
        (set_steps (set_dicts h (h_dicts h ++ [[]]))
                   (list_update (h_steps h) self (with_csteps s (Some (length (h_dicts h))))))
        (length (h_dicts h)) e.

  Lemma prepare_inv : forall h self s k al e h1 d e1, prepare h self s k al e = (h1, d, e1) ->
    prepared h self s k al e h1 d e1.
  Proof.
    intros h self s k al e h1 d e1 E. unfold prepare in E.
    destruct (dict_of h (s_csteps s)) as [|x xs] eqn:Ed.
    - injection E as <- <- <-. now apply P_empty.
    - destruct (dict_of_some _ _ _ _ Ed) as [n [En Es]]. rewrite En in E. destruct e as [e0|].
      + injection E as <- <- <-. eapply P_given; eauto.
      + injection E as <- <- <-. eapply P_found; eauto.
  Qed.

  Lemma update_pmod_steps : forall h self s al, step_at h self s -> exists s',
    h_steps (update_pmod h self s al) = list_update (h_steps h) self s' /\ same_id s s' /\ s_csteps s' = s_csteps s
    /\ (forall p, s_pmod s = Some p -> s_pmod s' = Some p).
  Proof.
    intros h self s al Hs. unfold update_pmod. destruct al as [a|].
    - destruct (s_pmod s) as [p|] eqn:Ep.
      + exists s. cbn. split; [symmetry; now apply list_update_id|]. split; [apply same_id_refl|].
        split; congruence.
      + eexists. cbn. split; [reflexivity|]. split; [repeat split|]. split; [reflexivity|congruence].
    - exists s. split; [symmetry; now apply list_update_id|]. split; [apply same_id_refl|]. auto.
  Qed.
  Lemma update_pmod_dicts : forall h self s al, h_dicts (update_pmod h self s al) = h_dicts h.
  Proof. intros h self s [a|]; unfold update_pmod; auto. destruct (s_pmod s); reflexivity. Qed.

  Lemma prepared_steps : forall h self s k al e h1 d e1, step_at h self s ->
    prepared h self s k al e h1 d e1 -> exists s',
    h_steps h1 = list_update (h_steps h) self s' /\ same_id s s' /\ s_csteps s' = Some d
    /\ (dict_of h (s_csteps s) <> [] -> s_csteps s' = s_csteps s)
    /\ (forall p, s_pmod s = Some p -> s_pmod s' = Some p).
  Proof.
    intros h self s k al e h1 d e1 Hs P. destruct P as [d x xs e0 -> Ed Ex|d x xs -> Ed Ex|Ed].
    - exists s. split; [symmetry; now apply list_update_id|]. split; [apply same_id_refl|]. auto.
    - destruct (update_pmod_steps h self s al Hs) as [s' [A [B [C D]]]].
      exists s'. split; auto. split; auto. split; [congruence|auto].
    - eexists. cbn. split; [reflexivity|]. split; [repeat split|]. split; [reflexivity|]. cbn. split; [congruence|auto].
  Qed.

  (** ** One operation on the names: nothing changes a text *)
  Definition keeps_names (h h' : heap) : Prop :=
    (length (h_steps h) <= length (h_steps h'))%nat
    /\ forall i s, step_at h i s -> exists s', step_at h' i s' /\ s_text s' = s_text s /\ s_orig s' = s_orig s.

  Lemma keeps_names_refl : forall h, keeps_names h h. Proof. intros h. split; eauto. Qed.
  Lemma keeps_names_trans : forall a b c, keeps_names a b -> keeps_names b c -> keeps_names a c.
  Proof.
    intros a b c [L1 H1] [L2 H2]. split; [lia|]. intros i s E.
    destruct (H1 _ _ E) as [s1 [E1 [A1 B1]]]. destruct (H2 _ _ E1) as [s2 [E2 [A2 B2]]].
    exists s2. split; auto. split; congruence.
  Qed.

  (** What making a child does to the existing steps. *)
  Definition keeps_steps (h h' : heap) : Prop :=
    (length (h_steps h) <= length (h_steps h'))%nat
    /\ forall i s, step_at h i s -> exists s', step_at h' i s' /\ same_id s s'
       /\ (dict_of h (s_csteps s) <> [] -> s_csteps s' = s_csteps s)
       /\ (forall p, s_pmod s = Some p -> s_pmod s' = Some p).
  Lemma keeps_steps_names : forall h h', keeps_steps h h' -> keeps_names h h'.
  Proof.
    intros h h' [L H]. split; auto. intros i s E. destruct (H i s E) as [s' [A [B _]]].
    exists s'. destruct B as [B1 [B2 _]]. auto.
  Qed.

  Lemma update_keeps : forall h h' self s s' extra, step_at h self s ->
    h_steps h' = list_update (h_steps h) self s' ++ extra -> same_id s s' ->
    (dict_of h (s_csteps s) <> [] -> s_csteps s' = s_csteps s) ->
    (forall p, s_pmod s = Some p -> s_pmod s' = Some p) -> keeps_steps h h'.
  Proof.
    intros h h' self s s' extra Hs E Hid Hd Hp. split.
    - rewrite E, app_length, list_update_length. lia.
    - intros i si Hi. unfold step_at in *. rewrite E. destruct (Nat.eq_dec self i) as [<-|N].
      + assert (si = s) by congruence. subst si. exists s'. split; [|auto].
        apply nth_error_app_l. apply nth_error_update_eq. apply nth_error_Some. congruence.
      + exists si. split; [|split; [apply same_id_refl|auto]].
        apply nth_error_app_l. now rewrite nth_error_update_neq.
  Qed.

  Lemma make_inv : forall h self k al e h' r s, step_at h self s -> make h self k al e = (h', r) ->
    exists h1 d e1 h2, prepared h self s k al e h1 d e1
      /\ new h1 (Some k) (match e1 with Some e => if texted h1 e then MStep e else own_maps h1 self
                                    | None => own_maps h1 self end) al [] = (h2, r)
      /\ match r with
         | Raise _ => h' = h2
         | Ok i => h' = set_dicts h2 (list_update (h_dicts h2) d (dset str_eqb k i (dict_of h2 (Some d))))
         end.
  Proof.
    intros h self k al e h' r s Hs E. unfold make_cstep in E. rewrite Hs in E.
    destruct (prepare h self s k al e) as [[h1 d] e1] eqn:Ep. apply prepare_inv in Ep.
    destruct (new h1 _ _ _ _) as [h2 r2] eqn:En. exists h1, d, e1, h2.
    destruct r2 as [i|x]; injection E as <- <-; auto.
  Qed.

  Lemma make_steps : forall h self k al e h' r s, step_at h self s -> make h self k al e = (h', r) ->
    exists s' extra, h_steps h' = list_update (h_steps h) self s' ++ extra /\ same_id s s'
    /\ (dict_of h (s_csteps s) <> [] -> s_csteps s' = s_csteps s)
    /\ (forall p, s_pmod s = Some p -> s_pmod s' = Some p).
  Proof.
    intros h self k al e h' r s Hs E. destruct (make_inv _ _ _ _ _ _ _ _ Hs E) as [h1 [d [e1 [h2 [P [N F]]]]]].
    destruct (prepared_steps _ _ _ _ _ _ _ _ _ Hs P) as [s' [A [B [C [D G]]]]].
    apply new_inv in N. destruct N as [dx [cx [N1 [N2 N3]]]]. exists s'. destruct r as [i|x].
    - destruct N3 as [_ [sn [N3 _]]]. subst h'. cbn. exists [sn]. rewrite N3, A. auto.
    - destruct N3 as [N3 _]. subst h'. exists []. rewrite N3, A, app_nil_r. auto.
  Qed.

  Lemma make_keeps : forall h self k al e h' r, make h self k al e = (h', r) -> keeps_steps h h'.
  Proof.
    intros h self k al e h' r E. destruct (nth_error (h_steps h) self) as [s|] eqn:Hs.
    - destruct (make_steps _ _ _ _ _ _ _ s Hs E) as [s' [x [A [B [C D]]]]]. eapply update_keeps; eauto.
    - unfold make_cstep in E. rewrite Hs in E. injection E as <- _. split; auto.
      intros i s Hi. exists s. split; auto. split; [apply same_id_refl|auto].
  Qed.

  (** Reading an attribute: nothing, or making it. *)
  Lemma get_inv : forall h i a h' r, get h i a = (h', r) ->
    (h' = h /\ (r = Ok VClass /\ class_attr a = true \/ r = Raise AttributeError \/ r = Raise NameError \/
                exists c s d ds, r = Ok (VStep c) /\ class_attr a = false /\ step_at h i s /\ s_csteps s = Some d
                    /\ nth_error (h_dicts h) d = Some ds /\ dget str_eqb a ds = Some c /\ text_of h c <> []))
    \/ (class_attr a = false /\ starts_with (lit "_") a || forbidden a = false /\
        (exists s, step_at h i s /\ forall d ds c, s_csteps s = Some d -> nth_error (h_dicts h) d = Some ds ->
            dget str_eqb a ds = Some c -> text_of h c = []) /\
        exists r', make h i a None None = (h', r') /\ r = match r' with Ok c => Ok (VStep c) | Raise e => Raise e end).
  Proof.
    intros h i a h' r E. unfold getattr in E. destruct (class_attr a) eqn:Ec.
    { left. injection E as <- <-. auto. }
    destruct (starts_with (lit "_") a || forbidden a) eqn:Ef.
    { left. injection E as <- <-. auto. }
    destruct (nth_error (h_steps h) i) as [s|] eqn:Es.
    2:{ left. injection E as <- <-. auto. }
    destruct (dget str_eqb a (dict_of h (s_csteps s))) as [c|] eqn:Eg.
    - destruct (texted h c) eqn:Et.
      + left. injection E as <- <-. split; auto. right; right; right.
        destruct (dict_of h (s_csteps s)) as [|x xs] eqn:Ed; [discriminate|].
        destruct (dict_of_some _ _ _ _ Ed) as [n [En Ex]]. exists c, s, n, (x :: xs).
        repeat split; auto. now apply texted_iff.
      + right. repeat split; auto.
        * exists s. split; auto. intros d ds c' Hd Hn Hg. rewrite Hd in Eg. cbn in Eg.
          erewrite nth_error_nth in Eg by eauto. assert (c' = c) by congruence. subst c'.
          destruct (text_of h c) eqn:Ex; auto. exfalso.
          assert (texted h c = true) by (apply texted_iff; congruence). congruence.
        * destruct (make h i a None None) as [h2 r2]. injection E as <- <-. eauto.
    - right. repeat split; auto.
      * exists s. split; auto. intros d ds c' Hd Hn Hg. rewrite Hd in Eg. cbn in Eg.
        erewrite nth_error_nth in Eg by eauto. congruence.
      * destruct (make h i a None None) as [h2 r2]. injection E as <- <-. eauto.
  Qed.

  (** An operation is one of these. *)
  Inductive effect (h : heap) : op -> heap -> Prop :=
  | Ef_none : forall o, effect h o h
  | Ef_new : forall n m a ts h' r, new h n m a ts = (h', r) -> effect h (ONew n m a ts) h'
  | Ef_get : forall i a h' r s, make h i a None None = (h', r) -> step_at h i s ->
      (forall d ds c, s_csteps s = Some d -> nth_error (h_dicts h) d = Some ds ->
            dget str_eqb a ds = Some c -> text_of h c = []) ->
      effect h (OGet i a) h'
  | Ef_set_str : forall i a x h' r s, make h i a (Some x) None = (h', r) -> step_at h i s ->
      effect h (OSet i a (AStr x)) h'
  | Ef_set_step : forall i a j h' r s, make h i a None (Some j) = (h', r) -> step_at h i s ->
      effect h (OSet i a (AStep j)) h'
  | Ef_locked : forall i z s, step_at h i s -> lock_allows z (s_orig s) (s_text s) ->
      effect h (OLocked i z) (set_steps h (list_update (h_steps h) i (with_locked s z)))
  | Ef_tags : forall o i s ts, (exists l, o = OTag i l) \/ (exists t, o = OUntag i t) -> step_at h i s ->
      effect h o (set_steps h (list_update (h_steps h) i (with_tags s ts)))
  | Ef_cells : forall l cx, effect h (OPmods l) (set_cells h (h_cells h ++ cx)).

  Lemma lock_cond : forall z o t,
    negb (str_eqb t o) && ((z <? CAN_RENAME)%Z || (z <? CAN_RELOCATE)%Z && existsb (N.eqb slash) t) = false
    <-> lock_allows z o t.
  Proof.
    intros z o t. unfold lock_allows, CAN_RENAME, CAN_RELOCATE.
    destruct (str_eqb_spec t o) as [->|N]; cbn [negb andb]; [split; auto|].
    rewrite Bool.orb_false_iff, Bool.andb_false_iff, Z.ltb_ge, Z.ltb_ge.
    assert (S : existsb (N.eqb slash) t = false <-> ~ In 47%N t).
    { unfold slash. split.
      - intros E Hin. assert (existsb (N.eqb 47) t = true); [|congruence].
        apply existsb_exists. exists 47%N. split; auto.
      - intros H. destruct (existsb (N.eqb 47) t) eqn:E; auto. exfalso. apply existsb_exists in E.
        destruct E as [x [Hx Ex]]. apply N.eqb_eq in Ex. subst x. auto. }
    rewrite S. split; [intros [A B]; auto|intros [A|[A B]]; [contradiction|auto]].
  Qed.

  Lemma exec_effect : forall h o, effect h o (ex h o).
  Proof.
    intros h [n m a ts|i a|i a v|i z|i ts|i t|l]; cbn [exec].
    - destruct (new h n m a ts) as [h' r] eqn:E. eapply Ef_new; eauto.
    - destruct (get h i a) as [h' r] eqn:E. cbn [fst].
      destruct (get_inv _ _ _ _ _ E) as [[-> _]|[_ [_ [[s [Hs Hc]] [r' [Em _]]]]]]; [apply Ef_none|].
      eapply Ef_get; eauto.
    - unfold setattr. destruct (starts_with _ a); [apply Ef_none|].
      destruct v as [j|x|]; [| |apply Ef_none];
        (destruct (make h i a _ _) as [h' r] eqn:E; cbn [fst];
         destruct (nth_error (h_steps h) i) as [s|] eqn:Hs;
          [|unfold make_cstep in E; rewrite Hs in E; injection E as <- _; apply Ef_none]).
      + eapply Ef_set_step; eauto.
      + eapply Ef_set_str; eauto.
    - unfold set_locked. destruct (nth_error (h_steps h) i) as [s|] eqn:Hs; [|apply Ef_none].
      destruct (negb _ && _) eqn:E; [apply Ef_none|]. cbn [fst].
      apply Ef_locked; auto. now apply lock_cond.
    - unfold tag. destruct (nth_error (h_steps h) i) as [s|] eqn:Hs; [|apply Ef_none].
      eapply Ef_tags; eauto.
    - unfold tag_remove. destruct (nth_error (h_steps h) i) as [s|] eqn:Hs; [|apply Ef_none].
      eapply Ef_tags; eauto.
    - destruct (pmods_from_tuples compiles l) as [p|e]; [|apply Ef_none].
      destruct (alloc_pmod p (h_cells h)) as [lp c] eqn:Ea.
      destruct (alloc_spec p _ _ _ Ea) as [[cx ->] _]. apply Ef_cells.
  Qed.

  Lemma new_keeps : forall h n m a ts h' r, new h n m a ts = (h', r) -> keeps_steps h h'.
  Proof.
    intros h n m a ts h' r E. apply new_inv in E. destruct E as [dx [cx [A [B C]]]].
    assert (exists extra, h_steps h' = h_steps h ++ extra) as [extra Ee].
    { destruct r as [i|e]; [destruct C as [_ [s [C _]]]; eauto|].
      destruct C as [C _]. exists []. now rewrite app_nil_r. }
    split; [rewrite Ee, app_length; lia|]. intros i s Hi. exists s. unfold step_at. rewrite Ee.
    split; [now apply nth_error_app_l|]. split; [apply same_id_refl|auto].
  Qed.

  Lemma effect_names : forall h o h', effect h o h' -> keeps_names h h'.
  Proof.
    intros h o h' E.
    assert (U : forall i s s', step_at h i s -> s_text s' = s_text s -> s_orig s' = s_orig s ->
              keeps_names h (set_steps h (list_update (h_steps h) i s'))).
    { intros i s s' Hs Ht Ho. split; [cbn; now rewrite list_update_length|]. intros j sj Hj. unfold step_at in *. cbn.
      destruct (Nat.eq_dec i j) as [<-|N].
      - rewrite nth_error_update_eq by (apply nth_error_Some; congruence). exists s'.
        assert (sj = s) by congruence. subst sj. auto.
      - rewrite nth_error_update_neq by auto. eauto. }
    destruct E; try (now apply keeps_names_refl); try (apply keeps_steps_names; eapply make_keeps; eauto; fail).
    - apply keeps_steps_names. eapply new_keeps; eauto.
    - eapply U; eauto.
    - eapply U; eauto.
    - split; cbn; eauto.
  Qed.

  Lemma exec_names : forall h o, keeps_names h (ex h o).
  Proof. intros h o. eapply effect_names, exec_effect. Qed.
  Lemma run_names : forall os h, keeps_names h (go h os).
  Proof.
    induction os as [|o os IH]; intros h; [apply keeps_names_refl|].
    eapply keeps_names_trans; [apply exec_names|apply IH].
  Qed.
End Regex.
