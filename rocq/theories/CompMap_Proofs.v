(** * Proofs about mapped components *)
From Coq Require Import String Lia.
From Verif Require Import PyBase PyBase_Proofs Json JsonPointer_Model JsonPointer_Spec Paths_Model Paths_Spec Paths_Proofs
  Pmod_Model Pmod_Spec Pmod_Proofs PmodMap_Proofs Pstep_Model Pstep_Spec PstepPmod_Proofs Pstep_Proofs PstepTree_Proofs
  PstepHist_Proofs PstepPaths_Proofs Comp_Model Comp_Spec CompShift_Proofs Comp_Proofs.

(** ** Growth: references add steps and keep all there was *)
Definition grown (h h' : heap) : Prop :=
  (exists cx, h_cells h' = h_cells h ++ cx)
  /\ forall j s, step_at h j s -> exists s', step_at h' j s' /\ s_text s' = s_text s /\ s_orig s' = s_orig s
       /\ s_pmod s' = s_pmod s.

Lemma grown_refl : forall h, grown h h.
Proof. intros h. split; [exists []; now rewrite app_nil_r|]. eauto. Qed.

Lemma grown_trans : forall a b c, grown a b -> grown b c -> grown a c.
Proof.
  intros a b c [[x X] H] [[y Y] H']. split; [exists (x ++ y); now rewrite Y, X, app_assoc|].
  intros j s Hs. destruct (H _ _ Hs) as [s1 [H1 [H2 [H3 H4]]]]. destruct (H' _ _ H1) as [s2 [H5 [H6 [H7 H8]]]].
  exists s2. repeat split; auto; congruence.
Qed.

Lemma grown_erase : forall h h' p, grown h h' -> allocated (h_cells h) p ->
  allocated (h_cells h') p /\ erase (h_cells h') p = erase (h_cells h) p.
Proof. intros h h' p [[cx ->] _] A. split; [now apply allocated_app|now apply erase_app]. Qed.

Lemma grown_back : forall h h' j s s', grown h h' -> step_at h j s -> step_at h' j s' ->
  s_text s' = s_text s /\ s_orig s' = s_orig s /\ s_pmod s' = s_pmod s.
Proof.
  intros h h' j s s' [_ G] H H'. destruct (G _ _ H) as [s1 [H1 H2]]. unfold step_at in *.
  assert (s1 = s') by congruence. now subst.
Qed.

Lemma Forall2_length : forall A B (R : A -> B -> Prop) l l', Forall2 R l l' -> length l = length l'.
Proof. intros A B R l l' H. induction H; cbn; auto. Qed.

Section Map.
  Variable M : Type.
  Variable fullmatch : pystr -> pystr -> option M.
  Variable expand : M -> pystr -> res pystr.
  Variable compiles : pystr -> bool.
  Variable class_attr : pystr -> bool.
  Variable depth : nat.
  Notation new := (new_step M fullmatch expand compiles).
  Notation make := (make_cstep M fullmatch expand compiles).
  Notation get := (getattr M fullmatch expand compiles class_attr).
  Notation ex := (exec M fullmatch expand compiles class_attr).
  Notation desc := (descend M fullmatch expand).
  Notation alias_ := (alias_ M fullmatch expand).
  Notation below_of := (below_of M fullmatch).
  Notation map_steps := (map_steps M fullmatch expand).
  Notation map_path := (map_path M fullmatch expand).
  Notation plainly := (plainly M fullmatch expand).

  (** ** A reference, in detail *)
  Definition pick (p : option lpmod) : maps := match p with Some p => MPmod p | None => NoMaps end.

  Definition opened (h : heap) (i : nat) (s : pstep) : heap * nat :=
    match dict_of h (s_csteps s), s_csteps s with
    | _ :: _, Some d => (h, d)
    | _, _ => (set_steps (set_dicts h (h_dicts h ++ [[]]))
                 (list_update (h_steps h) i (with_csteps s (Some (length (h_dicts h))))), length (h_dicts h))
    end.

  Definition linked (h : heap) (d : nat) (a : pystr) (n : nat) : heap :=
    set_dicts h (list_update (h_dicts h) d (dset str_eqb a n (dict_of h (Some d)))).

  Lemma make_fresh : forall h i s a, step_at h i s -> dget str_eqb a (dict_of h (s_csteps s)) = None ->
    make h i a None None =
      let (h1, d) := opened h i s in
      match new h1 (Some a) (pick (s_pmod s)) None [] with
      | (h2, Raise e) => (h2, Raise e)
      | (h2, Ok n) => (linked h2 d a n, Ok n)
      end.
  Proof.
    intros h i s a Hs Hd. unfold make_cstep. rewrite Hs. unfold prepare, opened.
    assert (L : (i < length (h_steps h))%nat) by (eapply step_lt; eauto).
    destruct (dict_of h (s_csteps s)) as [|x xs] eqn:Ed; [|destruct (s_csteps s) as [d|] eqn:Es; [|discriminate]].
    - assert (Om : forall h0, h_steps h0 = list_update (h_steps h) i (with_csteps s (Some (length (h_dicts h)))) ->
                own_maps h0 i = pick (s_pmod s)).
      { intros h0 E. unfold own_maps. rewrite E, nth_error_update_eq by auto. reflexivity. }
      destruct (s_csteps s); (rewrite Om by reflexivity); reflexivity.
    - rewrite Hd. cbn [update_pmod]. assert (Om : own_maps h i = pick (s_pmod s)) by (unfold own_maps; now rewrite Hs).
      rewrite Om. reflexivity.
  Qed.

  (** What [new] adds, without mappings or with those of an object *)
  Lemma new_adds : forall h n m h' i, new h (Some n) (pick m) None [] = (h', Ok i) ->
    exists t q cx, h' = mkHeap (h_steps h ++ [mkStep t n q None CAN_RELOCATE []]) (h_dicts h) (h_cells h ++ cx)
      /\ i = length (h_steps h)
      /\ match m with
         | None => t = n /\ q = None
         | Some p => allocated (h_cells h) p -> exists al, desc (erase (h_cells h) p) n = Ok (option_map (erase (h_cells h')) q, al)
             /\ text_for n al t /\ forall x, q = Some x -> allocated (h_cells h') x
         end.
  Proof.
    intros h n m h' i E. destruct m as [p|]; cbn [pick] in E.
    - assert (E' := E). cbn in E. unfold step_by_pmod in E.
      destruct (ldescend_ext M fullmatch expand p n (h_cells h)) as [cx Ecx].
      destruct (ldescend M fullmatch expand p n (h_cells h)) as [c [[q al]|e]] eqn:El; [|discriminate]. cbn [fst] in Ecx. subst c.
      unfold fresh_step, alloc_step in E. cbn in E. injection E as <- <-. eexists _, q, cx.
      split; [reflexivity|]. split; [reflexivity|]. intro A.
      assert (X := new_of_pmod M fullmatch expand compiles _ _ _ _ _ _ E' A).
      destruct (desc (erase (h_cells h) p) n) as [[pm al']|] eqn:Ed; [|discriminate].
      destruct X as [_ [t [q' [X1 [X2 [X3 X4]]]]]]. unfold step_at in X1. cbn [h_steps set_steps set_cells] in X1. rewrite nth_error_snoc_new in X1.
      injection X1 as <- <-. exists al'. split; [now rewrite <- X3|]. split; auto.
    - cbn in E. unfold fresh_step, alloc_step in E. cbn in E. injection E as <- <-. exists n, None, [].
      split; [now rewrite app_nil_r|]. auto.
  Qed.

  Lemma new_ext : forall h n m h' r, new h (Some n) (pick m) None [] = (h', r) -> grown h h'.
  Proof.
    intros h n m h' r E. destruct m as [p|]; cbn [pick] in E; cbn in E.
    - unfold step_by_pmod in E. destruct (ldescend_ext M fullmatch expand p n (h_cells h)) as [cx Ecx].
      destruct (ldescend M fullmatch expand p n (h_cells h)) as [c [[q al]|e]]; cbn [fst] in Ecx; subst c;
        cbn in E; injection E as <- <-.
      + split; [now exists cx|]. intros j s Hs. exists s. split; [|auto]. unfold step_at in *. cbn. now apply nth_error_app_l.
      + split; [now exists cx|]. eauto.
    - cbn in E. injection E as <- <-. split; [exists []; now rewrite app_nil_r|]. intros j s Hs. exists s.
      split; [|auto]. unfold step_at in *. cbn. now apply nth_error_app_l.
  Qed.

  Lemma opened_grown : forall h i s, step_at h i s -> grown h (fst (opened h i s)).
  Proof.
    intros h i s Hs. unfold opened.
    assert (X : forall d, grown h (set_steps (set_dicts h (h_dicts h ++ [[]])) (list_update (h_steps h) i (with_csteps s (Some d))))).
    { intros d. split; [exists []; now rewrite app_nil_r|]. intros j sj Hj. unfold step_at in *. cbn [h_steps set_steps set_dicts].
      destruct (Nat.eq_dec i j) as [<-|N].
      - assert (sj = s) by congruence. subst sj. exists (with_csteps s (Some d)). split; [|auto].
        apply nth_error_update_eq. apply nth_error_Some. congruence.
      - exists sj. split; [|auto]. now rewrite nth_error_update_neq. }
    destruct (dict_of h (s_csteps s)); [apply X|]. destruct (s_csteps s); [apply grown_refl|apply X].
  Qed.

  (** Attributes that are references *)
  Definition ref_attr (a : pystr) : bool := negb (class_attr a) && negb (starts_with (lit "_") a || forbidden a).

  Lemma get_ref : forall h i a s, ref_attr a = true -> step_at h i s ->
    (forall c, dget str_eqb a (dict_of h (s_csteps s)) = Some c -> text_of h c <> []) ->
    get h i a = match dget str_eqb a (dict_of h (s_csteps s)) with
                | Some c => (h, Ok (VStep c))
                | None =>
                    let (h1, d) := opened h i s in
                    match new h1 (Some a) (pick (s_pmod s)) None [] with
                    | (h2, Raise e) => (h2, Raise e)
                    | (h2, Ok n) => (linked h2 d a n, Ok (VStep n))
                    end
                end.
  Proof.
    intros h i a s Ha Hs Ht. unfold ref_attr in Ha. apply andb_prop in Ha. destruct Ha as [A B].
    apply Bool.negb_true_iff in A. apply Bool.negb_true_iff in B. unfold getattr. rewrite A, B, Hs.
    destruct (dget str_eqb a (dict_of h (s_csteps s))) as [c|] eqn:Ed.
    - specialize (Ht c eq_refl). apply texted_iff in Ht. now rewrite Ht.
    - rewrite (make_fresh _ _ _ _ Hs Ed). destruct (opened h i s) as [h1 d].
      destruct (new h1 (Some a) (pick (s_pmod s)) None []) as [h2 [n|e]]; reflexivity.
  Qed.

  Lemma get_other : forall h i a, ref_attr a = false ->
    get h i a = (h, if class_attr a then Ok VClass else Raise AttributeError).
  Proof.
    intros h i a Ha. unfold ref_attr in Ha. unfold getattr. destruct (class_attr a); auto.
    destruct (starts_with (lit "_") a || forbidden a); auto. discriminate.
  Qed.

  Lemma linked_grown : forall h d a n, grown h (linked h d a n).
  Proof. intros h d a n. split; [exists []; now rewrite app_nil_r|]. intros j s Hs. exists s. auto. Qed.

  (** ** Twins: with mappings and without *)
  Definition kin (s s0 : pstep) : Prop :=
    s_orig s = s_orig s0 /\ s_text s0 = s_orig s0 /\ plain_name (s_orig s0) /\ s_pmod s0 = None
    /\ s_csteps s = s_csteps s0 /\ s_text s <> [].
  Definition twin (h h0 : heap) : Prop := h_dicts h = h_dicts h0 /\ Forall2 kin (h_steps h) (h_steps h0).

  Lemma Forall2_nth : forall A B (R : A -> B -> Prop) l l' i, Forall2 R l l' ->
    match nth_error l i, nth_error l' i with Some x, Some y => R x y | None, None => True | _, _ => False end.
  Proof. intros A B R l l' i H. revert i. induction H as [|x y l l' Hxy H IH]; intros [|i]; cbn; auto; apply IH. Qed.

  Lemma Forall2_update : forall A B (R : A -> B -> Prop) l l' i x y, Forall2 R l l' -> R x y ->
    Forall2 R (list_update l i x) (list_update l' i y).
  Proof. intros A B R l l' i x y H Hxy. revert i. induction H; intros [|i]; cbn; auto. Qed.

  Lemma twin_step : forall h h0 i s, twin h h0 -> step_at h i s -> exists s0, step_at h0 i s0 /\ kin s s0.
  Proof.
    intros h h0 i s [_ F] Hs. assert (X := Forall2_nth _ _ _ _ _ i F). unfold step_at in *. rewrite Hs in X.
    destruct (nth_error (h_steps h0) i) as [s0|]; [eauto|destruct X].
  Qed.
  Lemma twin_step_back : forall h h0 i s0, twin h h0 -> step_at h0 i s0 -> exists s, step_at h i s /\ kin s s0.
  Proof.
    intros h h0 i s [_ F] Hs. assert (X := Forall2_nth _ _ _ _ _ i F). unfold step_at in *. rewrite Hs in X.
    destruct (nth_error (h_steps h) i) as [s0|]; [eauto|destruct X].
  Qed.

  Lemma twin_dict : forall h h0 d, twin h h0 -> dict_of h d = dict_of h0 d.
  Proof. intros h h0 d [E _]. unfold dict_of. now rewrite E. Qed.

  Lemma twin_children : forall h h0 i, twin h h0 -> children h i = children h0 i.
  Proof.
    intros h h0 i T. unfold children. assert (X := Forall2_nth _ _ _ _ _ i (proj2 T)).
    destruct (nth_error (h_steps h) i), (nth_error (h_steps h0) i); try destruct X; auto.
    rewrite (twin_dict _ _ _ T). f_equal. tauto.
  Qed.

  Lemma twin_child : forall h h0 i a c, twin h h0 -> child_at h i a c <-> child_at h0 i a c.
  Proof. intros. rewrite <- !children_child. now rewrite (twin_children h h0). Qed.

  Lemma twin_walk : forall h h0 i w, twin h h0 -> walk h i w -> walk h0 i w.
  Proof. intros h h0 i w T W. induction W as [|i a c p Hc W IH]; [constructor|]. econstructor; [|exact IH]. exact (proj1 (twin_child h h0 i a c T) Hc). Qed.
  Lemma twin_walk_back : forall h h0 i w, twin h h0 -> walk h0 i w -> walk h i w.
  Proof. intros h h0 i w T W. induction W as [|i a c p Hc W IH]; [constructor|]. econstructor; [|exact IH]. exact (proj2 (twin_child h h0 i a c T) Hc). Qed.

  Lemma twin_leaf : forall h h0 i, twin h h0 -> leaf_at h i <-> leaf_at h0 i.
  Proof. intros. rewrite !leaf_children. now rewrite (twin_children h h0). Qed.

  Lemma twin_text : forall h h0 i s, twin h h0 -> step_at h i s -> texted h i = true /\ texted h0 i = true.
  Proof.
    intros h h0 i s T Hs. destruct (twin_step _ _ _ _ T Hs) as [s0 [H0 [K1 [K2 [[[K3 _] _] [_ [_ K4]]]]]]].
    split; apply texted_iff; [now rewrite (text_at _ _ _ Hs)|rewrite (text_at _ _ _ H0), K2; exact K3].
  Qed.

  Lemma twin_opened : forall h h0 i s s0, twin h h0 -> step_at h i s -> step_at h0 i s0 -> kin s s0 ->
    twin (fst (opened h i s)) (fst (opened h0 i s0)) /\ snd (opened h i s) = snd (opened h0 i s0).
  Proof.
    intros h h0 i s s0 T Hs H0 K. unfold opened. rewrite <- (twin_dict _ _ _ T). destruct K as [K1 [K2 [K3 [K4 [K5 K6]]]]].
    assert (X : twin (set_steps (set_dicts h (h_dicts h ++ [[]])) (list_update (h_steps h) i (with_csteps s (Some (length (h_dicts h))))))
      (set_steps (set_dicts h0 (h_dicts h0 ++ [[]])) (list_update (h_steps h0) i (with_csteps s0 (Some (length (h_dicts h0))))))).
    { destruct T as [T1 T2]. split; [cbn; congruence|]. cbn. apply Forall2_update; auto. rewrite T1.
      repeat split; cbn; auto; apply K3. }
    rewrite K5. destruct T as [T1 T2]. destruct (dict_of h (s_csteps s0)); cbn [fst snd]; [split; [exact X|congruence]|].
    destruct (s_csteps s0); cbn [fst snd]; (split; [try exact X; now split|congruence]).
  Qed.

  Lemma twin_linked : forall h h0 d a n, twin h h0 -> twin (linked h d a n) (linked h0 d a n).
  Proof.
    intros h h0 d a n T. split; [|exact (proj2 T)]. unfold linked. cbn [set_dicts h_dicts].
    rewrite (twin_dict _ _ (Some d) T). now rewrite (proj1 T).
  Qed.

  (** ** Trees that follow the mappings *)
  Definition mapping (h : heap) (s : pstep) : option pmod := option_map (erase (h_cells h)) (s_pmod s).
  Definition alias_at (pm : option pmod) (a : pystr) : res (option pystr) :=
    match pm with Some p => alias_ p a | None => Ok None end.
  Definition below_at (pm : option pmod) (a : pystr) : option pmod :=
    match pm with Some p => below_of p a | None => None end.

  (** The step [sc] is what the mappings [pm] make of the name [a]. *)
  Definition follows (h : heap) (pm : option pmod) (a : pystr) (sc : pstep) : Prop :=
    s_orig sc = a /\ exists al, alias_at pm a = Ok al /\ text_for a al (s_text sc) /\ mapping h sc = below_at pm a.

  Definition tidy (h : heap) : Prop :=
    good h
    /\ (forall i s, step_at h i s -> okm h (s_pmod s))
    /\ (forall i a c s sc, child_at h i a c -> step_at h i s -> step_at h c sc -> follows h (mapping h s) a sc).

  Lemma grown_mapping : forall h h' s s', grown h h' -> okm h (s_pmod s) -> s_pmod s' = s_pmod s ->
    mapping h' s' = mapping h s.
  Proof.
    intros h h' s s' G [A _] E. unfold mapping. rewrite E. destruct (s_pmod s) as [p|]; auto. cbn. f_equal.
    apply (grown_erase h h' p G). auto.
  Qed.

  Lemma grown_okm : forall h h' q, grown h h' -> okm h q -> okm h' q.
  Proof.
    intros h h' q G [A W]. destruct q as [p|]; [|split; [discriminate|intros x; discriminate]].
    destruct (grown_erase h h' p G (A _ eq_refl)) as [A' E]. split; [intros x [= <-]; exact A'|].
    cbn in *. rewrite E. exact W.
  Qed.

  Lemma grown_follows : forall h h' pm a s s', grown h h' -> okm h (s_pmod s) ->
    s_text s' = s_text s -> s_orig s' = s_orig s -> s_pmod s' = s_pmod s -> follows h pm a s -> follows h' pm a s'.
  Proof.
    intros h h' pm a s s' G K E1 E2 E3 [F1 [al [F2 [F3 F4]]]]. split; [congruence|]. exists al.
    rewrite (grown_mapping h h' s s' G K E3), E1. auto.
  Qed.

  Lemma good_ex : forall h o, good h -> no_loop h o -> good (ex h o).
  Proof.
    intros h o G N. apply (good_run M fullmatch expand compiles class_attr [o] h G). constructor; auto. constructor.
  Qed.

  Lemma desc_follows : forall h p n t q al h', wf (erase (h_cells h) p) ->
    desc (erase (h_cells h) p) n = Ok (option_map (erase (h_cells h')) q, al) -> text_for n al t ->
    follows h' (Some (erase (h_cells h) p)) n (mkStep t n q None CAN_RELOCATE [])
    /\ owf (option_map (erase (h_cells h')) q).
  Proof.
    intros h p n t q al h' W E T. rewrite (descend_alias M fullmatch expand _ n W) in E.
    destruct (alias_ (erase (h_cells h) p) n) as [al'|] eqn:Eal; [|discriminate]. injection E as E1 <-.
    destruct (below_of_below M fullmatch _ n W) as [_ B2]. split.
    - split; [reflexivity|]. exists al'. split; [exact Eal|]. split; [exact T|]. unfold mapping. cbn [s_pmod below_at]. congruence.
    - intros x Hx. apply B2. congruence.
  Qed.

  (** A root *)
  Lemma new_tidy : forall h n m h' i, new h (Some n) (pick m) None [] = (h', Ok i) -> tidy h -> okm h m ->
    tidy h' /\ grown h h' /\ i = length (h_steps h) /\ exists s, step_at h' i s
      /\ follows h' (option_map (erase (h_cells h)) m) n s.
  Proof.
    intros h n m h' i E [G [Ok' Ed]] [Am Wm].
    assert (Gr := new_ext _ _ _ _ _ E).
    assert (G' : good h').
    { assert (X := good_ex h (ONew (Some n) (pick m) None []) G ltac:(intros ? ? ? H; discriminate H)).
      cbn [exec] in X. now rewrite E in X. }
    destruct (new_adds _ _ _ _ _ E) as [t [q [cx [Eh [Ei X]]]]].
    assert (Hn : step_at h' i (mkStep t n q None CAN_RELOCATE [])).
    { subst h' i. unfold step_at. cbn. apply nth_error_snoc_new. }
    assert (Y : follows h' (option_map (erase (h_cells h)) m) n (mkStep t n q None CAN_RELOCATE []) /\ okm h' q).
    { destruct m as [p|].
      - destruct (X (Am _ eq_refl)) as [al [X1 [X2 X3]]]. cbn [option_map].
        destruct (desc_follows h p n t q al h' (Wm _ eq_refl) X1 X2) as [Y1 Y2]. split; auto. now split.
      - destruct X as [-> ->]. split; [|split; [discriminate|intros ?; discriminate]]. split; [reflexivity|].
        exists None. split; [reflexivity|]. split; [constructor|reflexivity]. }
    destruct Y as [Y1 Y2]. split; [|split; [exact Gr|split; [exact Ei|eauto]]].
    split; [exact G'|]. split.
    - intros j s Hj. destruct (Nat.eq_dec j i) as [->|N].
      + unfold step_at in *. rewrite Hn in Hj. injection Hj as <-. exact Y2.
      + assert (Hj' : step_at h j s).
        { subst h'. unfold step_at in *. cbn in Hj. apply nth_error_snoc in Hj. destruct Hj as [Hj|[-> _]]; [exact Hj|congruence]. }
        eapply grown_okm; eauto.
    - intros j a c s sc Hc Hj Hsc.
      assert (Hc' : child_at h j a c).
      { destruct Hc as [sj [d [ds [H1 [H2 [H3 H4]]]]]]. subst h'. unfold step_at in H1. cbn in H1, H3.
        apply nth_error_snoc in H1. destruct H1 as [H1|[_ ->]]; [|discriminate]. exists sj, d, ds. auto. }
      destruct (child_lt h j a c (proj1 G) Hc') as [L1 L2].
      destruct (nth_error (h_steps h) j) as [s1|] eqn:E1; [|apply nth_error_None in E1; lia].
      destruct (nth_error (h_steps h) c) as [c1|] eqn:E2; [|apply nth_error_None in E2; lia].
      destruct (grown_back h h' j s1 s Gr E1 Hj) as [T1 [T2 T3]]. destruct (grown_back h h' c c1 sc Gr E2 Hsc) as [U1 [U2 U3]].
      rewrite (grown_mapping h h' s1 s Gr (Ok' _ _ E1) T3).
      eapply grown_follows; eauto.
  Qed.

  (** A reference *)
  Lemma get_tidy : forall h i a h' c, get h i a = (h', Ok (VStep c)) -> tidy h ->
    (forall j s, step_at h j s -> s_text s <> []) -> tidy h' /\ grown h h' /\ child_at h' i a c.
  Proof.
    intros h i a h' c E [G [Ok' Ed]] Tx.
    destruct (get_child M fullmatch expand compiles class_attr _ _ _ _ _ E) as [Hc [Ha1 Ha2]].
    assert (Ha : ref_attr a = true) by (unfold ref_attr; now rewrite Ha1, Ha2).
    assert (G' : good h').
    { assert (X := good_ex h (OGet i a) G ltac:(intros ? ? ? H; discriminate H)). cbn [exec] in X. now rewrite E in X. }
    destruct (nth_error (h_steps h) i) as [s|] eqn:Hs.
    2:{ unfold getattr in E. rewrite Ha1, Ha2, Hs in E. discriminate. }
    assert (Tx' : forall c, dget str_eqb a (dict_of h (s_csteps s)) = Some c -> text_of h c <> []).
    { intros c0 Hd. apply dget_In in Hd.
      assert (Hc0 : child_at h i a c0) by (apply children_child; unfold children; now rewrite Hs).
      destruct (child_lt h i a c0 (proj1 G) Hc0) as [_ L].
      destruct (nth_error (h_steps h) c0) as [s0|] eqn:E0; [|apply nth_error_None in E0; lia].
      rewrite (text_at _ _ _ E0). eapply Tx; eauto. }
    assert (E0 := E). rewrite (get_ref h i a s Ha Hs Tx') in E.
    destruct (dget str_eqb a (dict_of h (s_csteps s))) as [c0|] eqn:Edg.
    { injection E as <- <-. split; [split; auto|]. split; [apply grown_refl|exact Hc]. }
    assert (Em : make h i a None None = (h', Ok c)).
    { rewrite (make_fresh _ _ _ _ Hs Edg). destruct (opened h i s) as [h1 d].
      destruct (new h1 (Some a) (pick (s_pmod s)) None []) as [h2 [n|e]]; [|discriminate]. now injection E as <- <-. }
    assert (Nc : forall c, ~ child_at h i a c).
    { intros c0 Hc0. apply children_child in Hc0. unfold children in Hc0. rewrite Hs in Hc0.
      assert (Hk : In a (map fst (dict_of h (s_csteps s)))) by (apply in_map_iff; exists (a, c0); auto).
      clear - Edg Hk. induction (dict_of h (s_csteps s)) as [|[k v] l IH]; [destruct Hk|]. cbn in *.
      destruct (str_eqb_spec a k) as [->|N]; [discriminate|]. destruct Hk as [->|Hk]; [congruence|auto]. }
    assert (X := make_ref M fullmatch expand compiles h i a h' (Ok c) s Hs Em
                   (fun c Hc' => False_ind _ (Nc c Hc')) (proj1 (Ok' _ _ Hs))).
    assert (Gr : grown h h').
    { destruct (opened h i s) as [h1 d] eqn:Eo. assert (G1 := opened_grown h i s Hs). rewrite Eo in G1. cbn [fst] in G1.
      destruct (new h1 (Some a) (pick (s_pmod s)) None []) as [h2 [n|e]] eqn:En; [|discriminate]. injection E as <- <-.
      eapply grown_trans; [exact G1|]. eapply grown_trans; [eapply new_ext; eauto|apply linked_grown]. }
    assert (Y : exists t q, c = length (h_steps h) /\ step_at h' c (mkStep t a q None CAN_RELOCATE [])
       /\ follows h' (mapping h s) a (mkStep t a q None CAN_RELOCATE []) /\ okm h' q).
    { unfold mapping. destruct (s_pmod s) as [p|] eqn:Ep.
      - destruct (descend M fullmatch expand (erase (h_cells h) p) a) as [[pm al]|] eqn:Edesc; [|discriminate].
        destruct X as [Ec [t [q [X1 [X2 [X3 X4]]]]]]. injection Ec as ->. exists t, q. split; auto. split; auto.
        rewrite <- X3 in Edesc. destruct (Ok' _ _ Hs) as [_ W]. rewrite Ep in W.
        destruct (desc_follows h p a t q al h' (W _ eq_refl) Edesc X2) as [Y1 Y2]. split; auto. now split.
      - destruct X as [Ec X]. injection Ec as ->. exists a, None. split; auto. split; auto.
        split; [|split; [discriminate|intros ?; discriminate]]. split; [reflexivity|].
        exists None. split; [reflexivity|]. split; [constructor|reflexivity]. }
    destruct Y as [t [q [Ec [Y1 [Y2 Y3]]]]]. split; [|split; auto]. split; [exact G'|]. split.
    - intros j sj Hj. destruct (Nat.eq_dec j c) as [->|N].
      + unfold step_at in *. rewrite Y1 in Hj. injection Hj as <-. exact Y3.
      + destruct (nth_error (h_steps h) j) as [s1|] eqn:E1.
        * destruct (grown_back h h' j s1 sj Gr E1 Hj) as [_ [_ T3]]. rewrite T3. eapply grown_okm; eauto.
        * exfalso. apply nth_error_None in E1.
          destruct (make_steps M fullmatch expand compiles _ _ _ _ _ _ _ _ Hs Em) as [s' [extra [Es _]]].
          destruct (make_inv M fullmatch expand compiles _ _ _ _ _ _ _ _ Hs Em) as [h1 [d [e1 [h2 [P [Nw F]]]]]].
          destruct (prepared_steps _ _ _ _ _ _ _ _ _ Hs P) as [s'' [A _]].
          apply new_inv in Nw. destruct Nw as [dx [cx [_ [_ [_ [sn [Es2 _]]]]]]]. subst h'. unfold step_at in Hj. cbn in Hj.
          rewrite Es2 in Hj. apply nth_error_snoc in Hj. rewrite A, list_update_length in Hj.
          destruct Hj as [Hj|[-> _]]; [|congruence].
          assert (nth_error (list_update (h_steps h) i s'') j <> None) by congruence. apply nth_error_Some in H.
          rewrite list_update_length in H. lia.
    - intros j b c' sj sc Hch Hj Hsc.
      destruct (make_child M fullmatch expand compiles class_attr _ _ _ _ _ _ _ _ Hs Em (proj1 G) (proj1 (proj2 G)) (sole_none _ _) _ _ _ Hch)
        as [Hold|[[E1 [E2 [-> ->]]]|[_ [_ [k [_ [_ [F|[_ F]]]]]]]]]; [| |discriminate|destruct (Nc _ F)].
      + destruct (child_lt h j b c' (proj1 G) Hold) as [L1 L2].
        destruct (nth_error (h_steps h) j) as [s1|] eqn:E1; [|apply nth_error_None in E1; lia].
        destruct (nth_error (h_steps h) c') as [c1|] eqn:E2; [|apply nth_error_None in E2; lia].
        destruct (grown_back h h' j s1 sj Gr E1 Hj) as [T1 [T2 T3]]. destruct (grown_back h h' c' c1 sc Gr E2 Hsc) as [U1 [U2 U3]].
        rewrite (grown_mapping h h' s1 sj Gr (Ok' _ _ E1) T3). eapply grown_follows; eauto.
      + injection E1 as <-. destruct (grown_back h h' i s sj Gr Hs Hj) as [T1 [T2 T3]].
        rewrite (grown_mapping h h' s sj Gr (Ok' _ _ Hs) T3). unfold step_at in *. rewrite Y1 in Hsc. injection Hsc as <-. exact Y2.
  Qed.

  (** ** The two programs in step *)
  Lemma twin_get : forall h h0 i a h' v, twin h h0 -> sound h -> plain_name a -> get h i a = (h', Ok v) ->
    (forall c, v = VStep c -> forall s, step_at h' c s -> s_text s <> []) ->
    exists h0', get h0 i a = (h0', Ok v) /\ twin h' h0'.
  Proof.
    intros h h0 i a h' v T S Pa E Hv. destruct (ref_attr a) eqn:Ha.
    2:{ rewrite get_other in E |- * by exact Ha. destruct (class_attr a); [|discriminate]. injection E as <- <-. eauto. }
    destruct (nth_error (h_steps h) i) as [s|] eqn:Hs.
    2:{ unfold getattr in E. rewrite Hs in E. unfold ref_attr in Ha. apply andb_prop in Ha. destruct Ha as [A B].
        apply Bool.negb_true_iff in A. apply Bool.negb_true_iff in B. rewrite A, B in E. discriminate. }
    destruct (twin_step _ _ _ _ T Hs) as [s0 [H0 K]].
    assert (Kd : dict_of h0 (s_csteps s0) = dict_of h (s_csteps s)).
    { rewrite (twin_dict _ _ _ T). f_equal. symmetry. apply K. }
    assert (Tx : forall c, dget str_eqb a (dict_of h (s_csteps s)) = Some c -> text_of h c <> [] /\ text_of h0 c <> []).
    { intros c Hd. apply dget_In in Hd.
      assert (Hc0 : child_at h i a c) by (apply children_child; unfold children; now rewrite Hs).
      destruct (child_lt h i a c S Hc0) as [_ L].
      destruct (nth_error (h_steps h) c) as [sc|] eqn:E0; [|apply nth_error_None in E0; lia].
      destruct (twin_text _ _ _ _ T E0) as [A B]. apply texted_iff in A. apply texted_iff in B. auto. }
    rewrite (get_ref h i a s Ha Hs) in E by (intros; now apply Tx).
    rewrite (get_ref h0 i a s0 Ha H0) by (rewrite Kd; intros; now apply Tx). rewrite Kd.
    destruct (dget str_eqb a (dict_of h (s_csteps s))) as [c|]; [injection E as <- <-; eauto|].
    destruct (twin_opened _ _ _ _ _ T Hs H0 K) as [To Ed].
    destruct (opened h i s) as [h1 d]. destruct (opened h0 i s0) as [h01 d0]. cbn [fst snd] in To, Ed. subst d0.
    destruct (new h1 (Some a) (pick (s_pmod s)) None []) as [h2 [n|e]] eqn:En; [|discriminate]. injection E as <- <-.
    destruct (new_adds _ _ _ _ _ En) as [t [q [cx [Eh [Ei _]]]]].
    replace (s_pmod s0) with (@None lpmod) by (symmetry; apply K). cbn [pick]. cbn [new_step]. unfold fresh_step, alloc_step.
    assert (L : length (h_steps h1) = length (h_steps h01)) by (eapply Forall2_length; apply To).
    rewrite <- L, <- Ei. eexists. split; [reflexivity|]. apply twin_linked. rewrite Eh. split; [apply To|]. cbn.
    apply Forall2_app; [apply To|]. constructor; [|constructor]. split; [reflexivity|]. split; [reflexivity|].
    split; [exact Pa|]. split; [reflexivity|]. split; [reflexivity|]. cbn.
    apply (Hv n eq_refl (mkStep t a q None CAN_RELOCATE [])). rewrite Eh, Ei. unfold step_at. cbn. apply nth_error_snoc_new.
  Qed.

  Lemma twin_new : forall h h0 n m h' i, twin h h0 -> plain_name n -> new h (Some n) (pick m) None [] = (h', Ok i) ->
    (forall s, step_at h' i s -> s_text s <> []) ->
    exists h0', new h0 (Some n) NoMaps None [] = (h0', Ok i) /\ twin h' h0'.
  Proof.
    intros h h0 n m h' i T Pn E Hi. destruct (new_adds _ _ _ _ _ E) as [t [q [cx [Eh [Ei _]]]]].
    cbn [new_step]. unfold fresh_step, alloc_step.
    assert (L : length (h_steps h) = length (h_steps h0)) by (eapply Forall2_length; apply T).
    rewrite <- L, <- Ei. eexists. split; [reflexivity|]. rewrite Eh. split; [apply T|]. cbn.
    apply Forall2_app; [apply T|]. constructor; [|constructor]. split; [reflexivity|]. split; [reflexivity|].
    split; [exact Pn|]. split; [reflexivity|]. split; [reflexivity|]. cbn.
    apply (Hi (mkStep t n q None CAN_RELOCATE [])). rewrite Eh, Ei. unfold step_at. cbn. apply nth_error_snoc_new.
  Qed.

  (** A text that follows the mappings of a plain name is not blank. *)
  Lemma follows_text : forall h pm a s, follows h pm a s -> a <> [] -> s_text s <> [].
  Proof.
    intros h pm a s [_ [al [_ [T _]]]] Ha. destruct T as [| |x t Hx Hu]; auto.
    intros ->. inversion Hu; subst; congruence.
  Qed.

  Section Programs.
    Variable name : pystr.
    Variable p : lpmod.
    Variable pm : pmod.
    Variable Hpm : plain_mappings M fullmatch expand pm.
    Notation rcmd := (run_cmd M fullmatch expand compiles class_attr depth name).
    Notation rprog := (run_prog M fullmatch expand compiles class_attr depth name).

    Definition rooted (h : heap) (i : nat) : Prop :=
      exists s, step_at h i s /\ plain_name (s_orig s) /\ follows h (Some pm) (s_orig s) s.

    Record tw (st st0 : cstate) : Prop := mkTw {
      tw_heap : twin (c_heap st) (c_heap st0);
      tw_tidy : tidy (c_heap st);
      tw_pm : allocated (h_cells (c_heap st)) p /\ erase (h_cells (c_heap st)) p = pm;
      tw_pinp : c_pinp st = c_pinp st0;
      tw_pout : c_pout st = c_pout st0;
      tw_vars : c_vars st = c_vars st0;
      tw_lists : c_inp st = [] /\ c_out st = [] /\ c_inp st0 = [] /\ c_out st0 = [];
      tw_roots : forall i, c_pinp st = Some i \/ c_pout st = Some i -> rooted (c_heap st) i }.

    Lemma grown_rooted : forall h h' i, tidy h -> grown h h' -> rooted h i -> rooted h' i.
    Proof.
      intros h h' i [_ [K _]] G [s [H1 [H2 H3]]]. destruct (proj2 G _ _ H1) as [s' [E1 [E2 [E3 E4]]]].
      exists s'. split; auto. rewrite E3. split; auto. eapply grown_follows; eauto.
    Qed.

    Lemma twin_nonblank : forall h h0 j s, twin h h0 -> step_at h j s -> s_text s <> [].
    Proof. intros h h0 j s T Hs. destruct (twin_step _ _ _ _ T Hs) as [s0 [_ K]]. apply K. Qed.

    (** A new root for one of the two *)
    Lemma root_twin : forall st st0 n h' r, tw st st0 -> plain_name n ->
      new (c_heap st) (Some n) (MPmod p) None [] = (h', Ok r) ->
      exists h0', new (c_heap st0) (Some n) NoMaps None [] = (h0', Ok r) /\ twin h' h0' /\ tidy h' /\ grown (c_heap st) h'
        /\ rooted h' r /\ text_of h' r <> [] /\ text_of h0' r <> [].
    Proof.
      intros st st0 n h' r [T Ti [Pa Pe] _ _ _ _ _] Pn E.
      assert (Om : okm (c_heap st) (Some p)).
      { split; [intros x [= <-]; exact Pa|]. cbn. rewrite Pe. intros x [= <-]. apply Hpm. }
      destruct (new_tidy _ _ (Some p) _ _ E Ti Om) as [Ti' [G [Er [s [Hs F]]]]]. cbn [option_map] in F. rewrite Pe in F.
      assert (Nb : s_text s <> []) by (eapply follows_text; eauto; apply Pn).
      destruct (twin_new _ _ n (Some p) _ _ T Pn E) as [h0' [E0 T']].
      { intros s1 H1. unfold step_at in *. congruence. }
      exists h0'. split; auto. split; auto. split; auto. split; auto.
      assert (R : s_orig s = n) by apply F.
      destruct (twin_text _ _ _ _ T' Hs) as [A B]. apply texted_iff in A. apply texted_iff in B.
      split; [exists s; rewrite R; auto|]. auto.
    Qed.

    Lemma cmd_twin : forall st st0 c st' o, tw st st0 -> plain_ref name c -> rcmd (MPmod p) st c = (st', o) ->
      (forall e, o <> Failed e) ->
      exists st0' o0, rcmd NoMaps st0 c = (st0', o0) /\ (forall e, o0 <> Failed e) /\ tw st' st0'.
    Proof.
      intros st st0 c st' o W P E No. assert (W0 := W). destruct W as [T Ti [Pa Pe] E1 E2 E3 E4 Rt].
      assert (Same : forall i, got (c_heap st) (Ok i) st = (st', o) ->
        exists st0' o0, got (c_heap st0) (Ok i) st0 = (st0', o0) /\ (forall e, o0 <> Failed e) /\ tw st' st0').
      { intros i Eg. cbn in Eg. injection Eg as <- <-. eexists _, _. split; [reflexivity|]. split; [discriminate|].
        split; cbn; auto. congruence. }
      assert (Pinp : forall path n, root_path name path = n -> plain_name n -> run_pinp M fullmatch expand compiles name (MPmod p) st path = (st', o) ->
        exists st0' o0, run_pinp M fullmatch expand compiles name NoMaps st0 path = (st0', o0) /\ (forall e, o0 <> Failed e) /\ tw st' st0').
      { intros path n Ep Pn Er. unfold run_pinp in *. rewrite <- E1. destruct (c_pinp st) as [i|] eqn:Ei; [auto|].
        rewrite Ep in *. destruct (new (c_heap st) (Some n) (MPmod p) None []) as [h' [r|e]] eqn:En; cbn in Er; injection Er as <- <-.
        2:{ destruct (No e eq_refl). }
        destruct (root_twin _ _ _ _ _ W0 Pn En) as [h0' [N0 [T' [Ti' [G [R [B1 B2]]]]]]]. rewrite N0. eexists _, _.
        split; [reflexivity|]. split; [discriminate|]. split; cbn; auto.
        - destruct (grown_erase _ _ p G Pa) as [A B]. split; auto. congruence.
        - congruence.
        - intros j [Hj|Hj]; [injection Hj as <-; exact R|]. exact (grown_rooted _ _ _ Ti G (Rt _ (or_intror Hj))). }
      assert (Pout : forall path n, root_path name path = n -> plain_name n -> run_pout M fullmatch expand compiles name (MPmod p) st path = (st', o) ->
        exists st0' o0, run_pout M fullmatch expand compiles name NoMaps st0 path = (st0', o0) /\ (forall e, o0 <> Failed e) /\ tw st' st0').
      { intros path n Ep Pn Er. unfold run_pout in *. rewrite <- E2. destruct (c_pout st) as [i|] eqn:Ei; [auto|].
        rewrite Ep in *. destruct (new (c_heap st) (Some n) (MPmod p) None []) as [h' [r|e]] eqn:En; cbn in Er; injection Er as <- <-.
        2:{ destruct (No e eq_refl). }
        destruct (root_twin _ _ _ _ _ W0 Pn En) as [h0' [N0 [T' [Ti' [G [R [B1 B2]]]]]]]. rewrite N0. eexists _, _.
        split; [reflexivity|]. split; [discriminate|]. split; cbn; auto.
        - destruct (grown_erase _ _ p G Pa) as [A B]. split; auto. congruence.
        - congruence.
        - intros j [Hj|Hj]; [exact (grown_rooted _ _ _ Ti G (Rt _ (or_introl Hj)))|]. injection Hj as <-; exact R. }
      destruct P as [Pn|q Pn|Pn|q Pn|v a Pn]; cbn [run_cmd] in E |- *; cbn zeta in E |- *.
      - exact (Pinp None name eq_refl Pn E).
      - apply (Pinp (Some q) q); auto. destruct q; [destruct Pn as [[Pn _] _]; destruct Pn; reflexivity|reflexivity].
      - exact (Pout None name eq_refl Pn E).
      - apply (Pout (Some q) q); auto. destruct q; [destruct Pn as [[Pn _] _]; destruct Pn; reflexivity|reflexivity].
      - unfold on in *. rewrite <- E3. destruct (nth_error (c_vars st) v) as [i|]; [|injection E as <- <-; destruct (No NameError eq_refl)].
        destruct (get (c_heap st) i a) as [h' [[c|]|e]] eqn:Eg.
        + assert (Nb : forall j s, step_at (c_heap st) j s -> s_text s <> []) by (intros j s; eapply twin_nonblank; eauto).
          destruct (get_tidy _ _ _ _ _ Eg Ti Nb) as [Ti' [G Hc]].
          destruct (twin_get _ _ _ _ _ _ T (proj1 (proj1 Ti)) Pn Eg) as [h0' [Eg0 T']].
          { intros c' [= <-] s Hs. destruct (child_lt h' i a c (proj1 (proj1 Ti')) Hc) as [L _].
            destruct (nth_error (h_steps h') i) as [si|] eqn:Esi; [|apply nth_error_None in Esi; lia].
            eapply follows_text; [eapply (proj2 (proj2 Ti')); eauto|apply Pn]. }
          rewrite Eg0. cbn in E |- *. injection E as <- <-. eexists _, _. split; [reflexivity|]. split; [discriminate|].
          split; cbn; auto.
          * destruct (grown_erase _ _ p G Pa) as [A B]. split; auto. congruence.
          * congruence.
          * intros j Hj. exact (grown_rooted _ _ _ Ti G (Rt _ Hj)).
        + destruct (twin_get _ _ _ _ _ _ T (proj1 (proj1 Ti)) Pn Eg) as [h0' [Eg0 T']]; [discriminate|].
          assert (Eh : h' = c_heap st).
          { destruct (get_inv _ _ _ _ _ _ _ _ _ _ Eg) as [[-> _]|[_ [_ [_ [r' [_ Er]]]]]]; auto. destruct r'; discriminate. }
          subst h'. rewrite Eg0. injection E as <- <-. eexists _, _. split; [reflexivity|]. split; [discriminate|].
          split; cbn; auto.
        + injection E as <- <-. destruct (No e eq_refl).
    Qed.

    Lemma prog_twin : forall cs st st0 st', tw st st0 -> Forall (plain_ref name) cs ->
      rprog (MPmod p) st (straight cs) = (st', Ok tt) ->
      exists st0', rprog NoMaps st0 (straight cs) = (st0', Ok tt) /\ tw st' st0'.
    Proof.
      induction cs as [|c cs IH]; intros st st0 st' W P E; cbn [straight run_prog] in *.
      - injection E as <-. eauto.
      - inversion P; subst. destruct (rcmd (MPmod p) st c) as [st1 o] eqn:Ec.
        assert (No : forall e, o <> Failed e) by (intros e ->; discriminate).
        destruct (cmd_twin st st0 c st1 o W) as [st01 [o0 [Ec0 [No0 W1]]]]; auto. rewrite Ec0.
        assert (Ex : forall o x, (forall e, o <> Failed e) -> match o with Failed e => CEnd (Raise e) | _ => x end = x).
        { intros [| | | |e] x Hx; auto. destruct (Hx e eq_refl). }
        rewrite Ex in E |- * by auto. eapply IH; eauto.
    Qed.
  End Programs.

  (** ** The ways of tidy heaps spell mapped paths *)
  Lemma walk_map : forall w h i s, tidy h -> walk h i (i :: w) -> step_at h i s ->
    plainly (mapping h s) (map (orig_of h) w) -> Forall plain_name (map (orig_of h) w) ->
    exists segs, Forall2 seg (map (text_of h) w) segs
      /\ map_steps (mapping h s) (map (orig_of h) w) = Ok (concat segs).
  Proof.
    induction w as [|c w IH]; intros h i s Ti W Hs P Hn; [exists []; split; [constructor|reflexivity]|].
    assert (W' : exists a, child_at h i a c /\ walk h c (c :: w)).
    { inversion W as [|? a c0 q Hc Wc]; subst. destruct (walk_head _ _ _ Wc) as [q' Eq]. injection Eq as -> ->. eauto. }
    destruct W' as [a [Hc Wc]]. destruct (child_lt h i a c (proj1 (proj1 Ti)) Hc) as [_ L].
    destruct (nth_error (h_steps h) c) as [sc|] eqn:Esc; [|apply nth_error_None in Esc; lia].
    assert (F := proj2 (proj2 Ti) _ _ _ _ _ Hc Hs Esc). destruct F as [Fo [al [Fa [Ft Fm]]]].
    assert (Oc : orig_of h c = a) by (unfold orig_of; rewrite Esc; exact Fo).
    cbn [map] in *. rewrite Oc in *. inversion Hn as [|? ? Ha Hn']; subst x l.
    assert (Wf : owf (mapping h s)) by apply (proj1 (proj2 Ti) _ _ Hs).
    destruct (step_alias M fullmatch expand (mapping h s) a al Wf (plainly_head M fullmatch expand _ _ _ P) Ha Fa) as [t [parts [T1 [T2 T3]]]].
    assert (t = s_text sc) by (eapply text_for_fun; eauto). subst t.
    assert (Pl : plainly (mapping h sc) (map (orig_of h) w)).
    { rewrite Fm. unfold below_at. destruct (mapping h s) as [q|] eqn:Em; [|constructor].
      inversion P as [| |? ? ? P1 P2]; subst. apply P2. apply below_of_below. now apply Wf. }
    destruct (IH h c sc Ti Wc Esc Pl Hn') as [segs [F1 F2]]. exists (parts :: segs).
    split; [constructor; auto; now rewrite (text_at _ _ _ Esc)|]. cbn [concat].
    destruct (map (orig_of h) w) as [|b names] eqn:Ew.
    - destruct w; [|discriminate]. inversion F1; subst. cbn [concat]. rewrite app_nil_r. cbn [Pmod_Model.map_steps].
      unfold alias_at in Fa. rewrite Fa. reflexivity.
    - rewrite map_steps_cons.
      assert (Ed : match mapping h s with Some q => desc q a | None => Ok (None, None) end = Ok (mapping h sc, al)).
      { rewrite Fm. unfold below_at, alias_at in *. destruct (mapping h s) as [q|] eqn:Em; [|congruence].
        rewrite (descend_alias M fullmatch expand q a (Wf _ eq_refl)), Fa. reflexivity. }
      rewrite Ed. cbn [rbind]. rewrite F2. cbn [rbind]. now rewrite T3.
  Qed.

  (** Absolute aliases of roots *)
  Lemma rooted_alias_steps : forall parts n, parts <> [] -> Forall plain_name parts ->
    new_steps (Some (47%N :: join [47%N] parts)) n = [] :: parts
    /\ unescapes (47%N :: join [47%N] parts) (47%N :: join [47%N] parts) /\ plain (47%N :: join [47%N] parts).
  Proof.
    intros parts n H1 H2. split; [|split].
    - apply replaced_new_steps. apply Rp_alias; [discriminate|]. apply Ws_other.
      + intros y Hy E. destruct (exists_last H1) as [init [z Ez]]. subst parts.
        apply Forall_app in H2. destruct H2 as [_ H2]. inversion H2 as [|? ? [[Hz _] [Hsl _]] _]; subst.
        destruct (join_last init z) as [w Ew]. rewrite Ew in E. destruct (exists_last Hz) as [z0 [c ->]].
        change (47%N :: w ++ z0 ++ [c]) with ((47%N :: w) ++ z0 ++ [c]) in E.
        rewrite app_assoc in E. apply app_inj_tail in E. destruct E as [_ ->]. apply Hsl. apply in_or_app. right. now left.
      + exists ([] :: parts). split; [discriminate|]. split; [|split].
        * intros r [<-|Hr]; [intros []|]. rewrite Forall_forall in H2. apply H2 in Hr. now destruct Hr as [_ [Hr _]].
        * destruct parts; [congruence|]. reflexivity.
        * constructor; [constructor|]. clear -H2. induction H2 as [|a l [_ [_ Ha]]]; constructor; auto.
    - apply U_char; [now apply unescapes_plain_join|discriminate].
    - split; [discriminate|]. split; discriminate.
  Qed.

  Lemma join_paths_rooted : forall parts ts segs, parts <> [] -> Forall plain parts -> Forall2 seg ts segs ->
    join_paths ((47%N :: join [47%N] parts) :: ts) = join_paths (([] :: parts) ++ concat segs).
  Proof.
    intros parts ts segs H1 H2 H.
    assert (Hts : Forall plain ts) by (clear -H; induction H; constructor; auto; eapply seg_plain; eauto).
    assert (Hc : Forall plain (concat segs)).
    { clear -H. induction H as [|? ? ? ? [_ [H1 _]]]; cbn; [constructor|]. apply Forall_app. auto. }
    unfold join_paths. rewrite fold_append_plain.
    2:{ constructor; auto. split; [discriminate|split; discriminate]. }
    cbn [app fold_left]. change (append_step [] []) with [@nil N]. rewrite fold_append_plain by (apply Forall_app; auto).
    cbn [app]. change (lit "/") with [47%N].
    destruct (segs_join (join [47%N] parts :: ts) (parts :: segs)) as [E [N _]]; [constructor; auto; split; auto|discriminate|].
    cbn [concat] in *. destruct (parts ++ concat segs) as [|y l]; [congruence|]. rewrite (join_cons [47%N] []), <- E.
    destruct ts; reflexivity.
  Qed.

  Lemma plain_path : forall names, names <> [] -> Forall plain_name names -> join_paths names = join [47%N] names.
  Proof.
    intros names H1 H2. unfold join_paths.
    rewrite fold_append_plain by (eapply Forall_impl; [|exact H2]; intros a [Ha _]; exact Ha). cbn [app].
    destruct names; [congruence|reflexivity].
  Qed.

  Lemma root_path_map : forall pm h i w, plain_mappings M fullmatch expand pm -> tidy h -> rooted pm h i ->
    walk h i (i :: w) -> Forall plain_name (map (orig_of h) w) ->
    map_path pm (join_paths (map (orig_of h) (i :: w))) = Ok (join_paths (map (text_of h) (i :: w))).
  Proof.
    intros pm h i w [Wf [Pa [Pr Pb]]] Ti [s [Hs [Pn F]]] W Hn.
    destruct F as [_ [al [Fa [Ft Fm]]]]. cbn [alias_at below_at] in Fa, Fm.
    assert (Oi : orig_of h i = s_orig s) by (unfold orig_of; now rewrite Hs).
    assert (Tx : text_of h i = s_text s) by (now rewrite (text_at _ _ _ Hs)).
    cbn [map]. rewrite Oi, Tx. set (n := s_orig s) in *.
    rewrite plain_path by (try discriminate; now constructor).
    destruct (below_of_below M fullmatch pm n Wf) as [B1 B2].
    destruct (walk_map w h i s Ti W Hs) as [segs [F1 F2]]; auto.
    { rewrite Fm. now apply (Pb n). }
    rewrite Fm in F2.
    assert (Y : join_paths (s_text s :: map (text_of h) w) = join_paths (new_steps al n ++ concat segs)).
    { destruct al as [x|].
      - apply aliased_iff in Fa; auto. destruct (Pr n x Pn Fa) as [Px|[parts [Q1 [Q2 ->]]]].
        + destruct (plain_alias_seg x n Px) as [parts [H1 [H2 [H3 H4]]]].
          assert (E : s_text s = x) by (eapply text_for_fun; [exact Ft|apply Tf_alias; [exact H4|exact H3]]).
          rewrite E, H2. apply join_paths_segs; auto.
        + destruct (rooted_alias_steps parts n Q1 Q2) as [R1 [R2 R3]].
          assert (E : s_text s = 47%N :: join [47%N] parts) by (eapply text_for_fun; [exact Ft|apply Tf_alias; [discriminate|exact R2]]).
          rewrite E, R1. apply join_paths_rooted; auto. eapply Forall_impl; [|exact Q2]. intros a [Ha _]. exact Ha.
      - assert (E : s_text s = n) by (now inversion Ft). destruct (plain_name_seg n Pn) as [S1 S2]. rewrite E, S2.
        apply join_paths_segs; auto. }
    unfold Pmod_Model.map_path. rewrite chop_names by auto. rewrite Pa.
    assert (E : map_steps (Some pm) (n :: map (orig_of h) w) = Ok (new_steps al n ++ concat segs)).
    { destruct (map (orig_of h) w) as [|b names] eqn:Ew.
      - cbn. rewrite Fa. cbn. cbn in F2. injection F2 as <-. now rewrite app_nil_r.
      - rewrite map_steps_cons. rewrite (descend_alias M fullmatch expand pm n Wf), Fa. cbn [rbind].
        rewrite F2. reflexivity. }
    rewrite E. cbn [rbind app]. now rewrite Y.
  Qed.

  (** ** Listings *)
  Lemma twin_iter : forall n h h0 pre i, twin h h0 -> iter_hierarchy n h pre i = iter_hierarchy n h0 pre i.
  Proof.
    induction n as [|n IH]; intros h h0 pre i T; [reflexivity|]. cbn [iter_hierarchy]. rewrite (twin_children h h0 i T).
    assert (E : forall l, rmap (iter_hierarchy n h (pre ++ [i])) l = rmap (iter_hierarchy n h0 (pre ++ [i])) l).
    { induction l as [|x l IHl]; [reflexivity|]. cbn [rmap]. rewrite (IH h h0) by exact T. now rewrite IHl. }
    now rewrite E.
  Qed.

  Lemma walk_plain : forall w h h0 i, twin h h0 -> sound h -> walk h i (i :: w) -> (exists s, step_at h i s) ->
    Forall plain_name (map (orig_of h) (i :: w)) /\ map (text_of h0) (i :: w) = map (orig_of h) (i :: w).
  Proof.
    induction w as [|c w IH]; intros h h0 i T S W [s Hs];
      (destruct (twin_step _ _ _ _ T Hs) as [s0 [H0 [K1 [K2 [K3 _]]]]];
       assert (Oi : orig_of h i = s_orig s) by (unfold orig_of; now rewrite Hs);
       assert (Ti : text_of h0 i = s_orig s) by (rewrite (text_at _ _ _ H0); congruence);
       cbn [map]; rewrite Oi, Ti).
    - split; [constructor; [now rewrite K1|constructor]|reflexivity].
    - assert (W' : exists a, child_at h i a c /\ walk h c (c :: w)).
      { inversion W as [|? a c0 q Hc Wc]; subst. destruct (walk_head _ _ _ Wc) as [q' Eq]. injection Eq as -> ->. eauto. }
      destruct W' as [a [Hc Wc]]. destruct (child_lt h i a c S Hc) as [_ L].
      destruct (IH h h0 c T S Wc) as [A B].
      { destruct (nth_error (h_steps h) c) as [sc|] eqn:Esc; [eauto|apply nth_error_None in Esc; lia]. }
      cbn [map] in A, B. split; [constructor; [now rewrite K1|exact A]|]. f_equal. exact B.
  Qed.

  Lemma twin_paths : forall pm h h0 i l, plain_mappings M fullmatch expand pm -> twin h h0 -> tidy h -> rooted pm h i ->
    paths depth h i false [] = Ok l ->
    exists l0, paths depth h0 i false [] = Ok l0 /\ forall x, In x l <-> exists y, In y l0 /\ map_path pm y = Ok x.
  Proof.
    intros pm h h0 i l Hpm T Ti R E.
    assert (E0 : exists l0, paths depth h0 i false [] = Ok l0).
    { unfold paths in *. rewrite <- (twin_iter depth h h0 [] i T). destruct (iter_hierarchy depth h [] i); [|discriminate].
      cbn [rbind]. eauto. }
    destruct E0 as [l0 E0]. exists l0. split; auto. intro x.
    destruct (paths_spec _ _ _ _ _ _ E) as [_ I]. destruct (paths_spec _ _ _ _ _ _ E0) as [_ I0]. rewrite I.
    assert (Key : forall q j, walk h i (q ++ [j]) ->
      map_path pm (join_paths (map (text_of h0) (q ++ [j]))) = Ok (join_paths (map (text_of h) (q ++ [j])))).
    { intros q j W. destruct (walk_head _ _ _ W) as [w Ew]. rewrite Ew in *.
      assert (Hs : exists s, step_at h i s) by (destruct R as [s [Hs _]]; eauto).
      destruct (walk_plain w h h0 i T (proj1 (proj1 Ti)) W Hs) as [A B]. rewrite B.
      apply root_path_map; auto. now inversion A. }
    split.
    - intros [q [j [xs [W [L [Sh ->]]]]]]. apply Forall2_shown in Sh. subst xs.
      destruct L as [[_ L]|[L _]]; [|congruence]. exists (join_paths (map (text_of h0) (q ++ [j]))). split; [|now apply Key].
      apply I0. exists q, j. eexists. split; [eapply twin_walk; eauto|]. split; [left; split; [reflexivity|exact (proj1 (twin_leaf h h0 j T) L)]|].
      split; [|reflexivity]. now apply Forall2_shown.
    - intros [y [Hy Em]]. apply I0 in Hy. destruct Hy as [q [j [xs [W [L [Sh ->]]]]]]. apply Forall2_shown in Sh. subst xs.
      apply (twin_walk_back h h0) in W; auto. cbn in Em. rewrite (Key q j W) in Em. injection Em as <-.
      exists q, j. eexists. split; [exact W|]. split; [|split; [now apply Forall2_shown|reflexivity]].
      destruct L as [[_ L]|[L _]]; [|congruence]. left. split; [reflexivity|exact (proj2 (twin_leaf h h0 j T) L)].
  Qed.

  Lemma twin_fetch : forall pm h h0 s l, plain_mappings M fullmatch expand pm -> twin h h0 -> tidy h ->
    (forall i, s = Some i -> rooted pm h i) -> fetch_all_paths depth h s = Ok l ->
    exists l0, fetch_all_paths depth h0 s = Ok l0 /\ forall x, In x l <-> exists y, In y l0 /\ map_path pm y = Ok x.
  Proof.
    intros pm h h0 [i|] l Hpm T Ti R E; cbn [fetch_all_paths] in *.
    - assert (Ri := R i eq_refl). destruct Ri as [s [Hs _]]. destruct (twin_text _ _ _ _ T Hs) as [A B]. rewrite A in E. rewrite B.
      eapply twin_paths; eauto.
    - injection E as <-. exists []. split; auto. intro x. split; [intros []|intros [y [[] _]]].
  Qed.

  Lemma no_steps_good : forall c, good (mkHeap [] [] c).
  Proof.
    intro c. split; [|split].
    - split; [|split]; [intros i s d Hi; destruct i; discriminate|intros d ds a e Hd; destruct d; discriminate|
        intros d ds Hd; destruct d; discriminate].
    - intros i j si sj d ds e Hi. destruct i; discriminate.
    - intros i. constructor. intros a e [s [d [ds [Hi _]]]]. destruct i; discriminate.
  Qed.

  Notation bld := (build M fullmatch expand compiles class_attr depth).
  Lemma build_twin : forall name p h cs i o, plain_mappings M fullmatch expand (erase (h_cells h) p) ->
    allocated (h_cells h) p -> Forall (plain_ref name) cs ->
    snd (bld name (MPmod p) h (straight cs)) = Ok (i, o) ->
    exists i0 o0, snd (bld name NoMaps h (straight cs)) = Ok (i0, o0)
      /\ (forall x, In x i <-> exists y, In y i0 /\ map_path (erase (h_cells h) p) y = Ok x)
      /\ (forall x, In x o <-> exists y, In y o0 /\ map_path (erase (h_cells h) p) y = Ok x).
  Proof.
    intros name p h cs i o Hpm A P E. set (pm := erase (h_cells h) p) in *. set (h1 := mkHeap [] [] (h_cells h)).
    assert (S1 : same_mappings (MPmod p) h h1).
    { split; [discriminate|]. intros p' [= <-]. auto. }
    assert (S2 : same_mappings NoMaps h h1) by (split; discriminate).
    rewrite (proj1 (build_same M fullmatch expand compiles class_attr depth name _ _ _ (straight cs) S1)) in E.
    rewrite (proj1 (build_same M fullmatch expand compiles class_attr depth name _ _ _ (straight cs) S2)).
    unfold build in *. set (st := mkC h1 None None [] [] []) in *.
    destruct (run_prog M fullmatch expand compiles class_attr depth name (MPmod p) st (straight cs)) as [st1 r] eqn:Er.
    cbn [snd] in E. destruct r as [[]|]; [|discriminate]. cbn [rbind] in E.
    assert (W : tw p pm st st).
    { split; cbn; auto.
      - split; [reflexivity|constructor].
      - split; [apply no_steps_good|]. split.
        + intros j s Hj. destruct j; discriminate.
        + intros j a c s sc _ Hj. destruct j; discriminate.
      - intros j [Hj|Hj]; discriminate. }
    destruct (prog_twin name p pm Hpm cs st st st1 W P Er) as [st0 [Er0 W1]]. rewrite Er0. cbn [snd rbind].
    destruct W1 as [T Ti Pp E1 E2 E3 [L1 [L2 [L3 L4]]] Rt].
    destruct (fetch_all_paths depth (c_heap st1) (c_pinp st1)) as [mi|] eqn:Ei; [|discriminate]. cbn [rbind] in E.
    destruct (fetch_all_paths depth (c_heap st1) (c_pout st1)) as [mo|] eqn:Eo; [|discriminate]. cbn [rbind] in E.
    destruct (twin_fetch pm _ _ _ _ Hpm T Ti (fun j Hj => Rt j (or_introl Hj)) Ei) as [i0 [Ei0 Hi]].
    destruct (twin_fetch pm _ _ _ _ Hpm T Ti (fun j Hj => Rt j (or_intror Hj)) Eo) as [o0 [Eo0 Ho]].
    rewrite <- E1, <- E2, Ei0. cbn [rbind]. rewrite Eo0. cbn [rbind]. rewrite L1, L2, L3, L4 in *. cbn [app] in *.
    injection E as <- <-. exists i0, o0. auto.
  Qed.
End Map.
