(** * Proofs about histories of steps *)
From Coq Require Import String Lia Permutation.
From Verif Require Import PyBase PyBase_Proofs Json JsonPointer_Model JsonPointer_Spec JsonPointer_Proofs
  Paths_Model Paths_Spec Paths_Proofs Pmod_Model Pmod_Spec Pmod_Proofs PmodMap_Proofs Pstep_Model Pstep_Spec PstepPmod_Proofs
  Pstep_Proofs PstepTree_Proofs.

Section Regex.
  Variable M : Type.
  Variable fullmatch : pystr -> pystr -> option M.
  Variable expand : M -> pystr -> res pystr.
  Variable compiles : pystr -> bool.
  Variable class_attr : pystr -> bool.
  Notation new := (new_step M fullmatch expand compiles).
  Notation make := (make_cstep M fullmatch expand compiles).
  Notation get := (getattr M fullmatch expand compiles class_attr).
  Notation set := (setattr M fullmatch expand compiles).
  Notation ex := (exec M fullmatch expand compiles class_attr).
  Notation go := (run M fullmatch expand compiles class_attr).
  Notation ldesc := (ldescend M fullmatch expand).
  Notation effect := (effect M fullmatch expand compiles).

  (** ** Children are kept *)
  Lemma make_child_kept : forall h self k al e h' r s, step_at h self s -> make h self k al e = (h', r) ->
    sound h -> unshared h -> forall i a c, child_at h i a c -> (i = self -> a <> k) -> child_at h' i a c.
  Proof.
    intros h self k al e h' r s Hs E S U i a c Hc Hne.
    destruct (make_inv _ _ _ _ _ _ _ _ _ _ _ _ Hs E) as [h1 [d [e1 [h2 [P [N F]]]]]].
    assert (C1 := proj2 (prepared_child M fullmatch compiles class_attr _ _ _ _ _ _ _ _ _ Hs P _ _ _) Hc).
    assert (C2 := new_child_old _ _ _ _ _ _ _ _ _ _ _ N _ _ _ C1).
    destruct r as [n|err]; [|now subst h']. subst h'.
    destruct C2 as [si [di [ds [H1 [H2 [H3 H4]]]]]].
    destruct (Nat.eq_dec d di) as [<-|Nd].
    - assert (Hi : i = self).
      { destruct C1 as [si1 [di1 [ds1 [G1 [G2 [G3 G4]]]]]].
        apply new_inv in N. destruct N as [dx [cx [A [_ [-> [s0 [Es B]]]]]]].
        eapply (make_dict_owner h self s); eauto.
        unfold step_at in H1, G1. rewrite Es in H1. rewrite (nth_error_app_l _ _ _ _ _ G1) in H1. congruence. }
      exists si, d, (dset str_eqb k n ds). unfold step_at. cbn. repeat split; auto.
      + rewrite nth_error_update_eq by (apply nth_error_Some; congruence). f_equal. f_equal.
        now apply nth_error_nth.
      + apply In_dset_old; auto.
    - exists si, di, ds. unfold step_at. cbn. repeat split; auto. rewrite nth_error_update_neq; auto.
  Qed.

  Lemma same_but_child_back : forall h i s s', step_at h i s -> s_csteps s' = s_csteps s ->
    forall j a c, child_at h j a c -> child_at (set_steps h (list_update (h_steps h) i s')) j a c.
  Proof.
    intros h i s s' Hs Ec j a c [sj [d [ds [H1 [H2 [H3 H4]]]]]]. unfold child_at, step_at in *. cbn.
    destruct (Nat.eq_dec i j) as [<-|N].
    - exists s', d, ds. rewrite nth_error_update_eq by (apply nth_error_Some; congruence).
      assert (sj = s) by congruence. subst sj. repeat split; auto; congruence.
    - exists sj, d, ds. rewrite nth_error_update_neq by auto. auto.
  Qed.

  Lemma effect_child_kept : forall h o h', effect h o h' -> sound h -> unshared h ->
    forall i a c, child_at h i a c -> text_of h c <> [] -> unassigned i a h o -> child_at h' i a c.
  Proof.
    intros h o h' E S U i a c Hc Ht Hu. destruct E; auto.
    - eapply new_child_old; eauto.
    - eapply make_child_kept; eauto. intros -> ->. apply Ht.
      destruct Hc as [s0 [d [ds [H1' [H2 [H3 H4]]]]]]. unfold step_at in *.
      assert (s0 = s) by congruence. subst s0. eapply H1; eauto. apply In_dget; auto. destruct S as [_ [_ S3]]. eauto.
    - eapply make_child_kept; eauto. intros -> ->. apply (Hu (AStr x)). reflexivity.
    - eapply make_child_kept; eauto. intros -> ->. apply (Hu (AStep j)). reflexivity.
    - eapply same_but_child_back; eauto.
    - eapply same_but_child_back; eauto.
  Qed.

  Lemma names_text : forall h h' c, keeps_names h h' -> text_of h c <> [] -> text_of h' c = text_of h c.
  Proof.
    intros h h' c [_ K] H. unfold text_of in H at 1. destruct (nth_error (h_steps h) c) as [s|] eqn:E; [|congruence].
    destruct (K _ _ E) as [s' [H1 [H2 _]]]. rewrite (text_at _ _ _ E), (text_at _ _ _ H1). exact H2.
  Qed.

  Lemma get_existing : forall h i a c, sound h -> child_at h i a c -> text_of h c <> [] ->
    class_attr a = false -> starts_with (lit "_") a || forbidden a = false -> get h i a = (h, Ok (VStep c)).
  Proof.
    intros h i a c [_ [_ S3]] [s [d [ds [H1 [H2 [H3 H4]]]]]] Ht Hc Hf. unfold getattr. rewrite Hc, Hf, H1, H2.
    cbn. rewrite (nth_error_nth _ _ _ H3). rewrite (In_dget _ _ _ _ (S3 _ _ H3) H4).
    apply texted_iff in Ht. now rewrite Ht.
  Qed.

  (** What a successful reference leaves. *)
  Lemma make_new_child : forall h self k al e h' n s, step_at h self s -> make h self k al e = (h', Ok n) ->
    child_at h' self k n /\ n = length (h_steps h).
  Proof.
    intros h self k al e h' n s Hs E.
    destruct (make_inv _ _ _ _ _ _ _ _ _ _ _ _ Hs E) as [h1 [d [e1 [h2 [P [N F]]]]]]. subst h'.
    destruct (prepared_steps _ _ _ _ _ _ _ _ _ Hs P) as [s' [A [Id [C [D _]]]]].
    apply new_inv in N. destruct N as [dx [cx [B [_ [-> [s0 [Es Bt]]]]]]].
    split; [|now rewrite A, list_update_length].
    assert (Hd : exists ds, nth_error (h_dicts h2) d = Some ds).
    { destruct (nth_error (h_dicts h2) d) eqn:En; eauto. exfalso. apply nth_error_None in En.
      rewrite B, app_length in En.
      destruct P as [d x xs e0 -> Ed' Ex|d x xs -> Ed' Ex|Ed].
      - assert (d < length (h_dicts h))%nat by (apply nth_error_Some; congruence). lia.
      - rewrite update_pmod_dicts in En.
        assert (d < length (h_dicts h))%nat by (apply nth_error_Some; congruence). lia.
      - cbn in En. rewrite app_length in En. cbn in En. lia. }
    destruct Hd as [ds Hd]. exists s', d, (dset str_eqb k (length (h_steps h1)) ds). unfold step_at. cbn.
    rewrite Es, A. repeat split; auto.
    - apply nth_error_app_l. apply nth_error_update_eq. eapply step_lt; eauto.
    - rewrite nth_error_update_eq by (apply nth_error_Some; congruence).
      rewrite list_update_length. f_equal. f_equal. now apply nth_error_nth.
    - rewrite list_update_length. apply In_dset_new.
  Qed.

  Lemma get_child : forall h i a h' c, get h i a = (h', Ok (VStep c)) ->
    child_at h' i a c /\ class_attr a = false /\ starts_with (lit "_") a || forbidden a = false.
  Proof.
    intros h i a h' c E.
    assert (Hp : class_attr a = false /\ starts_with (lit "_") a || forbidden a = false).
    { unfold getattr in E. destruct (class_attr a); [discriminate|].
      destruct (starts_with (lit "_") a || forbidden a); [discriminate|]. auto. }
    split; auto. destruct (get_inv _ _ _ _ _ _ _ _ _ _ E) as [[-> H]|[_ [_ [[s [Hs _]] [r' [Em Er]]]]]].
    - destruct H as [[H _]|[H|[H|H]]]; try discriminate.
      destruct H as [c' [s [d [ds [E1 [_ [H1 [H2 [H3 [H4 H5]]]]]]]]]]. injection E1 as <-.
      exists s, d, ds. repeat split; auto. now apply dget_In.
    - destruct r' as [n|]; [|discriminate]. injection Er as <-. eapply make_new_child; eauto.
  Qed.

  Lemma run_child_kept : forall os h, good h -> always ex no_loop h os ->
    forall i a c, child_at h i a c -> text_of h c <> [] -> always ex (unassigned i a) h os ->
    child_at (go h os) i a c /\ good (go h os).
  Proof.
    induction os as [|o os IH]; intros h G NL i a c Hc Ht Hu; cbn; [auto|].
    inversion NL as [|? ? ? NL1 NL2]; subst. inversion Hu as [|? ? ? Hu1 Hu2]; subst.
    assert (E := exec_effect M fullmatch expand compiles class_attr h o). destruct G as [S [U En]].
    apply IH; auto.
    - split; [|split]; [eapply effect_sound|eapply effect_unshared|eapply effect_ends]; eauto.
    - eapply effect_child_kept; eauto.
    - rewrite (names_text h); auto. apply exec_names.
  Qed.

  Lemma same_step : forall h i a h1 c os, good h -> get h i a = (h1, Ok (VStep c)) -> text_of h1 c <> [] ->
    always ex no_loop h1 os -> always ex (unassigned i a) h1 os ->
    get (go h1 os) i a = (go h1 os, Ok (VStep c)).
  Proof.
    intros h i a h1 c os G E Ht NL Hu. destruct (get_child _ _ _ _ _ E) as [Hc [Ha Hf]].
    assert (E1 : ex h (OGet i a) = h1) by (cbn; now rewrite E).
    assert (G1 : good h1).
    { rewrite <- E1. apply (good_run M fullmatch expand compiles class_attr [OGet i a] h G).
      constructor; [|constructor]. intros i0 a0 j E0. discriminate. }
    destruct (run_child_kept os h1 G1 NL _ _ _ Hc Ht Hu) as [Hc' [S _]].
    apply get_existing; auto. rewrite (names_text h1); auto. apply run_names.
  Qed.

  (** ** Renaming keeps everything else *)
  Lemma new_clone : forall h n j al ts s h' r, step_at h j s -> s_text s <> [] ->
    new h (Some n) (MStep j) al ts = (h', r) -> exists s',
      r = Ok (length (h_steps h)) /\ h_steps h' = h_steps h ++ [s'] /\ h_cells h' = h_cells h
      /\ s_text s' = the_text al n /\ s_orig s' = s_orig s /\ s_pmod s' = s_pmod s /\ s_locked s' = s_locked s
      /\ s_tags s' = s_tags s
      /\ (sound h -> forall a c, child_at h' (length (h_steps h)) a c <-> child_at h j a c).
  Proof.
    intros h n j al ts s h' r Hs Ht E. assert (E0 := E). unfold new_step in E. rewrite Hs in E.
    destruct (s_text s) as [|x t] eqn:Et; [congruence|].
    destruct (clone_csteps h (s_csteps s)) as [h2 d] eqn:Ec. unfold alloc_step in E. injection E as <- <-.
    assert (A : h_steps h2 = h_steps h /\ h_cells h2 = h_cells h).
    { unfold clone_csteps in Ec. destruct (dict_of h (s_csteps s)); injection Ec as <- _; auto. }
    destruct A as [A1 A2]. rewrite A1 in E0. eexists. cbn. rewrite A1, A2. repeat (split; [reflexivity|]).
    intros S a c. split.
    - intros Hc. destruct (new_child _ _ _ _ _ _ _ _ _ _ _ E0 S _ _ _ Hc) as [H|[_ [_ [j' [Em [_ H]]]]]].
      + exfalso. destruct (child_lt _ _ _ _ S H). lia.
      + injection Em as <-. exact H.
    - intros [sj [dj [ds [H1 [H2 [H3 H4]]]]]]. unfold step_at in *. assert (sj = s) by congruence. subst sj.
      unfold clone_csteps in Ec. rewrite H2 in Ec. cbn in Ec. rewrite (nth_error_nth _ _ _ H3) in Ec.
      destruct ds as [|y ys]; [destruct H4|]. injection Ec as <- <-.
      eexists _, (length (h_dicts h)), (y :: ys). unfold step_at. cbn. rewrite nth_error_snoc_new.
      split; [reflexivity|]. cbn. rewrite nth_error_snoc_new. auto.
  Qed.

  Lemma make_clone : forall h i k al e h' r s j sj, good h -> step_at h i s -> make h i k al e = (h', r) ->
    sole h i e -> (e = Some j \/ (e = None /\ child_at h i k j)) -> step_at h j sj -> s_text sj <> [] ->
    r = Ok (length (h_steps h)) /\ child_at h' i k (length (h_steps h)) /\ exists sn,
      step_at h' (length (h_steps h)) sn /\ s_text sn = the_text al k /\ s_orig sn = s_orig sj
      /\ s_locked sn = s_locked sj /\ s_tags sn = s_tags sj
      /\ (forall p, s_pmod sj = Some p -> s_pmod sn = Some p)
      /\ (forall b c, child_at h' (length (h_steps h)) b c <-> child_at h j b c).
  Proof.
    intros h i k al e h' r s j sj [S [U En]] Hs E So Hj Hsj Ht.
    destruct (make_inv _ _ _ _ _ _ _ _ _ _ _ _ Hs E) as [h1 [d [e1 [h2 [P [N F]]]]]].
    destruct (prepared_steps _ _ _ _ _ _ _ _ _ Hs P) as [s' [A [Id [C [D G]]]]].
    destruct (prepared_sound _ _ _ _ _ _ _ _ _ Hs P S) as [S' Hd].
    assert (Len : length (h_steps h1) = length (h_steps h)) by (now rewrite A, list_update_length).
    assert (Ee : e1 = Some j).
    { destruct Hj as [->|[-> Hj]]; destruct P as [d x xs e0 He Ed' Ex|d x xs He Ed' Ex|Ed]; auto; try discriminate.
      - destruct Hj as [s0 [d0 [ds [H1 [H2 [H3 H4]]]]]]. unfold step_at in *.
        assert (s0 = s) by congruence. subst s0. assert (d0 = d) by congruence. subst d0.
        assert (ds = x :: xs) by congruence. subst ds. destruct S as [_ [_ S3]]. apply In_dget; eauto.
      - exfalso. destruct Hj as [s0 [d0 [ds [H1 [H2 [H3 H4]]]]]]. unfold step_at in *.
        assert (s0 = s) by congruence. subst s0. rewrite H2 in Ed. cbn in Ed.
        rewrite (nth_error_nth _ _ _ H3) in Ed. subst ds. destruct H4. }
    assert (K : keeps_steps h h1) by (eapply (update_keeps h h1 _ s s' []); eauto; rewrite app_nil_r; exact A).
    destruct K as [_ K]. destruct (K _ _ Hsj) as [sj1 [Hsj1 [[I1 [I2 [I3 I4]]] [_ I5]]]].
    rewrite Ee in N. assert (Tx : texted h1 j = true).
    { apply texted_iff. rewrite (text_at _ _ _ Hsj1). congruence. }
    rewrite Tx in N. destruct (new_clone _ _ _ _ _ sj1 _ _ Hsj1 ltac:(congruence) N)
      as [sn [-> [H1 [H2 [H3 [H4 [H5 [H6 [H7 H8]]]]]]]]].
    rewrite Len in *. split; auto. split; [eapply make_new_child; eauto|]. subst h'.
    exists sn. unfold step_at. cbn. rewrite H1, <- Len, nth_error_snoc_new. rewrite Len.
    repeat split; auto; try congruence.
    { intros p Hp. rewrite H5. auto. }
    - intros Hc. apply (prepared_child M fullmatch compiles class_attr _ _ _ _ _ _ _ _ _ Hs P). apply (H8 S').
      destruct Hc as [x [dx [ds [G1 [G2 [G3 G4]]]]]]. unfold step_at in G1. cbn in G1, G3.
      exists x, dx, ds. repeat split; auto. apply nth_error_update in G3. destruct G3 as [[_ G3]|[<- _]]; auto.
      exfalso. rewrite H1, <- Len, nth_error_snoc_new in G1. injection G1 as <-.
      assert (N' := N). apply new_inv in N'. destruct N' as [dx' [cx [_ [_ [_ [s0 [Es B]]]]]]].
      rewrite H1 in Es. apply app_inv_head in Es. injection Es as <-.
      eapply (built_sole h i s k al e h1 d e1); eauto. rewrite Ee, Tx. exact B.
    - intros Hc. apply (prepared_child M fullmatch compiles class_attr _ _ _ _ _ _ _ _ _ Hs P) in Hc. apply (H8 S') in Hc.
      destruct Hc as [x [dx [ds [G1 [G2 [G3 G4]]]]]]. unfold step_at in G1.
      exists x, dx, ds. unfold step_at. cbn. repeat split; auto.
      rewrite nth_error_update_neq; auto. intros <-.
      rewrite H1, <- Len, nth_error_snoc_new in G1. injection G1 as <-.
      assert (N' := N). apply new_inv in N'. destruct N' as [dx' [cx [_ [_ [_ [s0 [Es B]]]]]]].
      rewrite H1 in Es. apply app_inv_head in Es. injection Es as <-.
      eapply (built_sole h i s k al e h1 d e1); eauto. rewrite Ee, Tx. exact B.
  Qed.

  (** ** Locks *)
  Lemma lock3 : forall o t, lock_allows CAN_RELOCATE o t.
  Proof. intros. right. unfold CAN_RELOCATE. lia. Qed.

  Lemma new_locks : forall h n m al ts h' r, new h n m al ts = (h', r) -> locks_kept h ->
    (forall j s, m = MStep j -> step_at h j s -> s_text s <> [] ->
       lock_allows (s_locked s) (s_orig s) (the_text al (name_of n))) -> locks_kept h'.
  Proof.
    intros h n m al ts h' r E K H. apply new_inv in E. destruct E as [dx [cx [_ [_ C]]]].
    intros i s Hi. unfold step_at in Hi. destruct r as [i0|e].
    - destruct C as [-> [sn [Es B]]]. rewrite Es in Hi. apply nth_error_snoc in Hi.
      destruct Hi as [Hi|[_ ->]]; [exact (K _ _ Hi)|]. destruct B as [t pm tg Hm Hal|j s0 d dx Em Hj Ht _]; cbn.
      + apply lock3.
      + exact (H _ _ Em Hj Ht).
    - destruct C as [C _]. rewrite C in Hi. exact (K _ _ Hi).
  Qed.

  Lemma make_locks : forall h i k al e h' r s, step_at h i s -> make h i k al e = (h', r) -> locks_kept h ->
    (forall j sj, step_at h j sj -> s_text sj <> [] -> (e = Some j \/ (e = None /\ child_at h i k j)) ->
       lock_allows (s_locked sj) (s_orig sj) (the_text al k)) -> locks_kept h'.
  Proof.
    intros h i k al e h' r s Hs E K H.
    destruct (make_inv _ _ _ _ _ _ _ _ _ _ _ _ Hs E) as [h1 [d [e1 [h2 [P [N F]]]]]].
    destruct (prepared_steps _ _ _ _ _ _ _ _ _ Hs P) as [s' [A [Id [C [D G]]]]].
    assert (Bk : forall j sj, step_at h1 j sj -> exists s0, step_at h j s0 /\ same_id s0 sj).
    { intros j sj Hj. unfold step_at in Hj. rewrite A in Hj. apply nth_error_update in Hj.
      destruct Hj as [[_ Hj]|[<- [-> _]]]; [exists sj; split; auto; apply same_id_refl|exists s; auto]. }
    assert (K1 : locks_kept h1).
    { intros j sj Hj. destruct (Bk _ _ Hj) as [s0 [H0 [I1 [I2 [I3 _]]]]]. rewrite I1, I2, I3. exact (K _ _ H0). }
    assert (K2 : locks_kept h2).
    { eapply new_locks; eauto. intros j sj Em Hj Ht.
      destruct (Bk _ _ Hj) as [s0 [H0 [I1 [I2 [I3 _]]]]]. rewrite I2, I3. cbn [name_of].
      apply (H j s0 H0); [congruence|].
      assert (Ej : e1 = Some j).
      { destruct e1 as [j'|]; [destruct (texted h1 j')|]; try congruence;
          unfold own_maps in Em; destruct (nth_error (h_steps h1) i) as [q|]; try discriminate;
          destruct (s_pmod q); discriminate. }
      destruct P as [d x xs e0 -> Ed' Ex|d x xs -> Ed' Ex|Ed]; auto.
      right. split; auto. exists s, d, (x :: xs). repeat split; auto. now apply dget_In. }
    destruct r; subst h'; [|exact K2]. intros j sj Hj. exact (K2 j sj Hj).
  Qed.

  Lemma update_locks : forall h i s s', step_at h i s -> locks_kept h ->
    lock_allows (s_locked s') (s_orig s') (s_text s') -> locks_kept (set_steps h (list_update (h_steps h) i s')).
  Proof.
    intros h i s s' Hs K H j sj Hj. unfold step_at in Hj. cbn in Hj. apply nth_error_update in Hj.
    destruct Hj as [[_ Hj]|[_ [-> _]]]; auto. exact (K _ _ Hj).
  Qed.

  Lemma effect_locks : forall h o h', effect h o h' -> sound h -> lock_respected h o -> locks_kept h -> locks_kept h'.
  Proof.
    intros h o h' E S R K. destruct E as [o|n m al ts h' r E|i a h' r s E Hs Hc|i a x h' r s E Hs|i a j h' r s E Hs|i z s Hs Hl|o i s ts Ho Hs|l cx]; auto.
    - eapply new_locks; eauto. intros j s -> Hs Ht. apply (R j); auto.
      destruct al as [x|]; [apply Cl_new_alias|]. destruct n as [n|]; [apply Cl_new|apply Cl_new_blank].
    - eapply make_locks; eauto. intros j sj Hj Ht [He|[_ Hch]]; [discriminate|]. exfalso.
      destruct Hch as [s0 [d [ds [H1 [H2 [H3 H4]]]]]]. unfold step_at in *. assert (s0 = s) by congruence. subst s0.
      apply Ht. rewrite <- (text_at _ _ _ Hj). eapply Hc; eauto. apply In_dget; auto.
      destruct S as [_ [_ S3]]. eauto.
    - eapply make_locks; eauto. intros j sj Hj Ht [He|[_ Hch]]; [discriminate|].
      apply (R j x sj); auto. now apply Cl_str.
    - eapply make_locks; eauto. intros j' sj Hj Ht [He|[He _]]; [|discriminate].
      injection He as <-. apply (R j a sj); auto. apply Cl_step.
    - eapply update_locks; eauto.
    - eapply update_locks; eauto. cbn. exact (K _ _ Hs).
  Qed.

  Lemma run_locks : forall os h, sound h -> locks_kept h -> always ex lock_respected h os -> locks_kept (go h os).
  Proof.
    induction os as [|o os IH]; intros h S K A; auto. cbn. inversion A; subst.
    assert (E := exec_effect M fullmatch expand compiles class_attr h o).
    apply IH; auto; [eapply effect_sound|eapply effect_locks]; eauto.
  Qed.

  (** ** Cells *)
  Lemma make_cells : forall h i k al e h' r s p, step_at h i s -> make h i k al e = (h', r) ->
    allocated (h_cells h) p ->
    (forall q x, al = Some x -> e = None -> s_pmod s = Some q -> has_label p (l_label q) -> leaf_at h i) ->
    allocated (h_cells h') p /\ erase (h_cells h') p = erase (h_cells h) p.
  Proof.
    intros h i k al e h' r s p Hs E Hp H.
    destruct (make_inv _ _ _ _ _ _ _ _ _ _ _ _ Hs E) as [h1 [d [e1 [h2 [P [N F]]]]]].
    assert (X : allocated (h_cells h1) p /\ erase (h_cells h1) p = erase (h_cells h) p).
    { destruct P as [d x xs e0 -> Ed' Ex|d x xs -> Ed' Ex|Ed]; auto.
      unfold update_pmod. destruct al as [y|]; auto. destruct (s_pmod s) as [q|] eqn:Eq; cbn.
      - split; [intros l Hl; rewrite list_update_length; auto|]. apply erase_update.
        intros Hl. apply (H q y eq_refl eq_refl eq_refl Hl (fst x) (snd x)). exists s, d, (x :: xs).
        repeat split; auto. left. now destruct x.
      - split; [now apply allocated_app|now apply erase_app]. }
    destruct X as [X1 X2]. apply new_inv in N. destruct N as [dx [cx [_ [Ec _]]]].
    assert (Y : h_cells h' = h_cells h1 ++ cx) by (destruct r; subst h'; exact Ec).
    rewrite Y, <- X2. split; [now apply allocated_app|now apply erase_app].
  Qed.

  Lemma effect_cells : forall h o h' p, effect h o h' -> allocated (h_cells h) p -> spares p h o ->
    allocated (h_cells h') p /\ erase (h_cells h') p = erase (h_cells h) p.
  Proof.
    intros h o h' p E Hp R. destruct E as [o|n m al ts h' r E|i a h' r s E Hs Hc|i a x h' r s E Hs|i a j h' r s E Hs|i z s Hs Hl|o i s ts Ho Hs|l cx]; auto.
    - apply new_inv in E. destruct E as [dx [cx [_ [-> _]]]]. split; [now apply allocated_app|now apply erase_app].
    - eapply make_cells; eauto. discriminate.
    - eapply make_cells; eauto.
    - eapply make_cells; eauto. discriminate.
    - cbn. split; [now apply allocated_app|now apply erase_app].
  Qed.

  Lemma run_cells : forall p os h, allocated (h_cells h) p -> always ex (spares p) h os ->
    erase (h_cells (go h os)) p = erase (h_cells h) p.
  Proof.
    induction os as [|o os IH]; intros h Hp A; auto. cbn. inversion A as [|? ? ? A1 A2]; subst.
    destruct (effect_cells _ _ _ p (exec_effect M fullmatch expand compiles class_attr h o) Hp A1) as [B1 B2].
    change (fold_left ex os (ex h o)) with (go (ex h o) os).
    rewrite IH; auto.
  Qed.

  (** ** References read the mappings *)
  Lemma make_ref : forall h i a h' r s, step_at h i s -> make h i a None None = (h', r) ->
    (forall c, child_at h i a c -> text_of h c = []) ->
    (forall p, s_pmod s = Some p -> allocated (h_cells h) p) ->
    match s_pmod s with
    | None => r = Ok (length (h_steps h))
        /\ step_at h' (length (h_steps h)) (mkStep a a None None CAN_RELOCATE [])
    | Some p =>
        match descend M fullmatch expand (erase (h_cells h) p) a with
        | Raise e => r = Raise e
        | Ok (pm, al) => r = Ok (length (h_steps h)) /\ exists t q,
            step_at h' (length (h_steps h)) (mkStep t a q None CAN_RELOCATE []) /\ text_for a al t
            /\ option_map (erase (h_cells h')) q = pm /\ (forall x, q = Some x -> allocated (h_cells h') x)
        end
    end.
  Proof.
    intros h i a h' r s Hs E Hc Hp.
    destruct (make_inv _ _ _ _ _ _ _ _ _ _ _ _ Hs E) as [h1 [d [e1 [h2 [P [N F]]]]]].
    destruct (prepared_steps _ _ _ _ _ _ _ _ _ Hs P) as [s' [A [Id [C [D G]]]]].
    assert (Len : length (h_steps h1) = length (h_steps h)) by (now rewrite A, list_update_length).
    assert (Cl : h_cells h1 = h_cells h) by (destruct P; auto; cbn; auto).
    assert (Pm : s_pmod s' = s_pmod s).
    { destruct (s_pmod s) as [p|] eqn:Ep; [auto|].
      assert (L : (i < length (h_steps h))%nat) by (eapply step_lt; eauto).
      assert (X : nth_error (h_steps h1) i = Some s') by (rewrite A; now apply nth_error_update_eq).
      destruct P as [d x xs e0 He Ed' Ex|d x xs He Ed' Ex|Ed]; [discriminate| |].
      - cbn in X. unfold step_at in Hs. congruence.
      - cbn in X. rewrite nth_error_update_eq in X by auto. injection X as <-. exact Ep. }
    assert (Om : own_maps h1 i = match s_pmod s with Some p => MPmod p | None => NoMaps end).
    { unfold own_maps. rewrite A, nth_error_update_eq by (eapply step_lt; eauto). now rewrite Pm. }
    assert (Em : match e1 with Some e => if texted h1 e then MStep e else own_maps h1 i
                 | None => own_maps h1 i end = own_maps h1 i).
    { destruct e1 as [j|]; auto. destruct (texted h1 j) eqn:Et; auto. exfalso.
      assert (Hj : child_at h i a j).
      { remember (Some j) as ej. remember None as en. destruct P as [d x xs e0 He Ed' Ex|d x xs He Ed' Ex|Ed]; subst; try discriminate.
        exists s, d, (x :: xs). repeat split; auto. now apply dget_In. }
      apply texted_iff in Et. apply Et. apply Hc in Hj.
      assert (Hj0 := Hj). unfold text_of in Hj. destruct (nth_error (h_steps h) j) as [sj|] eqn:Esj.
      - assert (K : keeps_steps h h1) by (eapply (update_keeps h h1 _ s s' []); eauto; rewrite app_nil_r; exact A).
        destruct K as [_ K]. destruct (K _ _ Esj) as [sj1 [H1 [[H2 _] _]]]. rewrite (text_at _ _ _ H1). congruence.
      - unfold text_of. rewrite A. destruct (nth_error (list_update (h_steps h) i s') j) eqn:X; auto.
        apply nth_error_None in Esj. exfalso.
        assert (j < length (list_update (h_steps h) i s'))%nat by (apply nth_error_Some; congruence).
        rewrite list_update_length in *. lia. }
    rewrite Em, Om in N.
    assert (Fs : forall n sn, h_steps h2 = h_steps h1 ++ [sn] -> r = Ok n -> step_at h' (length (h_steps h)) sn
              /\ h_cells h' = h_cells h2).
    { intros n sn H1 H2. subst r h'. unfold step_at. cbn. rewrite H1, <- Len, nth_error_snoc_new. auto. }
    destruct (s_pmod s) as [p|] eqn:Ep.
    - cbn in N. unfold step_by_pmod in N. rewrite Cl in N.
      destruct (ldesc p a (h_cells h)) as [c r0] eqn:El.
      assert (X := ldescend_erase M fullmatch expand _ _ _ _ _ El (Hp p eq_refl)).
      destruct r0 as [[q al]|e].
      + unfold fresh_step, alloc_step in N. cbn in N. injection N as <- <-. rewrite Len in *.
        destruct (Fs _ _ eq_refl eq_refl) as [F1 F2].
        assert (Dq : descend M fullmatch expand (erase (h_cells h) p) a
          = Ok (option_map (erase (h_cells h')) q, al) /\ forall x, q = Some x -> allocated (h_cells h') x).
        { rewrite F2. cbn. destruct q as [q|]; [destruct X as [X1 X2]; split; auto; intros x [= <-]; exact X1|].
          split; [exact X|discriminate]. }
        destruct Dq as [-> Dq]. split; auto. eexists _, q. split; [exact F1|]. split; [|split; auto].
        destruct al as [[|y al]|]; try constructor; [discriminate|]. now apply unescape_spec.
      + injection N as <- <-. now rewrite X.
    - cbn in N. unfold fresh_step, alloc_step in N. injection N as <- <-. rewrite Len in *.
      destruct (Fs _ _ eq_refl eq_refl) as [F1 _]. split; auto.
  Qed.
End Regex.
