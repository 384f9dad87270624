(** * Proofs about calling components *)
From Coq Require Import String Lia.
From Verif Require Import PyBase PyBase_Proofs Json JsonPointer_Model Paths_Model Pmod_Model Pmod_Spec
  Pstep_Model Pstep_Spec PstepPmod_Proofs Pstep_Proofs PstepTree_Proofs PstepHist_Proofs PstepPaths_Proofs
  Comp_Model Comp_Spec CompShift_Proofs Comp_Proofs.

Section Call.
  Variable M : Type.
  Variable fullmatch : pystr -> pystr -> option M.
  Variable expand : M -> pystr -> res pystr.
  Variable compiles : pystr -> bool.
  Variable class_attr : pystr -> bool.
  Variable depth : nat.
  Notation new := (new_step M fullmatch expand compiles).
  Notation get := (getattr M fullmatch expand compiles class_attr).
  Notation ex := (exec M fullmatch expand compiles class_attr).

  Definition later (h h' : heap) : Prop :=
    keeps_names h h' /\ good h'
    /\ forall i a c, child_at h i a c -> text_of h c <> [] -> child_at h' i a c.

  Lemma later_refl : forall h, good h -> later h h.
  Proof. intros h G. split; [apply keeps_names_refl|]. auto. Qed.
  Lemma later_trans : forall a b c, later a b -> later b c -> later a c.
  Proof.
    intros a b c [H1 [H2 H3]] [H4 [H5 H6]]. split; [eapply keeps_names_trans; eauto|]. split; auto.
    intros i k x Hx Ht. apply H6; auto. rewrite (names_text a b x H1 Ht). exact Ht.
  Qed.

  Lemma later_op : forall h o, good h -> (forall i a v, o <> OSet i a v) -> later h (ex h o).
  Proof.
    intros h o G No. assert (NL : always ex no_loop h [o]).
    { constructor; [|constructor]. intros i a j E. destruct (No _ _ _ E). }
    split; [apply exec_names|]. split; [exact (good_run M fullmatch expand compiles class_attr [o] h G NL)|].
    intros i a c Hc Ht. apply (run_child_kept M fullmatch expand compiles class_attr [o] h G NL i a c Hc Ht).
    constructor; [|constructor]. intros v. apply No.
  Qed.

  Section Comp.
    Variable name : pystr.
    Variable pm : maps.
    Notation rcmd := (run_cmd M fullmatch expand compiles class_attr depth name pm).
    Notation rprog := (run_prog M fullmatch expand compiles class_attr depth name pm).

    Definition valid (st : cstate) : Prop :=
      good (c_heap st) /\ forall i, c_pinp st = Some i \/ c_pout st = Some i -> exists s, step_at (c_heap st) i s.

    Record after (st st1 : cstate) : Prop := mkAfter {
      af_heap : later (c_heap st) (c_heap st1);
      af_valid : valid st1;
      af_vars : exists l, c_vars st1 = c_vars st ++ l;
      af_pinp : forall i, c_pinp st = Some i -> c_pinp st1 = Some i;
      af_pout : forall i, c_pout st = Some i -> c_pout st1 = Some i }.

    Lemma after_refl : forall st, valid st -> after st st.
    Proof. intros st V. split; auto; [apply later_refl; apply V|exists []; now rewrite app_nil_r]. Qed.
    Lemma after_trans : forall a b c, after a b -> after b c -> after a c.
    Proof.
      intros a b c [A1 A2 [l A3] A4 A5] [B1 B2 [l' B3] B4 B5]. split; auto; [eapply later_trans; eauto|].
      exists (l ++ l'). now rewrite B3, A3, app_assoc.
    Qed.

    Lemma kept_step : forall h h' i s, later h h' -> step_at h i s -> exists s', step_at h' i s'.
    Proof. intros h h' i s [[_ K] _] H. destruct (K _ _ H) as [s' [H' _]]. eauto. Qed.
    Lemma kept_text : forall h h' i s, later h h' -> step_at h i s -> text_of h' i = text_of h i.
    Proof.
      intros h h' i s [[_ K] _] H. destruct (K _ _ H) as [s' [H' [E _]]].
      now rewrite (text_at _ _ _ H), (text_at _ _ _ H').
    Qed.

    Lemma new_later : forall h n m h' i, good h -> new h (Some n) m None [] = (h', Ok i) ->
      later h h' /\ exists s, step_at h' i s.
    Proof.
      intros h n m h' i G E. split.
      - assert (X := later_op h (ONew (Some n) m None []) G ltac:(discriminate)). cbn [exec] in X. now rewrite E in X.
      - apply new_inv in E. destruct E as [dx [cx [_ [_ [-> [s [Es _]]]]]]]. exists s. unfold step_at. rewrite Es.
        apply nth_error_snoc_new.
    Qed.

    (** One command now, and again at the end. *)
    Lemma cmd_again : forall st c st' o, valid st -> ref_cmd c -> rcmd st c = (st', o) -> (forall e, o <> Failed e) ->
      after st st' /\ forall st1, after st' st1 -> (forall i, In i (c_vars st1) -> text_of (c_heap st1) i <> []) ->
        forall inp out, rcmd (mkC (c_heap st1) (c_pinp st1) (c_pout st1) inp out (c_vars st)) c
        = (mkC (c_heap st1) (c_pinp st1) (c_pout st1) inp out (c_vars st'), o).
    Proof.
      intros st c st' o V R E No. destruct V as [G Vr]. destruct R as [path|path|v a]; cbn [run_cmd] in *; cbn zeta in *.
      - unfold run_pinp in *. destruct (c_pinp st) as [i|] eqn:Ei.
        + cbn in E. injection E as <- <-. destruct (Vr i (or_introl eq_refl)) as [s Hs]. split.
          * split; cbn; auto; [now apply later_refl|split; cbn; auto; rewrite Ei; auto|eauto].
          * intros st1 [L V1 _ P1 _] Nb inp out. cbn [c_pinp c_heap]. rewrite (P1 i Ei). cbn. unfold push. cbn. f_equal. f_equal.
            cbn in L. eapply kept_text; eauto.
        + destruct (new (c_heap st) (Some (root_path name path)) pm None []) as [h' [i|e]] eqn:En; cbn in E; injection E as <- <-.
          2:{ destruct (No e eq_refl). }
          destruct (new_later _ _ _ _ _ G En) as [L [s Hs]]. split.
          * split; cbn; auto; [|exists [i]; reflexivity|congruence]. split; cbn; [apply L|].
            intros j [Hj|Hj]; [injection Hj as <-; eauto|]. destruct (Vr j (or_intror Hj)) as [sj Hj']. eapply kept_step; eauto.
          * intros st1 [L1 V1 _ P1 _] Nb inp out. cbn [c_pinp c_heap]. rewrite (P1 i eq_refl). cbn. unfold push. cbn. f_equal. f_equal.
            cbn in L1. eapply kept_text; eauto.
      - unfold run_pout in *. destruct (c_pout st) as [i|] eqn:Ei.
        + cbn in E. injection E as <- <-. destruct (Vr i (or_intror eq_refl)) as [s Hs]. split.
          * split; cbn; auto; [now apply later_refl|split; cbn; auto; rewrite Ei; auto|eauto].
          * intros st1 [L V1 _ _ P1] Nb inp out. cbn [c_pout c_heap]. rewrite (P1 i Ei). cbn. unfold push. cbn. f_equal. f_equal.
            cbn in L. eapply kept_text; eauto.
        + destruct (new (c_heap st) (Some (root_path name path)) pm None []) as [h' [i|e]] eqn:En; cbn in E; injection E as <- <-.
          2:{ destruct (No e eq_refl). }
          destruct (new_later _ _ _ _ _ G En) as [L [s Hs]]. split.
          * split; cbn; auto; [|exists [i]; reflexivity|congruence]. split; cbn; [apply L|].
            intros j [Hj|Hj]; [|injection Hj as <-; eauto]. destruct (Vr j (or_introl Hj)) as [sj Hj']. eapply kept_step; eauto.
          * intros st1 [L1 V1 _ _ P1] Nb inp out. cbn [c_pout c_heap]. rewrite (P1 i eq_refl). cbn. unfold push. cbn. f_equal. f_equal.
            cbn in L1. eapply kept_text; eauto.
      - unfold on in *. cbn [c_vars c_heap]. destruct (nth_error (c_vars st) v) as [i|]; [|injection E as <- <-; destruct (No NameError eq_refl)].
        destruct (get (c_heap st) i a) as [h' [[c|]|e]] eqn:Eg.
        + assert (L : later (c_heap st) h').
          { assert (X := later_op (c_heap st) (OGet i a) G ltac:(discriminate)). cbn [exec] in X. now rewrite Eg in X. }
          destruct (get_child M fullmatch expand compiles class_attr _ _ _ _ _ Eg) as [Hc [Ha Hf]].
          assert (Hs : exists s, step_at h' c s).
          { destruct (child_lt h' i a c (proj1 (proj1 (proj2 L))) Hc) as [_ Lt].
            destruct (nth_error (h_steps h') c) as [s|] eqn:Es; [eauto|apply nth_error_None in Es; lia]. }
          destruct Hs as [s Hs]. cbn in E. injection E as <- <-. split.
          * split; cbn; auto; [|eauto]. split; cbn; [apply L|].
            intros j Hj. destruct (Vr j Hj) as [sj Hj']. eapply kept_step; eauto.
          * intros st1 [L1 V1 [l Ev] _ _] Nb inp out. cbn in L1, Ev.
            assert (Tx : text_of (c_heap st1) c = text_of h' c) by (eapply kept_text; eauto).
            assert (Nc : text_of h' c <> []).
            { rewrite <- Tx. apply Nb. rewrite Ev. apply in_or_app. left. apply in_or_app. right. now left. }
            assert (Hc1 : child_at (c_heap st1) i a c) by (apply L1; auto).
            rewrite (get_existing M fullmatch expand compiles class_attr (c_heap st1) i a c); auto; [|apply V1|congruence].
            cbn. unfold push. cbn. now rewrite Tx.
        + assert (Eh : h' = c_heap st /\ class_attr a = true).
          { destruct (get_inv _ _ _ _ _ _ _ _ _ _ Eg) as [[-> [[_ H]|[H|[H|H]]]]|[_ [_ [_ [r' [_ Er]]]]]]; auto; try discriminate.
            - destruct H as [c [s [d [ds [H _]]]]]. discriminate.
            - destruct r'; discriminate. }
          destruct Eh as [-> Ha]. injection E as <- <-. split.
          * split; cbn; auto; [now apply later_refl|now split|exists []; now rewrite app_nil_r].
          * intros st1 A1 Nb inp out. unfold getattr. rewrite Ha. reflexivity.
        + injection E as <- <-. destruct (No e eq_refl).
    Qed.

    Lemma prog_again : forall f st st1, valid st -> only_refers f -> rprog st f = (st1, Ok tt) ->
      after st st1 /\ ((forall i, In i (c_vars st1) -> text_of (c_heap st1) i <> []) ->
        forall inp out, rprog (mkC (c_heap st1) (c_pinp st1) (c_pout st1) inp out (c_vars st)) f
        = (mkC (c_heap st1) (c_pinp st1) (c_pout st1) inp out (c_vars st1), Ok tt)).
    Proof.
      induction f as [r|c k IH]; intros st st1 V R E; cbn [run_prog] in *.
      - injection E as <- ->. split; [now apply after_refl|]. intros _ inp out. reflexivity.
      - inversion R as [|? ? Rc Rf Rk]; subst. destruct (rcmd st c) as [st' o] eqn:Ec.
        assert (No : forall e, o <> Failed e) by (intros e ->; rewrite Rf in E; discriminate).
        destruct (cmd_again st c st' o V Rc Ec No) as [A B].
        destruct (IH o st' st1 (af_valid _ _ A) (Rk o) E) as [A1 C]. split; [eapply after_trans; eauto|].
        intros Nb inp out. rewrite (B st1 A1 Nb). now apply C.
    Qed.
  End Comp.
End Call.
