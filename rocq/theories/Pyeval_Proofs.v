(** Lemmas for C95. *)
From Coq Require Import String.
From Verif Require Import PyBase PyBase_Proofs Json Parse_Model Lasso_Model Lasso_Spec Lasso_Proofs Pyeval_Model Pyeval_Spec.

Lemma taken_iff : forall include exclude k, is_included include exclude k = true <-> taken_by include exclude k.
Proof.
  assert (X : forall k ks, existsb (str_eqb k) ks = true <-> In k ks).
  { intros k ks. rewrite existsb_exists. split.
    - intros (x & I & E). apply str_eqb_eq in E. subst. exact I.
    - intros I. exists k. split; [exact I|apply str_eqb_refl]. }
  intros include exclude k. unfold is_included, taken_by. rewrite andb_true_iff.
  split.
  - intros [H1 H2]. split.
    + destruct include as [[|c r]|]; auto. right. right. eexists. split; [reflexivity|]. apply X. exact H1.
    + intros (ks & -> & I). destruct ks as [|c r]; [destruct I|].
      apply X in I. rewrite I in H2. discriminate.
  - intros [H1 H2]. split.
    + destruct include as [[|c r]|]; auto. apply X.
      destruct H1 as [H1|[H1|(ks & H1 & I)]]; try discriminate. injection H1 as <-. exact I.
    + destruct exclude as [[|c r]|]; auto. apply negb_true_iff.
      destruct (existsb (str_eqb k) (c :: r)) eqn:E; [|reflexivity].
      exfalso. apply H2. eexists. split; [reflexivity|]. apply X. exact E.
Qed.

Section Pyeval.
  Context {W SH : Type}.
  Variable eval : pystr -> lasso SH -> option (location SH) -> state W SH -> state W SH * outcome SH.
  Variable filters : pystr -> option (filter W SH).
  Variable has_pandas : bool.
  Variable l : lasso SH.
  Variable all : bool.
  Variables (include exclude : option (list pystr)) (depth : option Z).
  Notation dv := (dive filters (pyeval_element eval all) has_pandas l include exclude depth).
  Notation taken := (taken_by include exclude).
  Notation ev := (evaluated eval l all taken depth).

  Definition failed_at (v : json) (s' : state W SH) (e : exn) : Prop :=
    e = ValueError /\ all = true /\
    exists t x s1, within v (JStr t) /\ in_lasso l x /\ eval t l (Some x) s1 = (s', Errors).

  Lemma stop_iff : forall n, stop depth n = false <-> depth <> Some n.
  Proof.
    intros n. unfold stop. destruct depth as [d|]; [|split; [discriminate|reflexivity]].
    rewrite Z.eqb_neq. split; [intros H E; injection E; congruence|intros H E; apply H; congruence].
  Qed.

  Lemma gives_lasso : forall o l', result_lasso l o = Some l' -> gives o (l_values l').
  Proof.
    intros [|l0 [|]|v] l' E; cbn [result_lasso] in E; try discriminate; injection E as <-; try constructor.
    exact (g_lasso l0 false).
  Qed.
  Lemma no_result : forall o, result_lasso l o = None -> o = Errors.
  Proof. intros [|l0 [|]|v] E; try discriminate. reflexivity. Qed.

  Lemma call_text : forall t b s, exists s' o,
    eval t l (Some (Location (l_sheet l) (l_st l) (l_nd l) b)) s = (s', o) /\
    call_element_func filters (pyeval_element eval all) l (JStr t) b (s, []) =
      ((s', []), match result_lasso l o with
                 | Some l' => Ok (Some (l_values l'))
                 | None => if all then Raise ValueError else Ok None
                 end).
  Proof.
    intros t b s. unfold call_element_func, catching, pyeval_element.
    destruct (eval t l (Some (Location (l_sheet l) (l_st l) (l_nd l) b)) s) as [s' o].
    exists s', o. split; [reflexivity|].
    destruct (result_lasso l o) as [l'|]; [reflexivity|]. destruct all; reflexivity.
  Qed.

  Lemma call_none : forall v b s, (forall t, v <> JStr t) ->
    call_element_func filters (pyeval_element eval all) l v b (s, []) = ((s, []), Ok None).
  Proof. intros v b s H. destruct v; try reflexivity. exfalso. eapply H. reflexivity. Qed.

  Lemma pyeval_dive : forall v n b s s' specs v' e, dv v n b (s, []) = ((s', specs), v', e) ->
    specs = [] /\ match e with None => ev n s v s' v' | Some e => failed_at v s' e end.
  Proof.
    intros v. induction v as [|bb|z|t|vs IH|d IH] using json_ind'; intros n b s s' specs v' e E;
      (destruct (stop depth n) eqn:En;
       [rewrite dive_stop in E by exact En; injection E as <- <- <- <-; split; [reflexivity|];
        apply ev_deep; unfold stop in En; destruct depth as [d0|]; [|discriminate];
        apply Z.eqb_eq in En; congruence|]);
      pose proof (proj1 (stop_iff n) En) as Hn.
    1-3: (rewrite dive_other in E by (exact En || (intros (q & F); discriminate F));
          rewrite call_none in E by discriminate; injection E as <- <- <- <-; split; [reflexivity|];
          apply ev_cell; [exact Hn|exact I]).
    - rewrite dive_other in E by (exact En || (intros (q & F); discriminate F)).
      destruct (call_text t b s) as (s1 & o & Ee & Ec). rewrite Ec in E.
      destruct (result_lasso l o) as [l'|] eqn:Er.
      + injection E as <- <- <- <-. split; [reflexivity|].
        eapply ev_text; [exact Hn| |exact Ee|apply gives_lasso; exact Er]. repeat split.
      + apply no_result in Er. subst o. destruct all eqn:Ea.
        * injection E as <- <- <- <-. split; [reflexivity|]. split; [reflexivity|]. split; [exact Ea|].
          do 3 eexists. split; [apply w_here|]. split; [|exact Ee]. repeat split.
        * injection E as <- <- <- <-. split; [reflexivity|].
          eapply ev_kept; [exact Hn| |reflexivity|exact Ee]. repeat split.
    - rewrite dive_other in E by (exact En || (intros (q & F); discriminate F)).
      rewrite call_none in E by discriminate.
      destruct (dive_elems filters (pyeval_element eval all) has_pandas l include exclude depth n b vs 0 (s, []))
        as [[[s1 sp1] vs1] e1] eqn:Ed.
      injection E as <- <- <- <-.
      assert (X : forall i s s1 sp1 vs1 e1,
        dive_elems filters (pyeval_element eval all) has_pandas l include exclude depth n b vs i (s, [])
          = ((s1, sp1), vs1, e1) ->
        sp1 = [] /\ match e1 with
                    | None => evaluated_list eval l all taken depth (n + 1) s vs s1 vs1
                    | Some e => failed_at (JList vs) s1 e
                    end).
      { clear Ed. clear s s1 sp1 vs1 e1.
        induction vs as [|v vs IHv]; intros i s s1 sp1 vs1 e1 Ed.
        - cbn [dive_elems] in Ed. injection Ed as <- <- <- <-. split; [reflexivity|constructor].
        - inversion IH as [|? ? Hx Hv]; subst. cbn [dive_elems] in Ed.
          destruct (dv v (n + 1)%Z (upd_base_coords has_pandas n b i) (s, [])) as [[[s2 sp2] v2] e2] eqn:E2.
          destruct (Hx _ _ _ _ _ _ _ E2) as [-> H2]. destruct e2 as [e2|].
          + injection Ed as <- <- <- <-. split; [reflexivity|].
            destruct H2 as (-> & Ha & t & x & s0 & Hw & Hi & He).
            split; [reflexivity|]. split; [exact Ha|]. exists t, x, s0.
            split; [apply w_list with (v := v); [left; reflexivity|exact Hw]|]. auto.
          + destruct (dive_elems filters (pyeval_element eval all) has_pandas l include exclude depth n b vs (i + 1) (s2, []))
              as [[[s3 sp3] vs3] e3] eqn:E3.
            injection Ed as <- <- <- <-. destruct (IHv Hv _ _ _ _ _ _ E3) as [-> H3].
            split; [reflexivity|]. destruct e3 as [e3|].
            * destruct H3 as (-> & Ha & t & x & s0 & Hw & Hi & He).
              split; [reflexivity|]. split; [exact Ha|]. exists t, x, s0.
              split; [|auto]. inversion Hw; subst. apply w_list with (v := v0); [right; assumption|assumption].
            * econstructor; eassumption. }
      destruct (X _ _ _ _ _ _ Ed) as [-> H]. split; [reflexivity|]. destruct e1; [exact H|].
      apply ev_list; assumption.
    - rewrite dive_dict in E by exact En.
      destruct (dive_items filters (pyeval_element eval all) has_pandas l include exclude depth n d (s, []))
        as [[[s1 sp1] d1] e1] eqn:Ed.
      injection E as <- <- <- <-.
      assert (X : forall s s1 sp1 d1 e1,
        dive_items filters (pyeval_element eval all) has_pandas l include exclude depth n d (s, [])
          = ((s1, sp1), d1, e1) ->
        sp1 = [] /\ match e1 with
                    | None => evaluated_items eval l all taken depth (n + 1) s d s1 d1
                    | Some e => failed_at (JDict d) s1 e
                    end).
      { clear Ed. clear s s1 sp1 d1 e1.
        induction d as [|[k v] d IHd]; intros s s1 sp1 d1 e1 Ed.
        - cbn [dive_items] in Ed. injection Ed as <- <- <- <-. split; [reflexivity|constructor].
        - inversion IH as [|? ? Hx Hv]; subst. cbn [dive_items] in Ed. cbn [snd] in Hx.
          destruct (is_included include exclude k) eqn:Ek.
          + destruct (dv v (n + 1)%Z None (s, [])) as [[[s2 sp2] v2] e2] eqn:E2.
            destruct (Hx _ _ _ _ _ _ _ E2) as [-> H2]. destruct e2 as [e2|].
            * injection Ed as <- <- <- <-. split; [reflexivity|].
              destruct H2 as (-> & Ha & t & x & s0 & Hw & Hi & He).
              split; [reflexivity|]. split; [exact Ha|]. exists t, x, s0.
              split; [apply w_dict with (k := k) (v := v); [left; reflexivity|exact Hw]|]. auto.
            * destruct (dive_items filters (pyeval_element eval all) has_pandas l include exclude depth n d (s2, []))
                as [[[s3 sp3] d3] e3] eqn:E3.
              injection Ed as <- <- <- <-. destruct (IHd Hv _ _ _ _ _ E3) as [-> H3].
              split; [reflexivity|]. destruct e3 as [e3|].
              -- destruct H3 as (-> & Ha & t & x & s0 & Hw & Hi & He).
                 split; [reflexivity|]. split; [exact Ha|]. exists t, x, s0.
                 split; [|auto]. inversion Hw; subst. eapply w_dict; [right; eassumption|assumption].
              -- eapply evd_taken; [apply taken_iff; exact Ek| |]; eassumption.
          + destruct (dive_items filters (pyeval_element eval all) has_pandas l include exclude depth n d (s, []))
              as [[[s3 sp3] d3] e3] eqn:E3.
            injection Ed as <- <- <- <-. destruct (IHd Hv _ _ _ _ _ E3) as [-> H3].
            split; [reflexivity|]. destruct e3 as [e3|].
            * destruct H3 as (-> & Ha & t & x & s0 & Hw & Hi & He).
              split; [reflexivity|]. split; [exact Ha|]. exists t, x, s0.
              split; [|auto]. inversion Hw; subst. eapply w_dict; [right; eassumption|assumption].
            * apply evd_left; [|exact H3]. intros T. apply taken_iff in T. congruence. }
      destruct (X _ _ _ _ _ Ed) as [-> H]. split; [reflexivity|]. destruct e1; [exact H|].
      apply ev_dict; assumption.
  Qed.
End Pyeval.
