(** * C95: the filters that evaluate Python expressions. *)
From Coq Require Import String.
From Verif Require Import PyBase PyBase_Proofs Json Parse_Model Lasso_Model Lasso_Spec.
From Verif Require Import Pyeval_Model Pyeval_Spec Pyeval_Proofs.

Section Props.
  Context {W SH : Type}.
  Variable eval : pystr -> lasso SH -> option (location SH) -> state W SH -> state W SH * outcome SH.
  Variable filters : pystr -> option (filter W SH).
  Variable has_pandas : bool.
  Variable l : lasso SH.
  Variables (include exclude : option (list pystr)) (depth : option Z).

  Lemma pyeval_run : forall all s,
    pyeval_filter eval filters has_pandas l [] all include exclude depth s =
    match dive filters (pyeval_element eval all) has_pandas l include exclude depth (l_values l) 0 (l_st l) (s, []) with
    | ((s, _), v, Some e) => (s, v, Raise e)
    | ((s, _), v, None) => (s, v, Ok (with_values v l))
    end.
  Proof. reflexivity. Qed.

  (** "pyeval" puts the values of the expressions in the places of the texts, in
      the given values, too (they are changed in place); nothing else of the
      lasso changes. *)
  Theorem C95_pyeval : forall all s s' v r,
    pyeval_filter eval filters has_pandas l [] all include exclude depth s = (s', v, Ok r) ->
    r = with_values v l /\
    evaluated eval l all (taken_by include exclude) depth 0 s (l_values l) s' v.
  Proof.
    intros all s s' v r E. rewrite pyeval_run in E.
    destruct (dive _ _ _ _ _ _ _ _ _ _ _) as [[[s1 sp] v1] e] eqn:Ed.
    destruct e as [e|]; [discriminate|]. injection E as <- <- <-.
    split; [reflexivity|]. apply (pyeval_dive eval filters has_pandas l all include exclude depth) in Ed. exact (proj2 Ed).
  Qed.

  (** Errors of expressions raise if all texts must evaluate, right at the first
      of them. *)
  Theorem C95_raises : forall all s s' v e,
    pyeval_filter eval filters has_pandas l [] all include exclude depth s = (s', v, Raise e) ->
    e = ValueError /\ all = true /\
    exists t x s1, within (l_values l) (JStr t) /\ in_lasso l x /\ eval t l (Some x) s1 = (s', Errors).
  Proof.
    intros all s s' v e E. rewrite pyeval_run in E.
    destruct (dive _ _ _ _ _ _ _ _ _ _ _) as [[[s1 sp] v1] e1] eqn:Ed.
    destruct e1 as [e1|]; [|discriminate]. injection E as <- <- <-.
    apply (pyeval_dive eval filters has_pandas l all include exclude depth) in Ed. exact (proj2 Ed).
  Qed.

  Theorem C95_tolerant : forall s, exists s' v,
    pyeval_filter eval filters has_pandas l [] false include exclude depth s = (s', v, Ok (with_values v l)).
  Proof.
    intros s.
    destruct (pyeval_filter eval filters has_pandas l [] false include exclude depth s) as [[s' v] [r|e]] eqn:E.
    - destruct (C95_pyeval _ _ _ _ _ E) as [-> _]. eauto.
    - destruct (C95_raises _ _ _ _ _ E) as (_ & X & _). discriminate.
  Qed.

  (** Without texts nothing changes and nothing is evaluated. *)
  Theorem C95_no_texts : forall all s, (forall t, ~ within (l_values l) (JStr t)) ->
    pyeval_filter eval filters has_pandas l [] all include exclude depth s = (s, l_values l, Ok (with_values (l_values l) l)).
  Proof.
    intros all s H.
    destruct (pyeval_filter eval filters has_pandas l [] all include exclude depth s) as [[s' v] [r|e]] eqn:E.
    2:{ destruct (C95_raises _ _ _ _ _ E) as (_ & _ & t & x & s1 & X & _). exfalso. exact (H t X). }
    destruct (C95_pyeval _ _ _ _ _ E) as [-> X].
    assert (K : forall v n s s' v', (forall t, ~ within v (JStr t)) ->
      evaluated eval l all (taken_by include exclude) depth n s v s' v' -> s' = s /\ v' = v).
    { clear. induction v as [|bb|z|t|vs IH|d IH] using json_ind'; intros n s s' v' H E;
        try (inversion E; subst; auto; fail).
      - exfalso. apply (H t). constructor.
      - inversion E; subst; auto.
        match goal with X : evaluated_list _ _ _ _ _ _ _ _ _ _ |- _ => rename X into L end.
        assert (G : s' = s /\ vs' = vs); [|destruct G; subst; auto].
        assert (Hv : forall v, In v vs -> forall t, ~ within v (JStr t))
          by (intros v Iv t Hw; apply (H t); eapply w_list; eassumption).
        clear H E. revert vs' s L. induction vs as [|v vs IHv]; intros vs' s L; inversion L; subst; auto.
        inversion IH; subst.
        match goal with X : evaluated _ _ _ _ _ _ _ v _ _ |- _ => rename X into E1 end.
        match goal with X : forall n s s' v', _ -> evaluated _ _ _ _ _ _ _ v _ _ -> _ |- _ =>
          destruct (X _ _ _ _ (Hv v (or_introl eq_refl)) E1) as [-> ->] end.
        match goal with X : evaluated_list _ _ _ _ _ _ _ vs _ _ |- _ => rename X into E2 end.
        destruct (IHv ltac:(assumption) (fun v Iv => Hv v (or_intror Iv)) _ _ E2) as [-> ->]. auto.
      - inversion E; subst; auto.
        match goal with X : evaluated_items _ _ _ _ _ _ _ _ _ _ |- _ => rename X into L end.
        assert (G : s' = s /\ d' = d); [|destruct G; subst; auto].
        assert (Hv : forall k v, In (k, v) d -> forall t, ~ within v (JStr t))
          by (intros k v Iv t Hw; apply (H t); eapply w_dict; eassumption).
        clear H E. revert d' s L. induction d as [|[k v] d IHd]; intros d' s L; inversion L; subst; auto.
        + inversion IH; subst. cbn [snd] in *.
          match goal with X : evaluated _ _ _ _ _ _ _ v _ _ |- _ => rename X into E1 end.
          match goal with X : forall n s s' v', _ -> evaluated _ _ _ _ _ _ _ v _ _ -> _ |- _ =>
            destruct (X _ _ _ _ (Hv k v (or_introl eq_refl)) E1) as [-> ->] end.
          match goal with X : evaluated_items _ _ _ _ _ _ _ d _ _ |- _ => rename X into E2 end.
          destruct (IHd ltac:(assumption) (fun k v Iv => Hv k v (or_intror Iv)) _ _ E2) as [-> ->]. auto.
        + inversion IH; subst.
          match goal with X : evaluated_items _ _ _ _ _ _ _ d _ _ |- _ => rename X into E2 end.
          destruct (IHd ltac:(assumption) (fun k v Iv => Hv k v (or_intror Iv)) _ _ E2) as [-> ->]. auto. }
    destruct (K _ _ _ _ _ H X) as [-> ->]. reflexivity.
  Qed.

  (** "py" gives the lasso of the expression, with options of its own or the
      given ones; or the given lasso with the value of the expression. *)
  Theorem C95_py : forall expr s s' o, eval expr l None s = (s', o) ->
    (o = Errors -> py_filter eval l expr s = (s', Raise ValueError)) /\
    (forall v, o = AValue v -> exists r, py_filter eval l expr s = (s', Ok (inl r)) /\
       l_values r = v /\ l_opts r = l_opts l /\ l_sheet r = l_sheet l /\ l_st r = l_st l /\ l_nd r = l_nd l /\
       l_url r = l_url l /\ l_call r = l_call l) /\
    (forall l', o = ALasso l' true -> py_filter eval l expr s = (s', Ok (inl l'))) /\
    (forall l', o = ALasso l' false -> exists r, py_filter eval l expr s = (s', Ok (inl r)) /\
       l_values r = l_values l' /\ l_opts r = l_opts l /\ l_sheet r = l_sheet l' /\ l_st r = l_st l' /\
       l_nd r = l_nd l' /\ l_url r = l_url l' /\ l_call r = l_call l').
  Proof.
    intros expr s s' o E. unfold py_filter. rewrite E.
    repeat split.
    - intros ->. reflexivity.
    - intros v ->. eexists. split; [reflexivity|]. repeat split.
    - intros l' ->. reflexivity.
    - intros l' ->. eexists. split; [reflexivity|]. repeat split.
  Qed.
End Props.

Definition a_lasso (v : json) : lasso unit :=
  Lasso unit None None None None None None None None None None v None [].
(** Expressions known: [1+1], one that gives a lasso of another URL, and one
    that counts its evaluations in the world. *)
Definition an_eval (t : pystr) (l : lasso unit) (x : option (location unit)) (s : state nat unit)
  : state nat unit * outcome unit :=
  if str_eqb t (lit "1+1") then (s, AValue (JNum 2))
  else if str_eqb t (lit "other") then
    (s, ALasso (Lasso unit None (Some (lit "u")) None None None None None None None None (JNum 7) None []) false)
  else if str_eqb t (lit "count") then
    (State (S (world s)) (inter s), AValue (JNum (Z.of_nat (world s))))
  else if str_eqb t (lit "text") then (s, AValue (JStr (lit "1+1")))
  else (s, Errors).

(** Nothing but its values is kept of a lasso that an expression of "pyeval"
    gives. *)
Theorem C95_lasso_refuted : exists l s l' v r,
  an_eval (lit "other") l None s = (s, ALasso l' false) /\ l_url l' = Some (lit "u") /\
  l_values l = JStr (lit "other") /\
  pyeval_filter an_eval (fun _ => None) false l [] false None None None s = (s, v, Ok r) /\
  l_values r = l_values l' /\ l_url r = None.
Proof.
  exists (a_lasso (JStr (lit "other"))), (State 0%nat None). do 3 eexists.
  split; [vm_compute; reflexivity|]. split; [reflexivity|]. split; [reflexivity|].
  split; [vm_compute; reflexivity|]. split; reflexivity.
Qed.

Example C95_example :
  let run all v := pyeval_filter an_eval (fun _ => None) false (a_lasso v) [] all None (Some [lit "no"]) None (State 0%nat None) in
  let v := JList [JStr (lit "count"); JNum 3;
                  JDict [(lit "a", JStr (lit "count")); (lit "no", JStr (lit "count")); (lit "text", JStr (lit "text"))];
                  JStr (lit "a b c"); JList [JStr (lit "other"); JStr (lit "count")]] in
  let v' := JList [JNum 0; JNum 3;
                  JDict [(lit "a", JNum 1); (lit "no", JStr (lit "count")); (lit "text", JStr (lit "1+1"))];
                  JStr (lit "a b c"); JList [JNum 7; JNum 2]] in
  run false v = (State 3%nat None, v', Ok (a_lasso v')) /\
  snd (run true v) = Raise ValueError /\ world (fst (fst (run true v))) = 2%nat.
Proof. cbv zeta. repeat split; vm_compute; reflexivity. Qed.

Print Assumptions C95_pyeval.
Print Assumptions C95_raises.
Print Assumptions C95_tolerant.
Print Assumptions C95_no_texts.
Print Assumptions C95_py.
Print Assumptions C95_lasso_refuted.
