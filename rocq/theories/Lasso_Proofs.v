(** Lemmas for C32, C33, C37, C49-C51, C64-C66. *)
From Coq Require Import String.
From Verif Require Import PyBase PyBase_Proofs Json Regex Coords_Model Capture_Model Parse_Model Lasso_Model Lasso_Spec.

Section Dive.
  Context {W SH : Type}.
  Variable filters : pystr -> option (filter W SH).
  Variable element_func : lasso SH -> location SH -> json -> M W SH (bool * fval SH).
  Variable has_pandas : bool.
  Variable l : lasso SH.
  Variables (include exclude : option (list pystr)) (depth : option Z).
  Notation dv := (dive filters element_func has_pandas l include exclude depth).
  Notation call := (call_element_func filters element_func l).
  Notation incl := (is_included include exclude).

  Definition stop (n : Z) : bool := match depth with Some d => (n =? d)%Z | None => false end.
  Fixpoint dive_items (n : Z) (d : dict) (es : est) : est * dict * option exn :=
    match d with
    | [] => (es, [], None)
    | (k, x) :: d' =>
        if incl k then
          match dv x (n + 1)%Z None es with
          | (es, y, Some e) => (es, (k, y) :: d', Some e)
          | (es, y, None) => let '(es, r, e) := dive_items n d' es in (es, (k, y) :: r, e)
          end
        else let '(es, r, e) := dive_items n d' es in (es, (k, x) :: r, e)
    end.
  Fixpoint dive_elems (n : Z) (base : option coords) (v : list json) (i : Z) (es : est) : est * list json * option exn :=
    match v with
    | [] => (es, [], None)
    | x :: v' =>
        match dv x (n + 1)%Z (upd_base_coords has_pandas n base i) es with
        | (es, y, Some e) => (es, y :: v', Some e)
        | (es, y, None) => let '(es, r, e) := dive_elems n base v' (i + 1)%Z es in (es, y :: r, e)
        end
    end.
  Lemma dive_stop : forall v n b es, stop n = true -> dv v n b es = (es, v, None).
  Proof. intros v n b es H. unfold stop in H. destruct v; cbn [dive]; rewrite H; reflexivity. Qed.
  Lemma dive_dict : forall d n b es, stop n = false -> dv (JDict d) n b es = let '(es, d, e) := dive_items n d es in (es, JDict d, e).
  Proof.
    intros d n b es H. unfold stop in H. cbn [dive]. rewrite H.
    assert (forall d es, (fix items (d : dict) (es : est) : est * dict * option exn :=
                 match d with
                 | [] => (es, [], None)
                 | (k, x) :: d' =>
                     if incl k then
                       match dv x (n + 1)%Z None es with
                       | (es, y, Some e) => (es, (k, y) :: d', Some e)
                       | (es, y, None) => let '(es, r, e) := items d' es in (es, (k, y) :: r, e)
                       end
                     else let '(es, r, e) := items d' es in (es, (k, x) :: r, e)
                 end) d es = dive_items n d es) as X.
    { clear. induction d as [|[k x] d IH]; intros es; [reflexivity|]. cbn [dive_items]. destruct (incl k).
      - destruct (dv x (n + 1) None es) as [[es' y] [e|]]; [reflexivity|]. rewrite IH. reflexivity.
      - rewrite IH. reflexivity. }
    rewrite X. reflexivity.
  Qed.
  Lemma dive_other : forall v n b es, stop n = false -> ~ is_a_dict v -> dv v n b es =
    match call v b es with
    | (es, Raise e) => (es, v, Some e)
    | (es, Ok (Some y)) => (es, y, None)
    | (es, Ok None) => match v with JList v => let '(es, v, e) := dive_elems n b v 0 es in (es, JList v, e) | _ => (es, v, None) end
    end.
  Proof.
    intros v n b es H Hd. unfold stop in H. destruct v as [| | | |v|d]; try (cbn [dive]; rewrite H; reflexivity).
    2: { destruct Hd. exists d. reflexivity. }
    cbn [dive]. rewrite H. destruct (call (JList v) b es) as [es' [[y|]|e]]; try reflexivity.
    assert (forall v i es, (fix elems (l : list json) (i : Z) (es : est) : est * list json * option exn :=
                         match l with
                         | [] => (es, [], None)
                         | x :: l' =>
                             match dv x (n + 1)%Z (upd_base_coords has_pandas n b i) es with
                             | (es, y, Some e) => (es, y :: l', Some e)
                             | (es, y, None) => let '(es, r, e) := elems l' (i + 1)%Z es in (es, y :: r, e)
                             end
                         end) v i es = dive_elems n b v i es) as X.
    { clear. induction v as [|x v IH]; intros i es; [reflexivity|]. cbn [dive_elems].
      destruct (dv x (n + 1) (upd_base_coords has_pandas n b i) es) as [[es' y] [e|]]; [reflexivity|]. rewrite IH. reflexivity. }
    rewrite X. reflexivity.
  Qed.
End Dive.

(** ** Calls *)
Section Calls.
  Context {W SH : Type}.
  Variable filters : pystr -> option (filter W SH).
  Notation call := (make_call filters).

  Lemma truthy_yes : forall v, truthy v = true <-> yes v.
  Proof.
    intros v. unfold yes. destruct v as [|b|z|s|l|d]; cbn.
    - split; [discriminate|]. intros (H & _). destruct (H eq_refl).
    - destruct b; split; try reflexivity; try (intros F; discriminate F); [intros _; repeat split; discriminate|]. intros (_ & H & _). destruct (H eq_refl).
    - rewrite negb_true_iff, Z.eqb_neq. split; [intros H; repeat split; congruence|]. intros (_ & _ & H & _) F. apply H. congruence.
    - rewrite negb_true_iff. split.
      + intros H. repeat split; try discriminate. intros F. injection F as ->. discriminate H.
      + intros (_ & _ & _ & H & _). apply str_eqb_neq. congruence.
    - destruct l; split; try reflexivity; try (intros F; discriminate F); [|intros _; repeat split; discriminate]. intros (_ & _ & _ & _ & H & _). destruct (H eq_refl).
    - destruct d; split; try reflexivity; try (intros F; discriminate F); [|intros _; repeat split; discriminate]. intros (_ & _ & _ & _ & _ & H). destruct (H eq_refl).
  Qed.
  Lemma opt_on : forall name o, opt name o = true <-> on (lit name) o.
  Proof.
    intros name o. unfold opt, on, setting. destruct (sget (lit name) o) as [v|].
    - rewrite truthy_yes. split; [intros H; exists v; auto|]. intros (w & E & H). congruence.
    - split; [discriminate|]. intros (w & E & _). discriminate E.
  Qed.
  Definition lax_of (o k : dict) : bool := match sget (lit "lax") k with Some v => truthy v | None => opt "lax" o end.
  Lemma lax_tolerated : forall o k, lax_of o k = true <-> tolerated (lit "lax") o k.
  Proof.
    intros o k. unfold lax_of, tolerated. split.
    - destruct (sget (lit "lax") k) as [v|] eqn:E; intros H.
      + left. exists v. split; [exact E|]. apply truthy_yes. exact H.
      + right. split; [intros v F; unfold setting in F; congruence|]. apply opt_on. exact H.
    - intros [(v & E & H)|(E & H)].
      + unfold setting in E. rewrite E. apply truthy_yes. exact H.
      + destruct (sget (lit "lax") k) as [v|] eqn:F; [destruct (E v F)|]. apply opt_on. exact H.
  Qed.

  Definition started (l : lasso SH) (c : call_spec) (s : state W SH) : state W SH := State (world s) (Some (cs_func c, l)).

  Lemma make_call_eq : forall l c s, call (inl l) c s =
    let failed (cur : fval SH) (doc : option pystr) : M W SH (fval SH) :=
      if opt "verbose" (l_opts l) && match doc with None => true | _ => false end then raise TypeError
      else if lax_of (l_opts l) (cs_kwds c) then ret cur else raise ValueError in
    match filters (cs_func c) with
    | None => failed (inl l) (Some []) (started l c s)
    | Some f =>
        match f_run f l (cs_args c) (sdel (lit "lax") (cs_kwds c)) (started l c s) with
        | (s', Ok (inl l')) => (s', Ok (inl l'))
        | (s', Ok (inr x)) => failed (inr x) (f_doc f) s'
        | (s', Raise _) => failed (inl l) (f_doc f) s'
        end
    end.
  Proof. intros l c s. cbn. unfold bind, relasso, lax_of, started. destruct (filters (cs_func c)); reflexivity. Qed.

  Lemma pipe_app : forall fs gs v s, pipe_filter filters v (fs ++ gs) s =
    match pipe_filter filters v fs s with (s', Ok v') => pipe_filter filters v' gs s' | (s', Raise e) => (s', Raise e) end.
  Proof.
    induction fs as [|f fs IH]; intros gs v s; [reflexivity|]. cbn [pipe_filter app]. unfold bind, lift.
    destruct (parse_call_spec f) as [c|e]; [|reflexivity]. destruct (call v c s) as [s' [v'|e]]; [apply IH|reflexivity].
  Qed.

  Definition pipe_step (f : json) (s : state W SH) (v : fval SH) (s' : state W SH) (r : fval SH + exn) : Prop :=
    match parse_call_spec f with
    | Ok c => call v c s = (s', match r with inl v' => Ok v' | inr e => Raise e end)
    | Raise e => s' = s /\ r = inr e
    end.

  Lemma pipe_done : forall fs v s s' v', pipe_filter filters v fs s = (s', Ok v') <-> all_done pipe_step fs s v s' v'.
  Proof.
    induction fs as [|f fs IH]; intros v s s' v'.
    - cbn. unfold ret. split; [intros H; injection H as <- <-; constructor|]. intros H. inversion H; subst. reflexivity.
    - cbn [pipe_filter]. unfold bind, lift. split.
      + intros H. destruct (parse_call_spec f) as [c|e] eqn:Ec; [|discriminate H]. destruct (call v c s) as [s1 [v1|e]] eqn:E; [|discriminate H].
        apply IH in H. eapply Ad_cons; [|exact H]. unfold pipe_step. rewrite Ec. exact E.
      + intros H. inversion H as [|? ? ? ? s1 v1 ? ? H1 H2]; subst. unfold pipe_step in H1. destruct (parse_call_spec f) as [c|e]; [|destruct H1; discriminate].
        rewrite H1. apply IH. exact H2.
  Qed.
  Lemma pipe_failed : forall fs v s s' e, pipe_filter filters v fs s = (s', Raise e) <->
    exists pre f post s1 v1, fs = pre ++ f :: post /\ all_done pipe_step pre s v s1 v1 /\ pipe_step f s1 v1 s' (inr e).
  Proof.
    induction fs as [|f fs IH]; intros v s s' e.
    - cbn. unfold ret. split; [discriminate|]. intros ([|a pre] & f & post & s1 & v1 & F & _); discriminate F.
    - cbn [pipe_filter]. unfold bind, lift. split.
      + intros H. destruct (parse_call_spec f) as [c|e0] eqn:Ec.
        * destruct (call v c s) as [s1 [v1|e1]] eqn:E.
          -- apply IH in H. destruct H as (pre & f' & post & s2 & v2 & -> & H1 & H2). exists (f :: pre), f', post, s2, v2. split; [reflexivity|]. split; [|exact H2].
             eapply Ad_cons; [|exact H1]. unfold pipe_step. rewrite Ec. exact E.
          -- injection H as <- <-. exists [], f, fs, s, v. split; [reflexivity|]. split; [constructor|]. unfold pipe_step. rewrite Ec. exact E.
        * injection H as <- <-. exists [], f, fs, s, v. split; [reflexivity|]. split; [constructor|]. unfold pipe_step. rewrite Ec. auto.
      + intros ([|a pre] & f' & post & s1 & v1 & E & H1 & H2).
        * injection E as <- <-. inversion H1; subst. unfold pipe_step in H2. destruct (parse_call_spec f) as [c|e0]; [rewrite H2; reflexivity|].
          destruct H2 as [-> H2]. injection H2 as ->. reflexivity.
        * injection E as <- ->. inversion H1 as [|? ? ? ? s2 v2 ? ? H3 H4]; subst. unfold pipe_step in H3. destruct (parse_call_spec f) as [c|e0]; [|destruct H3; discriminate].
          rewrite H3. apply IH. exists pre, f', post, s1, v1. auto.
  Qed.
End Calls.

(** ** Diving where nothing is processed, and negative depths *)
Section Dive2.
  Context {W SH : Type}.
  Variable filters : pystr -> option (filter W SH).
  Variable element_func : lasso SH -> location SH -> json -> M W SH (bool * fval SH).
  Variable has_pandas : bool.
  Variable l : lasso SH.
  Variables (include exclude : option (list pystr)).
  Notation dv := (dive filters element_func has_pandas l include exclude).
  Notation call := (call_element_func filters element_func l).

  (** Whatever state predicate [I] is kept *)
  Variable I : est (W := W) (SH := SH) -> Prop.
  Variable P : json -> Prop.
  Hypothesis call_none : forall v b es, I es -> P v -> exists es', call v b es = (es', Ok None) /\ I es'.

  Lemma dive_nothing : forall depth v, (forall p x, at_path v p x -> P x) -> forall n b es, I es -> exists es', dv depth v n b es = (es', v, None) /\ I es'.
  Proof.
    intros depth v. induction v as [|bb|z|t|v IH|d IH] using json_ind'; intros HP n b es He;
      (destruct (stop depth n) eqn:En; [exists es; split; [apply dive_stop; exact En|exact He]|]).
    1-4: (rewrite dive_other by (exact En || (intros (q & F); discriminate F)); destruct (call_none _ b es He (HP [] _ (At_here _))) as (es' & E & He'); rewrite E; eauto).
    - rewrite dive_other by (exact En || (intros (q & F); discriminate F)). destruct (call_none _ b es He (HP [] _ (At_here _))) as (es' & E & He'). rewrite E.
      assert (forall i es, I es -> exists es', dive_elems filters element_func has_pandas l include exclude depth n b v i es = (es', v, None) /\ I es') as X.
      { assert (forall x p y, In x v -> at_path x p y -> P y) as HP'.
        { intros x p y Hx Hy. apply In_nth_error in Hx. destruct Hx as (i & Hi). apply (HP (Idx i :: p)). econstructor; eassumption. }
        clear HP E He He'. clear es es'. induction v as [|x v IHv]; intros i es He; [exists es; split; [reflexivity|exact He]|]. cbn [dive_elems].
        inversion IH as [|? ? Hx Hv]; subst.
        destruct (Hx (fun p y => HP' x p y (or_introl eq_refl)) (n + 1)%Z (upd_base_coords has_pandas n b i) es He) as (es1 & E1 & He1). rewrite E1.
        destruct (IHv Hv (fun y p z Hy => HP' y p z (or_intror Hy)) (i + 1)%Z es1 He1) as (es2 & E2 & He2). rewrite E2. eauto. }
      destruct (X 0%Z es' He') as (es2 & E2 & He2). rewrite E2. eauto.
    - rewrite dive_dict by exact En.
      assert (forall es, I es -> exists es', dive_items filters element_func has_pandas l include exclude depth n d es = (es', d, None) /\ I es') as X.
      { assert (forall k x p y, In (k, x) d -> at_path x p y -> P y) as HP'.
        { intros k x p y Hx Hy. apply (HP (Key k :: p)). econstructor; eassumption. }
        clear HP He. clear es. induction d as [|[k x] d IHd]; intros es He; [exists es; split; [reflexivity|exact He]|]. cbn [dive_items].
        inversion IH as [|? ? Hx Hv]; subst. destruct (is_included include exclude k).
        - destruct (Hx (fun p y => HP' k x p y (or_introl eq_refl)) (n + 1)%Z None es He) as (es1 & E1 & He1). cbn [snd] in E1. rewrite E1.
          destruct (IHd Hv (fun k y p z Hy => HP' k y p z (or_intror Hy)) es1 He1) as (es2 & E2 & He2). rewrite E2. eauto.
        - destruct (IHd Hv (fun k y p z Hy => HP' k y p z (or_intror Hy)) es He) as (es2 & E2 & He2). rewrite E2. eauto. }
      destruct (X es He) as (es2 & E2 & He2). rewrite E2. eauto.
  Qed.
End Dive2.

Section Negative.
  Context {W SH : Type}.
  Variable filters : pystr -> option (filter W SH).
  Variable element_func : lasso SH -> location SH -> json -> M W SH (bool * fval SH).
  Variable has_pandas : bool.
  Variable l : lasso SH.
  Variables (include exclude : option (list pystr)).
  Notation dv := (dive filters element_func has_pandas l include exclude).

  Lemma dive_negative : forall z v, (z < 0)%Z -> forall n b es, (0 <= n)%Z -> dv (Some z) v n b es = dv None v n b es.
  Proof.
    intros z v Hz. induction v as [|bb|w|t|v IH|d IH] using json_ind'; intros n b es Hn;
      (assert (stop (Some z) n = false) as E1 by (unfold stop; apply Z.eqb_neq; lia); assert (stop None n = false) as E2 by reflexivity).
    1-4: rewrite !dive_other by (assumption || (intros (q & F); discriminate F)); reflexivity.
    - rewrite !dive_other by (assumption || (intros (q & F); discriminate F)).
      assert (forall i es, dive_elems filters element_func has_pandas l include exclude (Some z) n b v i es = dive_elems filters element_func has_pandas l include exclude None n b v i es) as X.
      { clear es. induction v as [|x v IHv]; intros i es; [reflexivity|]. inversion IH as [|? ? Hx Hv]; subst. cbn [dive_elems]. rewrite Hx by lia.
        destruct (dv None x (n + 1) (upd_base_coords has_pandas n b i) es) as [[es1 y] [e|]]; [reflexivity|]. rewrite (IHv Hv). reflexivity. }
      destruct (call_element_func filters element_func l (JList v) b es) as [es1 [[y|]|e]]; try reflexivity. rewrite X. reflexivity.
    - rewrite !dive_dict by assumption.
      assert (forall es, dive_items filters element_func has_pandas l include exclude (Some z) n d es = dive_items filters element_func has_pandas l include exclude None n d es) as X.
      { clear es. induction d as [|[k x] d IHd]; intros es; [reflexivity|]. inversion IH as [|? ? Hx Hv]; subst. cbn [dive_items]. cbn [snd] in Hx.
        destruct (is_included include exclude k); [|rewrite (IHd Hv); reflexivity]. rewrite Hx by lia.
        destruct (dv None x (n + 1) None es) as [[es1 y] [e|]]; [reflexivity|]. rewrite (IHd Hv). reflexivity. }
      rewrite X. reflexivity.
  Qed.
End Negative.
