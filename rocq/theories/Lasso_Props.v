(** * Properties C32, C33, C50, C64: calling filters, piping them, and running them on elements *)
From Coq Require Import String.
From Verif Require Import PyBase PyBase_Proofs Json Regex Coords_Model Capture_Model Parse_Model Lasso_Model Lasso_Spec Lasso_Proofs Dive_Proofs.

(** ** C32 *)

(** What a filter does in a pipe: the call-spec is parsed, and called. *)
Definition filters_with {W SH} (filters : pystr -> option (filter W SH)) := pipe_step filters.

Theorem C32_sequential : forall (W SH : Type) (filters : pystr -> option (filter W SH)) v fs s s',
  (forall v', pipe_filter filters v fs s = (s', Ok v') <-> all_done (filters_with filters) fs s v s' v')
  /\ (forall e, pipe_filter filters v fs s = (s', Raise e) <->
       exists pre f post s1 v1, fs = pre ++ f :: post /\ all_done (filters_with filters) pre s v s1 v1 /\ filters_with filters f s1 v1 s' (inr e)).
Proof. intros. split; intros; [apply pipe_done|apply pipe_failed]. Qed.
Print Assumptions C32_sequential.

Theorem C32_empty_pipe : forall (W SH : Type) (filters : pystr -> option (filter W SH)) v s, pipe_filter filters v [] s = (s, Ok v).
Proof. reflexivity. Qed.
Print Assumptions C32_empty_pipe.

Theorem C32_pipes_compose : forall (W SH : Type) (filters : pystr -> option (filter W SH)) v fs gs s s' v',
  pipe_filter filters v fs s = (s', Ok v') -> pipe_filter filters v (fs ++ gs) s = pipe_filter filters v' gs s'.
Proof. intros W SH filters v fs gs s s' v' H. rewrite pipe_app, H. reflexivity. Qed.
Print Assumptions C32_pipes_compose.

(** Later filters are not called: there might be any. *)
Theorem C32_failure_stops : forall (W SH : Type) (filters : pystr -> option (filter W SH)) v fs gs s s' e,
  pipe_filter filters v fs s = (s', Raise e) -> pipe_filter filters v (fs ++ gs) s = (s', Raise e).
Proof. intros W SH filters v fs gs s s' e H. rewrite pipe_app, H. reflexivity. Qed.
Print Assumptions C32_failure_stops.

Theorem C32_pipe_of_one : forall (W SH : Type) (filters : pystr -> option (filter W SH)) v f c s,
  parse_call_spec f = Ok c -> pipe_filter filters v [f] s = make_call filters v c s.
Proof.
  intros W SH filters v f c s H. cbn [pipe_filter]. unfold bind, lift, ret. rewrite H. destruct (make_call filters v c s) as [s' [v'|e]]; reflexivity.
Qed.
Print Assumptions C32_pipe_of_one.

(** Two filters that log and change the values, and one that fails *)
Definition blank {SH} (v : json) (o : dict) : lasso SH := Lasso SH None None None None None None None None None None v None o.
Definition push (n : nat) (s : state (list nat) unit) : state (list nat) unit := State (world s ++ [n]) (inter s).
Definition some_filters (name : pystr) : option (filter (list nat) unit) :=
  if str_eqb name (lit "neg") then
    Some (Filter (fun l _ _ s => (push 1%nat s, Ok (inl (with_values (match l_values l with JNum z => JNum (- z) | v => v end) l)))) (Some []))
  else if str_eqb name (lit "twice") then
    Some (Filter (fun l _ _ s => (push 2%nat s, Ok (inl (with_values (match l_values l with JNum z => JNum (2 * z) | v => v end) l)))) (Some []))
  else if str_eqb name (lit "fail") then Some (Filter (fun l _ _ s => (push 3%nat s, Raise KeyError)) (Some []))
  else if str_eqb name (lit "bare") then Some (Filter (fun l _ _ s => (push 4%nat s, Ok (inr (l_values l)))) (Some []))
  else if str_eqb name (lit "undoc") then Some (Filter (fun l _ _ s => (push 5%nat s, Raise KeyError)) None)
  else None.
Example C32_example :
  (exists i, pipe_filter some_filters (inl (blank (JNum 5) [])) [JStr (lit "neg"); JList [JStr (lit "twice")]] (State [] None)
   = (State [1%nat; 2%nat] i, Ok (inl (blank (JNum (-10)) []))))
  /\ (exists i, pipe_filter some_filters (inl (blank (JNum 5) [])) [JStr (lit "neg"); JStr (lit "fail"); JStr (lit "twice")] (State [] None)
   = (State [1%nat; 3%nat] i, Raise ValueError)).
Proof. split; eexists; vm_compute; reflexivity. Qed.

(** ** C50 *)

Section Lax.
  Context {W SH : Type}.
  Variable filters : pystr -> option (filter W SH).
  Variables (l : lasso SH) (c : call_spec) (s s' : state W SH).
  (** How the call starts, and what the filter is given: its arguments, but lax. *)
  Let begun : state W SH := State (world s) (Some (cs_func c, l)).
  Definition fails : Prop :=
    (filters (cs_func c) = None /\ s' = begun)
    \/ exists f e, filters (cs_func c) = Some f /\ f_run f l (cs_args c) (sdel (lit "lax") (cs_kwds c)) begun = (s', Raise e).
  (** The help of filters is built only when verbose, and needs a description. *)
  Definition described : Prop := on (lit "verbose") (l_opts l) -> forall f, filters (cs_func c) = Some f -> f_doc f <> None.

  Lemma fails_with : fails -> described -> forall r,
    (if lax_of (l_opts l) (cs_kwds c) then Ok (inl l) else Raise ValueError) = r -> make_call filters (inl l) c s = (s', r).
  Proof.
    intros Hf Hd r <-. rewrite make_call_eq. change (started l c s) with begun. cbn zeta.
    destruct Hf as [[E ->]|(f & e & E & Hr)]; rewrite E.
    - cbn [andb]. rewrite andb_false_r. destruct (lax_of (l_opts l) (cs_kwds c)); reflexivity.
    - rewrite Hr. destruct (opt "verbose" (l_opts l) && match f_doc f with None => true | _ => false end) eqn:Ev.
      + apply andb_true_iff in Ev. destruct Ev as [E1 E2]. apply opt_on in E1. pose proof (Hd E1 f E). destruct (f_doc f); [discriminate E2|contradiction].
      + destruct (lax_of (l_opts l) (cs_kwds c)); reflexivity.
  Qed.

  Theorem C50_lax_failure_keeps_lasso : fails -> described -> tolerated (lit "lax") (l_opts l) (cs_kwds c) ->
    make_call filters (inl l) c s = (s', Ok (inl l)).
  Proof. intros Hf Hd Ht. apply (fails_with Hf Hd). apply lax_tolerated in Ht. rewrite Ht. reflexivity. Qed.

  Theorem C50_strict_failure_raises : fails -> described -> ~ tolerated (lit "lax") (l_opts l) (cs_kwds c) ->
    make_call filters (inl l) c s = (s', Raise ValueError).
  Proof.
    intros Hf Hd Ht. apply (fails_with Hf Hd). destruct (lax_of (l_opts l) (cs_kwds c)) eqn:E; [|reflexivity]. apply lax_tolerated in E. contradiction.
  Qed.

  Theorem C50_success : forall f l', filters (cs_func c) = Some f ->
    f_run f l (cs_args c) (sdel (lit "lax") (cs_kwds c)) begun = (s', Ok (inl l')) -> make_call filters (inl l) c s = (s', Ok (inl l')).
  Proof. intros f l' Hf Hr. rewrite make_call_eq. change (started l c s) with begun. cbn zeta. rewrite Hf, Hr. reflexivity. Qed.

  (** Whatever the filter does, only those three. *)
  Theorem C50_outcomes : described -> (forall f x s1, filters (cs_func c) = Some f ->
      f_run f l (cs_args c) (sdel (lit "lax") (cs_kwds c)) begun = (s1, Ok x) -> exists l', x = inl l') ->
    forall r, make_call filters (inl l) c s = (s', r) ->
    (fails /\ tolerated (lit "lax") (l_opts l) (cs_kwds c) /\ r = Ok (inl l))
    \/ (fails /\ ~ tolerated (lit "lax") (l_opts l) (cs_kwds c) /\ r = Raise ValueError)
    \/ exists f l', filters (cs_func c) = Some f /\ f_run f l (cs_args c) (sdel (lit "lax") (cs_kwds c)) begun = (s', Ok (inl l')) /\ r = Ok (inl l').
  Proof.
    intros Hd Hx r H.
    assert (fails -> (fails /\ tolerated (lit "lax") (l_opts l) (cs_kwds c) /\ r = Ok (inl l)) \/ (fails /\ ~ tolerated (lit "lax") (l_opts l) (cs_kwds c) /\ r = Raise ValueError)) as X.
    { intros Hf. pose proof (fails_with Hf Hd _ eq_refl) as E. rewrite H in E. injection E as E. destruct (lax_of (l_opts l) (cs_kwds c)) eqn:El.
      - left. split; [exact Hf|]. split; [apply lax_tolerated; exact El|exact E].
      - right. split; [exact Hf|]. split; [|exact E]. intros F. apply lax_tolerated in F. congruence. }
    destruct (filters (cs_func c)) as [f|] eqn:Ef.
    - destruct (f_run f l (cs_args c) (sdel (lit "lax") (cs_kwds c)) begun) as [s1 [x|e]] eqn:Er.
      + destruct (Hx f x s1 eq_refl Er) as (l' & ->). right. right. exists f, l'. split; [reflexivity|].
        rewrite make_call_eq in H. change (started l c s) with begun in H. cbn zeta in H. rewrite Ef, Er in H. injection H as <- <-. auto.
      + assert (s1 = s') as ->.
        { rewrite make_call_eq in H. change (started l c s) with begun in H. cbn zeta in H. rewrite Ef, Er in H.
          destruct (opt "verbose" (l_opts l) && match f_doc f with None => true | _ => false end); [injection H as E _; exact E|].
          destruct (lax_of (l_opts l) (cs_kwds c)); injection H as E _; exact E. }
        destruct X as [X|X]; [right; exists f, e; split; [exact Ef|exact Er]|left; exact X|right; left; exact X].
    - assert (s' = begun) as E0.
      { rewrite make_call_eq in H. change (started l c s) with begun in H. cbn zeta in H. rewrite Ef in H. cbn [andb] in H. rewrite andb_false_r in H.
        destruct (lax_of (l_opts l) (cs_kwds c)); injection H as E _; symmetry; exact E. }
      destruct X as [X|X]; [left; auto|left; exact X|right; left; exact X].
  Qed.
End Lax.
Print Assumptions C50_lax_failure_keeps_lasso.
Print Assumptions C50_strict_failure_raises.
Print Assumptions C50_success.
Print Assumptions C50_outcomes.

(** The argument of the call wins over the option, in both ways. *)
Example C50_example :
  let go o k := snd (make_call some_filters (inl (blank (JNum 5) o)) (CallSpec (lit "fail") [] k) (State [] None)) in
  let lax b := [(lit "lax", JBool b)] in
  go [] [] = Raise ValueError /\ go (lax true) [] = Ok (inl (blank (JNum 5) (lax true)))
  /\ go (lax true) (lax false) = Raise ValueError /\ go [] (lax true) = Ok (inl (blank (JNum 5) []))
  /\ snd (make_call some_filters (inl (blank (JNum 5) [])) (CallSpec (lit "nofilter") [] (lax true)) (State [] None)) = Ok (inl (blank (JNum 5) [])).
Proof. repeat split; vm_compute; reflexivity. Qed.

(** A lax filter that returns something else than a lasso replaces the lasso by it. *)
Theorem C50_lax_non_lasso_refuted : exists (filters : pystr -> option (filter (list nat) unit)) f l c s s' x,
  filters (cs_func c) = Some f /\ f_run f l (cs_args c) (sdel (lit "lax") (cs_kwds c)) (State (world s) (Some (cs_func c, l))) = (s', Ok (inr x))
  /\ tolerated (lit "lax") (l_opts l) (cs_kwds c) /\ make_call filters (inl l) c s = (s', Ok (inr x)).
Proof.
  exists some_filters. eexists. exists (blank (JNum 5) []), (CallSpec (lit "bare") [] [(lit "lax", JBool true)]), (State [] None). eexists. exists (JNum 5).
  split; [vm_compute; reflexivity|]. split; [vm_compute; reflexivity|]. split; [|vm_compute; reflexivity].
  left. exists (JBool true). split; [vm_compute; reflexivity|]. repeat split; discriminate.
Qed.
Print Assumptions C50_lax_non_lasso_refuted.

(** When verbose, the error of a filter without description is not tolerated, and is a TypeError. *)
Theorem C50_lax_verbose_refuted : exists (filters : pystr -> option (filter (list nat) unit)) l c s s',
  fails filters l c s s' /\ tolerated (lit "lax") (l_opts l) (cs_kwds c) /\ on (lit "verbose") (l_opts l)
  /\ make_call filters (inl l) c s = (s', Raise TypeError).
Proof.
  exists some_filters, (blank (JNum 5) [(lit "verbose", JBool true)]), (CallSpec (lit "undoc") [] [(lit "lax", JBool true)]), (State [] None). eexists.
  split; [right; eexists; eexists; split; vm_compute; reflexivity|]. split; [|split].
  - left. exists (JBool true). split; [vm_compute; reflexivity|]. repeat split; discriminate.
  - exists (JBool true). split; [vm_compute; reflexivity|]. repeat split; discriminate.
  - vm_compute. reflexivity.
Qed.
Print Assumptions C50_lax_verbose_refuted.

(** The lax argument of sub-filters of element-wise filters works for the 1st
    processed element only: the sub-filter fails for both elements below, is lax,
    but the failure at the 2nd is raised. *)
Definition all_numbers (l : lasso unit) (x : location unit) (v : json) : M (list nat) unit (bool * fval unit) :=
  ret (match v with JNum z => (true, inr (JNum (z + 1))) | _ => (false, inl l) end).
Definition lax_fail : json := JList [JStr (lit "fail"); JDict [(lit "lax", JBool true)]].
Theorem C50_elementwise_lax_refuted :
  snd (run_filter_elementwise some_filters all_numbers false (blank (JList [JNum 1]) []) [lax_fail] None None None (State [] None))
    = Ok (blank (JList [JNum 2]) [])
  /\ snd (run_filter_elementwise some_filters all_numbers false (blank (JList [JNum 1; JNum 2]) []) [lax_fail] None None None (State [] None))
    = Raise ValueError.
Proof. split; vm_compute; reflexivity. Qed.
Print Assumptions C50_elementwise_lax_refuted.

(** The values of the lasso may have been changed in place by a failed
    element-wise filter, so that a lax call returns a lasso with other values. *)
Theorem C50_elementwise_in_place_refuted :
  exists l s' v, l_values l = JList [JNum 1; JNum 2] /\ v = JList [JNum 2; JNum 2]
  /\ run_filter_elementwise some_filters all_numbers false l [lax_fail] None None None (State [] None) = (s', v, Raise ValueError).
Proof. exists (blank (JList [JNum 1; JNum 2]) []). do 2 eexists. split; [reflexivity|]. split; [reflexivity|]. vm_compute. reflexivity. Qed.
Print Assumptions C50_elementwise_in_place_refuted.

(** ** C33 *)

Section Elementwise.
  Context {SH : Type}.
  Variable filters : pystr -> option (filter (list json) SH).
  Variables (include exclude : option (list pystr)) (depth : option Z) (has_pandas : bool).
  (** The element function: processes values as [g] says, logging those it is
      called for. *)
  Variable g : json -> res (option json).
  Notation run := (run_filter_elementwise filters (logging g) has_pandas).
  Notation vis := (visited include exclude depth (fun v => g v = Ok None) 0).

  Lemma run_logging : forall l s, run l [] include exclude depth s =
    match dive filters (logging g) has_pandas l include exclude depth (l_values l) 0 (l_st l) (s, []) with
    | ((s, _), v, Some e) => (s, v, Raise e)
    | ((s, _), v, None) => (s, v, Ok (with_values v l))
    end.
  Proof. reflexivity. Qed.

  Theorem C33_visits_and_replaces : forall l s s' v r, proper (l_values l) -> run l [] include exclude depth s = (s', v, Ok r) ->
    given_values v l r /\ inter s' = inter s
    /\ (exists calls places, world s' = world s ++ calls /\ NoDup places /\ Forall2 (at_path (l_values l)) places calls
        /\ (forall p, In p places <-> vis (l_values l) p /\ exists x, at_path (l_values l) p x /\ ~ is_a_dict x)
        /\ forall x, In x calls -> exists o, g x = Ok o)
    /\ (forall p x y, vis (l_values l) p -> at_path (l_values l) p x -> ~ is_a_dict x -> g x = Ok (Some y) -> at_path v p y)
    /\ (forall p x, vis (l_values l) p -> at_path (l_values l) p x -> ~ is_a_dict x -> ~ is_a_list x -> g x = Ok None -> at_path v p x)
    /\ (forall p x, vis (l_values l) p -> at_path (l_values l) p x -> is_a_dict x \/ (is_a_list x /\ g x = Ok None) ->
          exists y, at_path v p y /\ same_form x y)
    /\ (forall p x, at_path (l_values l) p x -> ~ vis (l_values l) p ->
          (forall q q' z y, p = q ++ q' -> vis (l_values l) q -> at_path (l_values l) q z -> ~ is_a_dict z -> g z <> Ok (Some y)) -> at_path v p x).
  Proof.
    intros l s s' v r Hp H. rewrite run_logging in H.
    destruct (dive filters (logging g) has_pandas l include exclude depth (l_values l) 0 (l_st l) (s, [])) as [[[s1 c1] v1] [e|]] eqn:E; [discriminate H|].
    injection H as -> -> <-. destruct (dive_outcome filters include exclude depth g has_pandas l (l_values l) Hp 0 (l_st l) s (s', c1) v None E) as (ls & Es & Hf & Hg).
    injection Es as -> ->. destruct Hf as [(ps & P1 & P2 & P3) F2 F3 F4 F5].
    split; [unfold given_values, same_request; auto 15|]. split; [reflexivity|]. split; [exists ls, ps; auto|]. auto.
  Qed.

  Theorem C33_failure : forall l s s' v e, proper (l_values l) -> run l [] include exclude depth s = (s', v, Raise e) ->
    e = ValueError /\ exists calls x e', world s' = world s ++ calls ++ [x] /\ g x = Raise e' /\ forall y, In y calls -> exists o, g y = Ok o.
  Proof.
    intros l s s' v e Hp H. rewrite run_logging in H.
    destruct (dive filters (logging g) has_pandas l include exclude depth (l_values l) 0 (l_st l) (s, [])) as [[[s1 c1] v1] [e1|]] eqn:E; [|discriminate H].
    injection H as -> -> ->. destruct (dive_outcome filters include exclude depth g has_pandas l (l_values l) Hp 0 (l_st l) s (s', c1) v (Some e) E) as (ls & Es & -> & ls' & x & e' & -> & Hx & Hg).
    injection Es as -> ->. split; [reflexivity|]. exists ls', x, e'. cbn [world]. auto.
  Qed.

  Theorem C33_succeeds : forall l s, proper (l_values l) -> (forall x, exists o, g x = Ok o) -> exists s' v r, run l [] include exclude depth s = (s', v, Ok r).
  Proof.
    intros l s Hp Hg. destruct (run l [] include exclude depth s) as [[s' v] [r|e]] eqn:E; [eauto|].
    destruct (C33_failure l s s' v e Hp E) as (_ & calls & x & e' & _ & Hx & _). destruct (Hg x) as (o & F). congruence.
  Qed.
End Elementwise.
Print Assumptions C33_visits_and_replaces.
Print Assumptions C33_failure.
Print Assumptions C33_succeeds.

(** Calls that cannot be read are refused before anything is visited. *)
Theorem C33_bad_calls : forall (W SH : Type) (filters : pystr -> option (filter W SH)) fn has_pandas l filts include exclude depth s f,
  In f filts -> (forall c, parse_call_spec f <> Ok c) -> exists e,
  run_filter_elementwise filters fn has_pandas l filts include exclude depth s = (s, l_values l, Raise e).
Proof.
  intros W SH filters fn hp l filts include exclude depth s f Hf Hb. unfold run_filter_elementwise.
  assert (exists e, rmap parse_call_spec filts = Raise e) as (e & ->); [|eauto].
  induction filts as [|x filts IH]; [destruct Hf|]. cbn [rmap]. destruct (parse_call_spec x) as [c|e] eqn:E; cbn [rbind]; [|eauto].
  destruct Hf as [ -> |Hf]; [destruct (Hb c E)|]. destruct (IH Hf) as (e & ->). cbn [rbind]. eauto.
Qed.
Print Assumptions C33_bad_calls.

Example C33_bad_calls_example :
  (forall c, parse_call_spec (JNum 1) <> Ok c)
  /\ snd (run_filter_elementwise some_filters all_numbers false (blank (JList [JNum 1]) []) [lax_fail; JNum 1] None None None (State [] None)) = Raise ValueError.
Proof. split; [intros c H; vm_compute in H; discriminate H|vm_compute; reflexivity]. Qed.

(** Whatever function and sub-filters *)
Theorem C33_depth_zero : forall (W SH : Type) (filters : pystr -> option (filter W SH)) fn has_pandas l filts include exclude specs s,
  rmap parse_call_spec filts = Ok specs ->
  run_filter_elementwise filters fn has_pandas l filts include exclude (Some 0%Z) s = (s, l_values l, Ok l).
Proof.
  intros W SH filters fn hp l filts include exclude specs s H. unfold run_filter_elementwise. rewrite H. rewrite dive_stop by reflexivity. destruct l; reflexivity.
Qed.
Print Assumptions C33_depth_zero.

Theorem C33_negative_depth : forall (W SH : Type) (filters : pystr -> option (filter W SH)) fn has_pandas l filts include exclude z s,
  (z < 0)%Z -> run_filter_elementwise filters fn has_pandas l filts include exclude (Some z) s = run_filter_elementwise filters fn has_pandas l filts include exclude None s.
Proof.
  intros W SH filters fn hp l filts include exclude z s H. unfold run_filter_elementwise. destruct (rmap parse_call_spec filts) as [specs|e]; [|reflexivity].
  rewrite (dive_negative filters fn hp l include exclude z (l_values l) H 0) by lia. reflexivity.
Qed.
Print Assumptions C33_negative_depth.

Theorem C33_nothing_processed : forall (W SH : Type) (filters : pystr -> option (filter W SH)) fn has_pandas l filts include exclude depth specs s,
  rmap parse_call_spec filts = Ok specs -> (forall x v s, exists s' y, fn l x v s = (s', Ok (false, y))) ->
  exists s', run_filter_elementwise filters fn has_pandas l filts include exclude depth s = (s', l_values l, Ok l).
Proof.
  intros W SH filters fn hp l filts include exclude depth specs s H Hf. unfold run_filter_elementwise. rewrite H.
  destruct (dive_nothing filters fn hp l include exclude (fun _ => True) (fun _ => True)) with (depth := depth) (v := l_values l) (n := 0%Z) (b := l_st l) (es := (s, specs)) as ([s' c] & E & _); auto.
  - intros v b [s0 c0] _ _. unfold call_element_func, catching. match goal with |- context [fn ?a ?b ?c ?d] => destruct (Hf b c d) as (s1 & y & E); rewrite E end. eexists. split; [reflexivity|exact I].
  - rewrite E. exists s'. destruct l; reflexivity.
Qed.
Print Assumptions C33_nothing_processed.

(** Numbers are processed, texts left, and booleans are errors. *)
Definition inc (v : json) : res (option json) :=
  match v with JNum z => Ok (Some (JNum (z + 1))) | JBool _ => Raise KeyError | _ => Ok None end.
Definition ex_value : json :=
  JDict [(lit "a", JList [JNum 1; JList [JStr (lit "x"); JNum 2]]); (lit "b", JNum 3); (lit "c", JDict [(lit "b", JNum 4); (lit "a", JNum 5)])].
Example C33_example :
  run_filter_elementwise (fun _ => None) (logging (SH := unit) inc) true (blank ex_value []) [] None (Some [lit "b"]) None (State [] None)
  = (State [JList [JNum 1; JList [JStr (lit "x"); JNum 2]]; JNum 1; JList [JStr (lit "x"); JNum 2]; JStr (lit "x"); JNum 2; JNum 5] None,
     JDict [(lit "a", JList [JNum 2; JList [JStr (lit "x"); JNum 3]]); (lit "b", JNum 3); (lit "c", JDict [(lit "b", JNum 4); (lit "a", JNum 6)])],
     Ok (blank (JDict [(lit "a", JList [JNum 2; JList [JStr (lit "x"); JNum 3]]); (lit "b", JNum 3); (lit "c", JDict [(lit "b", JNum 4); (lit "a", JNum 6)])]) []))
  /\ snd (run_filter_elementwise (fun _ => None) (logging (SH := unit) inc) true (blank ex_value []) [] None None (Some 2%Z) (State [] None))
     = Ok (blank (JDict [(lit "a", JList [JNum 1; JList [JStr (lit "x"); JNum 2]]); (lit "b", JNum 4); (lit "c", JDict [(lit "b", JNum 4); (lit "a", JNum 5)])]) [])
  /\ snd (run_filter_elementwise (fun _ => None) (logging (SH := unit) inc) true (blank (JList [JBool true]) []) [] None None None (State [] None)) = Raise ValueError.
Proof. repeat split; vm_compute; reflexivity. Qed.
Example C33_proper_example : proper ex_value.
Proof.
  assert (forall d, NoDup (map fst d) -> Forall proper (map snd d) -> proper (JDict d)) as D.
  { intros d H1 H2. constructor; [exact H1|]. intros k x H. rewrite Forall_forall in H2. apply H2. apply (in_map snd) in H. exact H. }
  assert (forall v, Forall proper v -> proper (JList v)) as L by (intros v H; constructor; apply Forall_forall; exact H).
  assert (forall z, proper (JNum z)) as N by (intros z; constructor; discriminate).
  assert (forall z, proper (JStr z)) as T by (intros z; constructor; discriminate).
  repeat first [apply N | apply T | apply L | apply D | constructor]; cbn; intuition discriminate.
Qed.

(** ** C64 *)

(** Logs the values with the coordinates they are told to be at. *)
Definition locating {SH} (l : lasso SH) (x : location SH) (v : json) : M (list (json * option coords)) SH (bool * fval SH) :=
  fun s => (State (world s ++ [(v, x_base x)]) (inter s), Ok (false, inl l)).
Definition is_cell (v : json) : Prop := ~ is_a_dict v /\ ~ is_a_list v.

Section Located.
  Context {SH : Type}.
  Variable filters : pystr -> option (filter (list (json * option coords)) SH).
  Variable has_pandas : bool.
  Variable l : lasso SH.
  Notation dv := (dive filters locating has_pandas l None None None).

  Lemma locating_call : forall v b s c, call_element_func filters locating l v b (s, c) = ((State (world s ++ [(v, b)]) (inter s), c), Ok None).
  Proof. reflexivity. Qed.
  Lemma locating_cell : forall v n b s c, is_cell v -> dv v n b (s, c) = ((State (world s ++ [(v, b)]) (inter s), c), v, None).
  Proof. intros v n b s c [H1 H2]. rewrite dive_other by (reflexivity || exact H1). rewrite locating_call. destruct v as [| | | |v|d]; try reflexivity; destruct H2; exists v; reflexivity. Qed.
  Definition from {A} (i : nat) (v : list A) : list (Z * A) := combine (map Z.of_nat (seq i (length v))) v.

  (** Whatever is logged for the elements *)
  Lemma locating_elems : forall (lg : Z -> json -> list (json * option coords)) v n b,
    (forall i x s c, In x v -> dv x (n + 1)%Z (upd_base_coords has_pandas n b i) (s, c) = ((State (world s ++ lg i x) (inter s), c), x, None)) ->
    forall k s c, dive_elems filters locating has_pandas l None None None n b v (Z.of_nat k) (s, c)
    = ((State (world s ++ flat_map (fun ix => lg (fst ix) (snd ix)) (from k v)) (inter s), c), v, None).
  Proof.
    intros lg. induction v as [|x v IH]; intros n b H k s c.
    - cbn. rewrite app_nil_r. destruct s; reflexivity.
    - cbn [dive_elems]. rewrite H by (left; reflexivity). replace (Z.of_nat k + 1)%Z with (Z.of_nat (S k)) by lia. rewrite IH by (intros; apply H; right; assumption).
      cbn [world inter]. rewrite <- app_assoc. reflexivity.
  Qed.

  Definition row_log (b : option coords) (x : json) (cells : list json) : list (json * option coords) :=
    (x, b) :: flat_map (fun jy => [(snd jy, upd_base_coords has_pandas 1 b (fst jy))]) (numbered cells).
  Lemma locating_table : forall rows b s c, (forall cells, In cells rows -> forall x, In x cells -> is_cell x) ->
    dv (JList (map JList rows)) 0 b (s, c)
    = ((State (world s ++ (JList (map JList rows), b) :: flat_map (fun ix => row_log (upd_base_coords has_pandas 0 b (fst ix)) (JList (snd ix)) (snd ix)) (numbered rows)) (inter s), c),
       JList (map JList rows), None).
  Proof.
    intros rows b s c H. rewrite dive_other by (reflexivity || (intros (d & F); discriminate F)). rewrite locating_call.
    pose (lg := fun (i : Z) (x : json) => match x with JList cells => row_log (upd_base_coords has_pandas 0 b i) (JList cells) cells | _ => [] end).
    assert (forall s c, dive_elems filters locating has_pandas l None None None 0 b (map JList rows) 0 (s, c) =
      (State (world s ++ flat_map (fun ix => lg (fst ix) (snd ix)) (from 0 (map JList rows))) (inter s), c, map JList rows, None)) as X.
    { intros s0 c0. apply (locating_elems lg (map JList rows) 0%Z b) with (k := 0%nat).
      intros i x s1 c1 Hx. apply in_map_iff in Hx. destruct Hx as (cells & <- & Hc).
      rewrite dive_other by (reflexivity || (intros (d & F); discriminate F)). rewrite locating_call.
      pose proof (locating_elems (fun j y => [(y, upd_base_coords has_pandas 1 (upd_base_coords has_pandas 0 b i) j)]) cells (0 + 1)%Z (upd_base_coords has_pandas 0 b i)) as Y.
      change 0%Z with (Z.of_nat 0) at 3. rewrite Y by (intros j y s2 c2 Hy; apply locating_cell; exact (H cells Hc y Hy)).
      cbn [world inter lg]. unfold row_log. rewrite <- app_assoc. reflexivity. }
    rewrite X. cbn [world inter]. rewrite <- app_assoc.
    assert (forall k rows, flat_map (fun ix => lg (fst ix) (snd ix)) (from k (map JList rows))
      = flat_map (fun ix => row_log (upd_base_coords has_pandas 0 b (fst ix)) (JList (snd ix)) (snd ix)) (from k rows)) as Y.
    { clear. intros k rows. revert k. induction rows as [|r rows IH]; intros k; [reflexivity|]. unfold from in *. cbn [map length seq combine flat_map fst snd lg]. rewrite IH. reflexivity. }
    rewrite Y. reflexivity.
  Qed.
End Located.

(** Without pandas every cell of a table is told to be where it is. *)
Theorem C64_cells_of_tables : forall (SH : Type) (filters : pystr -> option (filter _ SH)) l rows r c s,
  l_values l = JList (map JList rows) -> l_st l = Some (r, c) -> (forall cells, In cells rows -> forall x, In x cells -> is_cell x) ->
  run_filter_elementwise filters locating false l [] None None None s
  = (State (world s ++ (l_values l, Some (r, c))
       :: flat_map (fun '(i, cells) => (JList cells, Some (r + i, c)%Z) :: map (fun '(j, x) => (x, Some (r + i, c + j)%Z)) (numbered cells)) (numbered rows))
       (inter s), l_values l, Ok l).
Proof.
  intros SH filters l rows r c s Hv Hst Hc. unfold run_filter_elementwise. cbn [rmap]. rewrite Hv, Hst. rewrite (locating_table filters false l rows _ s [] Hc).
  assert (with_values (JList (map JList rows)) l = l) as El by (destruct l; cbn in *; rewrite Hv; reflexivity). rewrite El. f_equal. f_equal. f_equal. f_equal. f_equal.
  generalize (numbered rows). induction l0 as [|[i cells] l0 IH]; [reflexivity|]. cbn [flat_map]. rewrite IH. f_equal. unfold row_log. cbn [fst snd]. f_equal.
  generalize (numbered cells). induction l1 as [|[j x] l1 IH1]; [reflexivity|]. cbn [flat_map map]. rewrite IH1. reflexivity.
Qed.
Print Assumptions C64_cells_of_tables.

(** With pandas installed all are told to be at the first cell. *)
Theorem C64_with_pandas : forall (SH : Type) (filters : pystr -> option (filter _ SH)) l rows b s,
  l_values l = JList (map JList rows) -> l_st l = Some b -> (forall cells, In cells rows -> forall x, In x cells -> is_cell x) ->
  exists calls, run_filter_elementwise filters locating true l [] None None None s = (State (world s ++ calls) (inter s), l_values l, Ok l)
  /\ (forall v w, In (v, w) calls -> w = Some b) /\ (forall cells x, In cells rows -> In x cells -> In (x, Some b) calls).
Proof.
  intros SH filters l rows [r c] s Hv Hst Hc. unfold run_filter_elementwise. cbn [rmap]. rewrite Hv, Hst. rewrite (locating_table filters true l rows _ s [] Hc).
  eexists. split.
  { f_equal. f_equal. destruct l; cbn in *; rewrite Hv; reflexivity. }
  split.
  - intros v w [H|H]; [congruence|]. apply in_flat_map in H. destruct H as ([i cells] & _ & H). unfold row_log in H. cbn [fst snd] in H. destruct H as [H|H]; [injection H as _ <-; reflexivity|].
    apply in_flat_map in H. destruct H as ([j x] & _ & [H|[]]). injection H as _ <-. reflexivity.
  - intros cells x Hi Hx. right. apply in_flat_map.
    assert (forall A (a : A) (v : list A), In a v -> exists i, In (i, a) (numbered v)) as X.
    { clear. intros A a v. unfold numbered. generalize 0%nat. induction v as [|b v IH]; intros k H; [destruct H|]. cbn [length seq map combine].
      destruct H as [->|H]; [eexists; left; reflexivity|]. destruct (IH (S k) H) as (i & Hi). exists i. right. exact Hi. }
    destruct (X _ _ _ Hi) as (i & Hi'). exists (i, cells). split; [exact Hi'|]. unfold row_log. cbn [fst snd]. right. apply in_flat_map.
    destruct (X _ _ _ Hx) as (j & Hj). exists (j, x). split; [exact Hj|]. left. reflexivity.
Qed.
Print Assumptions C64_with_pandas.

Definition b2_table : lasso unit := Lasso unit None None None None None None None None (Some (1, 1)%Z) (Some (2, 2)%Z) (JList [JList [JNum 1; JNum 2]; JList [JNum 3; JNum 4]]) None [].
Theorem C64_with_pandas_refuted : exists (l : lasso unit) s calls, l_values l = JList [JList [JNum 1; JNum 2]; JList [JNum 3; JNum 4]] /\ l_st l = Some (1, 1)%Z
  /\ run_filter_elementwise (fun _ => None) locating true l [] None None None (State [] None) = (s, l_values l, Ok l) /\ world s = calls
  /\ In (JNum 4, Some (1, 1)%Z) calls /\ ~ In (JNum 4, Some (2, 2)%Z) calls.
Proof.
  exists b2_table. do 2 eexists. split; [reflexivity|]. split; [reflexivity|]. split; [vm_compute; reflexivity|]. split; [reflexivity|]. cbn [world].
  split; [cbn; tauto|]. cbn. intuition discriminate.
Qed.
Print Assumptions C64_with_pandas_refuted.

(** The elements of a flat list are taken for a column, even when they are a row. *)
Theorem C64_flat_row_refuted : exists (l : lasso unit) s, l_values l = JList [JNum 1; JNum 2] /\ l_st l = Some (0, 0)%Z /\ l_nd l = Some (0, 1)%Z
  /\ run_filter_elementwise (fun _ => None) locating false l [] None None None (State [] None) = (s, l_values l, Ok l)
  /\ In (JNum 2, Some (1, 0)%Z) (world s) /\ ~ In (JNum 2, Some (0, 1)%Z) (world s).
Proof.
  exists (Lasso unit None None None None None None None None (Some (0, 0)%Z) (Some (0, 1)%Z) (JList [JNum 1; JNum 2]) None []). eexists.
  split; [reflexivity|]. split; [reflexivity|]. split; [reflexivity|]. split; [vm_compute; reflexivity|]. cbn [world]. split; [cbn; tauto|]. cbn. intuition discriminate.
Qed.
Print Assumptions C64_flat_row_refuted.

Example C64_example : exists s, run_filter_elementwise (fun _ => None) locating false b2_table [] None None None (State [] None) = (s, l_values b2_table, Ok b2_table)
  /\ In (JNum 4, Some (2, 2)%Z) (world s) /\ In (JNum 2, Some (1, 2)%Z) (world s).
Proof. eexists. split; [vm_compute; reflexivity|]. cbn [world]. split; cbn; tauto. Qed.
