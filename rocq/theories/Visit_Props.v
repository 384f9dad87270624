(** * Visiting schemas: theorems *)
From Coq Require Import String Lia.
From Verif Require Import PyBase Json Pandel_Model Visit_Model Visit_Spec Visit_Proofs Visit2_Proofs Visit3_Proofs Visit4_Proofs.
Local Notation obj := JDict.
Local Notation "k ↦ v" := (lit k, v) (at level 60).

(** ** C126 *)

(** An instance passes exactly if it conforms, whether all errors are wanted or just the first. *)
Theorem C126_conforms : forall definitions n stop s v v' es,
  iter_errors false false false definitions n stop s v = Ok (v', es) -> v' = v /\ (es = [] <-> conforms definitions n s v).
Proof. intros definitions n stop s v v' es H. destruct (iter_plain _ _ _ _ _ _ _ H) as (A & B & _). auto. Qed.
(** A list of texts, none of them named twice among the objects next to it *)
Definition people : vschema :=
  SObj [VType [TArray]; VItemsEach [SObj [VType [TString]]];
        VAddItems (SObj [VOneOf [SObj [VType [TObject]; VProps ["name" ↦ SObj [VType [TString]]]; VRequired [lit "name"]; VAddProps (SBool false)];
                                 SObj [VNot (SObj [VType [TObject]])]]])].
Example C126_conforms_example :
  let good := JList [JStr (lit "x"); obj ["name" ↦ JStr (lit "y")]; JNum 1] in
  let bad := JList [JStr (lit "x"); obj ["age" ↦ JNum 1]] in
  iter_errors false false false [] 9 false people good = Ok (good, []) /\ conforms [] 9 people good /\
  (exists e, iter_errors false false false [] 9 false people bad = Ok (bad, [e])) /\ ~ conforms [] 9 people bad.
Proof.
  cbv zeta. assert (A : iter_errors false false false [] 9 false people (JList [JStr (lit "x"); obj ["name" ↦ JStr (lit "y")]; JNum 1]) =
    Ok (JList [JStr (lit "x"); obj ["name" ↦ JStr (lit "y")]; JNum 1], [])) by reflexivity.
  assert (B : exists e, iter_errors false false false [] 9 false people (JList [JStr (lit "x"); obj ["age" ↦ JNum 1]]) =
    Ok (JList [JStr (lit "x"); obj ["age" ↦ JNum 1]], [e])) by (eexists; reflexivity).
  split; [exact A|]. split; [now apply (C126_conforms _ _ _ _ _ _ _ A)|]. split; [exact B|]. destruct B as (e & B). intros X.
  apply (C126_conforms _ _ _ _ _ _ _ B) in X. discriminate.
Qed.

(** Rules of numbers and lengths, of equality, and of what depends on what *)
Definition order : vschema :=
  SObj [VType [TObject]; VMinProps 1; VMaxProps 4; VNeeds [(lit "card", [lit "owner"])];
        VDepends ["gift" ↦ SObj [VRequired [lit "text"]]];
        VProps ["count" ↦ SObj [VExclMin 0; VExclMax 100; VMultiple 5]; "owner" ↦ SObj [VMinLength 1; VMaxLength 3; VPattern (lit "^a")];
                "kind" ↦ SObj [VConst (JBool true)]; "items" ↦ SObj [VContains (SObj [VType [TString]]); VUnique true]];
        VIf (SObj [VRequired [lit "count"]]) (SObj [VRequired [lit "kind"]]) (SBool true)].
Definition step_of (s : string) : part := PKey (lit s).
Example C126_rules_example :
  let places v := match iter_errors false false false [] 9 false order v with
                  | Ok (_, es) => Some (map (fun e => match e with VErr p sp r _ _ => (p, sp) end) es) | Raise _ => None end in
  places (obj ["count" ↦ JNum 10; "kind" ↦ JBool true; "owner" ↦ JStr (lit "abc"); "items" ↦ JList [JNum 1; JStr []; JBool true]]) = Some [] /\
  places (obj ["count" ↦ JNum 0; "kind" ↦ JNum 1; "owner" ↦ JStr []; "items" ↦ JList [JNum 1; JNum 2; JNum 1]]) =
    Some [([step_of "count"], [step_of "properties"; step_of "count"; step_of "exclusiveMinimum"]); ([step_of "owner"], [step_of "properties"; step_of "owner"; step_of "minLength"]);
          ([step_of "owner"], [step_of "properties"; step_of "owner"; step_of "pattern"]);
          ([step_of "kind"], [step_of "properties"; step_of "kind"; step_of "const"]); ([step_of "items"], [step_of "properties"; step_of "items"; step_of "contains"]);
          ([step_of "items"], [step_of "properties"; step_of "items"; step_of "uniqueItems"])] /\
  places (obj ["count" ↦ JNum 101; "owner" ↦ JStr (lit "abcd")]) =
    Some [([step_of "count"], [step_of "properties"; step_of "count"; step_of "exclusiveMaximum"]); ([step_of "count"], [step_of "properties"; step_of "count"; step_of "multipleOf"]);
          ([step_of "owner"], [step_of "properties"; step_of "owner"; step_of "maxLength"]); ([], [step_of "if"; step_of "then"; step_of "required"])] /\
  places (obj ["card" ↦ JNull; "gift" ↦ JNull]) = Some [([], [step_of "dependencies"]); ([], [step_of "dependencies"; step_of "gift"; step_of "required"])] /\
  places (obj []) = Some [([], [step_of "minProperties"])] /\
  places (obj ["a" ↦ JNull; "b" ↦ JNull; "c" ↦ JNull; "d" ↦ JNull; "e" ↦ JNull]) = Some [([], [step_of "maxProperties"])].
Proof. repeat split; vm_compute; reflexivity. Qed.

(** When one level of recursion is enough, more make no difference. *)
Theorem C126_levels : forall ad adn arn definitions n m stop s v r,
  iter_errors ad adn arn definitions n stop s v = r -> r <> Raise OutOfFuel -> n <= m -> iter_errors ad adn arn definitions m stop s v = r.
Proof. exact iter_levels. Qed.
Theorem C126_levels_conforms : forall definitions n m s v v' es,
  iter_errors false false false definitions n false s v = Ok (v', es) -> n <= m -> (conforms definitions n s v <-> conforms definitions m s v).
Proof.
  intros definitions n m s v v' es H L. assert (H' := iter_levels _ _ _ _ _ _ _ _ _ _ H ltac:(discriminate) L).
  destruct (C126_conforms _ _ _ _ _ _ _ H) as (_ & A). destruct (C126_conforms _ _ _ _ _ _ _ H') as (_ & A'). rewrite <- A, A'. reflexivity.
Qed.
(** A chain of any length *)
Definition chain : vschema := SObj [VType [TObject]; VProps ["next" ↦ SObj [VRef (lit "chain")]]; VAddProps (SBool false)].
Example C126_levels_example :
  let v := obj ["next" ↦ obj ["next" ↦ obj []]] in
  iter_errors false false false ["chain" ↦ chain] 2 false chain v = Raise OutOfFuel /\
  iter_errors false false false ["chain" ↦ chain] 5 false chain v = Ok (v, []) /\ iter_errors false false false ["chain" ↦ chain] 50 false chain v = Ok (v, []).
Proof. repeat split. Qed.

(** Without references there always are enough levels. *)
Theorem C126_enough : forall ad adn arn definitions s,
  (forall t kws r, reaches definitions s t -> t = SObj kws -> ~ In (VRef r) kws) ->
  exists n, forall stop v, iter_errors ad adn arn definitions n stop s v <> Raise OutOfFuel.
Proof. exact iter_enough. Qed.
Example C126_enough_example :
  iter_errors true true true [] 4 false people (JList [JNull; obj ["name" ↦ JNull]]) <> Raise OutOfFuel /\
  iter_errors true true true [] 1 false people (JList [JNull; obj ["name" ↦ JNull]]) = Raise OutOfFuel.
Proof. split; [vm_compute; discriminate|reflexivity]. Qed.

Print Assumptions C126_conforms.
Print Assumptions C126_levels.
Print Assumptions C126_levels_conforms.
Print Assumptions C126_enough.

(** ** C127 *)

(** Each error tells its place, and is right there. *)
Theorem C127_right : forall definitions n stop s v v' es e,
  iter_errors false false false definitions n stop s v = Ok (v', es) -> In e es -> right_error definitions n s v e.
Proof. intros definitions n stop s v v' es e H I. destruct (iter_plain _ _ _ _ _ _ _ H) as (_ & _ & B). auto. Qed.
Example C127_right_example :
  let v := JList [JStr (lit "x"); obj ["age" ↦ JNum 1]] in
  iter_errors false false false [] 9 false people v =
    Ok (v, [VErr [PIdx 1] [PKey (lit "additionalItems"); PKey (lit "oneOf")] (Some (lit "oneOf")) (obj ["age" ↦ JNum 1])
              [VErr [] [PIdx 0; PKey (lit "required")] (Some (lit "required")) (obj ["age" ↦ JNum 1]) [];
               VErr [] [PIdx 0; PKey (lit "additionalProperties")] (Some (lit "additionalProperties")) (obj ["age" ↦ JNum 1]) [];
               VErr [] [PIdx 1; PKey (lit "not")] (Some (lit "not")) (obj ["age" ↦ JNum 1]) []]]) /\
  at_path [PIdx 1] v = Some (obj ["age" ↦ JNum 1]).
Proof. split; reflexivity. Qed.

(** With automatic defaults, it leads to what the value has become. *)
Theorem C127_placed : forall ad adn arn definitions n stop s v v' es e,
  iter_errors ad adn arn definitions n stop s v = Ok (v', es) -> In e es -> placed v' e.
Proof. intros ad adn arn definitions n stop s v v' es e H I. destruct (iter_grown _ _ _ _ _ _ _ _ _ _ H) as (_ & B). auto. Qed.
Example C127_placed_example :
  iter_errors true false false [] 9 false (SObj [VProps ["a" ↦ SObj [VRequired [lit "b"]; VProps ["b" ↦ SObj [VDefault (JNum 1)]]]]]) (obj ["a" ↦ obj []]) =
    Ok (obj ["a" ↦ obj ["b" ↦ JNum 1]], [VErr [PKey (lit "a")] [PKey (lit "properties"); PKey (lit "a"); PKey (lit "required")] (Some (lit "required")) (obj []) []]) /\
  grown (obj []) (obj ["b" ↦ JNum 1]).
Proof. split; [reflexivity|]. constructor; intros; discriminate. Qed.

(** Errors of names do not have the name in their path, which leads to the object instead. *)
Theorem C127_names_refuted : exists s v v' e,
  iter_errors false false false [] 9 false s v = Ok (v', [e]) /\
  match e with VErr p _ _ w _ => at_path p v <> Some w end.
Proof.
  exists (SObj [VNames (SObj [VEnum [JStr (lit "a")]])]), (obj ["b" ↦ JNum 1]). eexists. eexists. split; [reflexivity|]. discriminate.
Qed.
(** Names of keywords tell their kinds apart, but for the two kinds of items; so the last step of the path
    into the schema, and what an error says it is of, are those of one rule. *)
Definition kind (k : keyword) : nat :=
  match k with
  | VType _ => 0 | VEnum _ => 1 | VMinimum _ => 2 | VMaximum _ => 3 | VMinItems _ => 4 | VMaxItems _ => 5 | VRequired _ => 6 | VProps _ => 7
  | VPatterns _ => 8 | VAddProps _ => 9 | VNames _ => 10 | VItems _ => 11 | VItemsEach _ => 11 | VAddItems _ => 12 | VAnyOf _ => 13
  | VAllOf _ => 14 | VOneOf _ => 15 | VNot _ => 16 | VRef _ => 17 | VDefault _ => 18 | VAutoDefault _ => 19 | VAutoDefaultNull _ => 20
  | VAutoRemoveNull _ => 21 | VUnknown _ => 22 | VConst _ => 23 | VExclMin _ => 24 | VExclMax _ => 25 | VMultiple _ => 26 | VMinLength _ => 27
  | VMaxLength _ => 28 | VMinProps _ => 29 | VMaxProps _ => 30 | VNeeds _ => 31 | VDepends _ => 31 | VContains _ => 32 | VIf _ _ _ => 33 | VUnique _ => 34 | VPattern _ => 35
  end.
Theorem C127_kinds : forall k k', (forall n, k <> VUnknown n /\ k' <> VUnknown n) -> (name_of k = name_of k' <-> kind k = kind k').
Proof.
  intros k k' N. destruct k; try (now destruct (proj1 (N name) eq_refl)); destruct k'; try (now destruct (proj2 (N name) eq_refl)); try (now destruct (proj2 (N name0) eq_refl));
    (split; [intros E; try reflexivity; discriminate E|intros E; try reflexivity; discriminate E]).
Qed.
Example C127_kinds_example : name_of (VMinimum 0) <> name_of (VMaximum 0) /\ name_of (VItems (SBool true)) = name_of (VItemsEach []).
Proof. split; [discriminate|reflexivity]. Qed.
(** The error of alternatives has all errors of all of them, with their numbers. *)
Theorem C127_context : forall definitions n stop ss v v' es,
  iter_errors false false false definitions (S n) stop (SObj [VAnyOf ss]) v = Ok (v', es) -> es <> [] ->
  exists ctx, es = [VErr [] [PKey (lit "anyOf")] (Some (lit "anyOf")) v ctx] /\
    forall i s, nth_error ss i = Some s -> exists es', iter_errors false false false definitions n false s v = Ok (v, es') /\
      forall e, In e es' -> In (located [] [PIdx i] e) ctx.
Proof.
  intros definitions n stop ss v v' es H N. cbn [iter_errors the_ref find_kw keywords rule] in H. inv_bind H. destruct r as (v1 & es1).
  inv_bind E. destruct r as (v2 & r). injection E as <- <-.
  assert (Z : forall ss i v v2 r, alternatives (iter_errors false false false definitions n) i ss v = Ok (v2, r) ->
    v2 = v /\ forall ctx, r = inl ctx -> forall j s, nth_error ss j = Some s -> exists es', iter_errors false false false definitions n false s v = Ok (v, es') /\
      forall e, In e es' -> In (located [] [PIdx (i + j)] e) ctx).
  { clear. induction ss as [|s ss IH]; intros i v v2 r H; cbn [alternatives] in H.
    - injection H as <- <-. split; [reflexivity|]. intros ctx _ [|j] s E; discriminate.
    - inv_bind H. destruct r0 as (v1 & es1). destruct (iter_plain _ _ _ _ _ _ _ E) as (-> & _). destruct (none es1).
      + injection H as <- <-. split; [reflexivity|]. discriminate.
      + inv_bind H. destruct r0 as (v3 & r3). destruct (IH _ _ _ _ E0) as (-> & G). injection H as <- <-. split; [reflexivity|].
        intros ctx Ec [|j] s' Es; destruct r3 as [es3|]; try discriminate Ec; injection Ec as <-.
        * injection Es as <-. exists es1. split; [exact E|]. intros e Ie. rewrite PeanoNat.Nat.add_0_r. apply in_or_app. left. now apply in_map.
        * destruct (G es3 eq_refl j s' Es) as (es' & E1 & E2). exists es'. split; [exact E1|]. intros e Ie. apply in_or_app. right.
          replace (i + S j) with (S i + j) by lia. now apply E2. }
  destruct (Z _ _ _ _ _ E0) as (-> & G). destruct r as [ctx|l].
  - exists ctx. split; [|exact (G ctx eq_refl)]. destruct stop; simpl in H; now injection H as <- <-.
  - exfalso. apply N. destruct stop; simpl in H; now injection H as <- <-.
Qed.
Example C127_context_example :
  let r i e := VErr [] [PIdx i; PKey (lit "required")] (Some (lit "required")) (obj []) e in
  iter_errors false false false [] 9 false (SObj [VAnyOf [SObj [VRequired [lit "a"; lit "b"]]; SObj [VRequired [lit "c"]]]]) (obj []) =
  Ok (obj [], [VErr [] [PKey (lit "anyOf")] (Some (lit "anyOf")) (obj []) [r 0 []; r 0 []; r 1 []]]).
Proof. reflexivity. Qed.
Print Assumptions C127_kinds.
Print Assumptions C127_context.
(** Without rules for names, it always leads to the instance. *)
Theorem C127_values : forall definitions n stop s v v' es p sp r w ctx,
  iter_errors false false false definitions n stop s v = Ok (v', es) -> In (VErr p sp r w ctx) es -> (forall k, w <> JStr k) -> at_path p v = Some w.
Proof.
  intros definitions n stop s v v' es p sp r w ctx H I N. assert (R := C127_right _ _ _ _ _ _ _ _ H I).
  inversion R as [n0 s0 v0 p0 sp' w0 m L Ld Lt|n0 s0 v0 p0 sp' w0 m kws' k' c ctx' L Ld En Hr' Hk' N' Hx]; subst;
    (destruct L as [L|(d & k & x & L & _ & E)]; [exact L|destruct (N k E)]).
Qed.
Example C127_values_example :
  iter_errors false false false [] 9 true (SObj [VPatterns ["^a" ↦ SObj [VItems (SObj [VMaximum 3])]]]) (obj ["b" ↦ JNum 7; "ab" ↦ JList [JNum 1; JNum 5; JNum 6]]) =
  Ok (obj ["b" ↦ JNum 7; "ab" ↦ JList [JNum 1; JNum 5; JNum 6]],
      [VErr [PKey (lit "ab"); PIdx 1] [PKey (lit "patternProperties"); PKey (lit "^a"); PKey (lit "items"); PKey (lit "maximum")] (Some (lit "maximum")) (JNum 5) []]).
Proof. reflexivity. Qed.

Print Assumptions C127_right.
Print Assumptions C127_placed.
Print Assumptions C127_names_refuted.
Print Assumptions C127_values.

(** ** C128 *)
Theorem C128_grown : forall ad adn arn definitions n stop s v v' es,
  iter_errors ad adn arn definitions n stop s v = Ok (v', es) -> grown v v'.
Proof. intros ad adn arn definitions n stop s v v' es H. exact (proj1 (iter_grown _ _ _ _ _ _ _ _ _ _ H)). Qed.
(** What that means for what is at any path *)
Theorem C128_paths : forall ad adn arn definitions n stop s v v' es p w,
  iter_errors ad adn arn definitions n stop s v = Ok (v', es) -> at_path p v = Some w -> w <> JNull ->
  exists w', at_path p v' = Some w' /\ grown w w' /\ (match w with JList _ | JDict _ => True | _ => w' = w end).
Proof.
  intros ad adn arn definitions n stop s v v' es p w H P N. assert (G := C128_grown _ _ _ _ _ _ _ _ _ _ H).
  destruct (at_path_grown _ _ _ _ P G) as [(w' & E & Gw)|(-> & _)]; [|now destruct N]. exists w'. split; [exact E|]. split; [exact Gw|].
  inversion Gw; subst; [now destruct w'|exact I|exact I].
Qed.
Example C128_paths_example :
  let s := SObj [VAnyOf [SObj [VProps ["a" ↦ SObj [VDefault (JNum 1)]; "b" ↦ SObj [VDefault (JNum 2); VType [TNumber]]]; VMaximum 0; VNot (SObj [])];
                         SObj [VProps ["c" ↦ SObj [VType [TNumber]]]]]] in
  iter_errors true true true [] 9 false s (obj ["b" ↦ JNull; "c" ↦ JNull; "d" ↦ JList [JNull]]) = Ok (obj ["b" ↦ JNum 2; "d" ↦ JList [JNull]; "a" ↦ JNum 1], []).
Proof. reflexivity. Qed.
(** Which properties take the defaults of their schemas, which go, and which are kept; what their
    schemas do to them comes after. *)
Theorem C128_filled : forall ad adn arn definitions n stop ps d v' es,
  ad || adn || arn = true -> NoDup (map fst ps) ->
  iter_errors ad adn arn definitions n stop (SObj [VProps ps]) (obj d) = Ok (v', es) ->
  exists e, v' = obj e /\
    (forall p sub, In (p, SObj sub) ps -> exists x, becomes ad adn arn sub (sget p d) x /\ both_grown x (sget p e)) /\
    (forall k, ~ In k (map fst ps) -> sget k e = sget k d).
Proof. exact iter_filled. Qed.
(** A default for what is missing, one for a null, a null that may be there, one that goes, and a default that is not wanted *)
Example C128_filled_example :
  iter_errors true true true [] 9 false
    (SObj [VProps ["a" ↦ SObj [VDefault (JNum 1)]; "b" ↦ SObj [VDefault (JNum 2)]; "c" ↦ SObj [VDefault (JNum 3); VType [TNull; TNumber]];
                   "d" ↦ SObj [VType [TString]]; "e" ↦ SObj [VDefault (JNum 5); VAutoDefault (JBool false)]]])
    (obj ["b" ↦ JNull; "c" ↦ JNull; "d" ↦ JNull; "f" ↦ JNull]) =
    Ok (obj ["b" ↦ JNum 2; "c" ↦ JNull; "f" ↦ JNull; "a" ↦ JNum 1], []) /\
  becomes true true true [VDefault (JNum 2)] (Some JNull) (Some (JNum 2)).
Proof.
  split; [reflexivity|]. assert (N : forall P k k' l, first_such P [k] k' -> In k' l -> k' = k).
  { intros P k k' l ([|y b] & a & E & _) _; injection E as E1 E2; [congruence|]. destruct b; discriminate. }
  apply b_default.
  - exists [], []. split; [reflexivity|]. split; [eexists; reflexivity|intros k []].
  - right. split; [reflexivity|]. split.
    + right. split; [reflexivity|]. intros v F. apply (N _ _ _ [VAutoDefaultNull v]) in F; [discriminate|now left].
    + intros (ts & F & _). apply (N _ _ _ [VType ts]) in F; [discriminate|now left].
Qed.
Print Assumptions C128_filled.
Print Assumptions C128_grown.
Print Assumptions C128_paths.

(** ** C129 *)

(** An instance conforms to the second of two alternatives, but the first has left its default when it
    failed, and with it the second fails as well. *)
Theorem C129_alternatives_refuted : exists s v e,
  conforms [] 9 s v /\ iter_errors false false false [] 9 false s v = Ok (v, []) /\
  iter_errors true false false [] 9 false s v = Ok (obj ["a" ↦ JNum 1], [e]).
Proof.
  exists (SObj [VAnyOf [SObj [VProps ["a" ↦ SObj [VDefault (JNum 1)]]; VRequired [lit "b"]]; SObj [VAddProps (SBool false)]]]), (obj []).
  eexists. assert (H : iter_errors false false false [] 9 false
    (SObj [VAnyOf [SObj [VProps ["a" ↦ SObj [VDefault (JNum 1)]]; VRequired [lit "b"]]; SObj [VAddProps (SBool false)]]]) (obj []) = Ok (obj [], [])) by reflexivity.
  split; [now apply (C126_conforms _ _ _ _ _ _ _ H)|]. split; [exact H|]. reflexivity.
Qed.
(** Defaults of an alternative that fails stay, also when another holds, those of schemas that must not hold or that are conditions,
    and those of items until one holds. *)
Theorem C129_traces_refuted : exists s1 s2 v,
  ~ conforms [] 8 s1 v /\
  iter_errors true false false [] 9 false (SObj [VAnyOf [s1; s2]]) v = Ok (obj ["kind" ↦ JStr (lit "y"); "x" ↦ JNum 1; "y" ↦ JNum 2], []) /\
  iter_errors true false false [] 9 false (SObj [VNot s1]) v = Ok (obj ["kind" ↦ JStr (lit "y"); "x" ↦ JNum 1], []) /\
  iter_errors true false false [] 9 false (SObj [VIf s1 (SBool true) (SBool true)]) v = Ok (obj ["kind" ↦ JStr (lit "y"); "x" ↦ JNum 1], []) /\
  iter_errors true false false [] 9 false (SObj [VContains s2]) (JList [obj []; obj ["kind" ↦ JNull]; v; v]) =
    Ok (JList [obj ["y" ↦ JNum 2]; obj ["kind" ↦ JNull]; v; v], []) /\
  iter_errors true false false [] 9 false (SObj [VContains s2]) (JList [obj ["kind" ↦ JNull]; v; v]) =
    Ok (JList [obj ["kind" ↦ JNull; "y" ↦ JNum 2]; obj ["kind" ↦ JStr (lit "y"); "y" ↦ JNum 2]; v], []).
Proof.
  exists (SObj [VProps ["x" ↦ SObj [VDefault (JNum 1)]; "kind" ↦ SObj [VEnum [JStr (lit "x")]]]]),
    (SObj [VProps ["y" ↦ SObj [VDefault (JNum 2)]; "kind" ↦ SObj [VEnum [JStr (lit "y")]]]]), (obj ["kind" ↦ JStr (lit "y")]).
  split; [|repeat split; reflexivity]. intros X.
  assert (H : exists e, iter_errors false false false [] 8 false (SObj [VProps ["x" ↦ SObj [VDefault (JNum 1)]; "kind" ↦ SObj [VEnum [JStr (lit "x")]]]]) (obj ["kind" ↦ JStr (lit "y")])
     = Ok (obj ["kind" ↦ JStr (lit "y")], [e])) by (eexists; reflexivity).
  destruct H as (e & H). apply (C126_conforms _ _ _ _ _ _ _ H) in X. discriminate.
Qed.
(** If no named property has a default or is removed when null, the parameters make no difference. *)
Theorem C129_defaultless : forall ad adn definitions n stop s v r,
  (forall t, reaches definitions s t -> defaultless_props t) ->
  iter_errors ad adn false definitions n stop s v = r -> r <> Raise OutOfFuel -> iter_errors false false false definitions n stop s v = r.
Proof. intros ad adn definitions n stop s v r H E N. destruct (iter_defaultless ad adn definitions n stop s v H) as [X|X]; congruence. Qed.
Example C129_defaultless_example :
  let s := SObj [VAnyOf [SObj [VProps ["a" ↦ SObj [VType [TNumber]]]; VRequired [lit "b"]]; SObj [VAddProps (SBool false)]]] in
  (forall t, reaches [] s t -> defaultless_props t) /\ iter_errors true true false [] 9 false s (obj []) = Ok (obj [], []).
Proof.
  cbv zeta. split; [|reflexivity]. intros t R kws ps q s' -> Ip Iq. exists [VType [TNumber]].
  assert (Z : forall a b, reaches [] a b -> forall l m, a = SObj l -> b = SObj m -> In (VProps ps) m ->
    l = [VAnyOf [SObj [VProps ["a" ↦ SObj [VType [TNumber]]]; VRequired [lit "b"]]; SObj [VAddProps (SBool false)]]] \/
    l = [VProps ["a" ↦ SObj [VType [TNumber]]]; VRequired [lit "b"]] \/ l = [VType [TNumber]] \/ l = [VAddProps (SBool false)] ->
    ps = ["a" ↦ SObj [VType [TNumber]]]).
  { clear. intros a b R. induction R as [s|kws r s' t I E R IH|kws k s' t I U R IH]; intros l m Ea Eb Ip H.
    - assert (l = m) as <- by congruence. destruct H as [->|[->|[->| ->]]]; simpl in Ip; intuition; congruence.
    - discriminate E.
    - injection Ea as ->. apply under_subs in U. destruct H as [->|[->|[->| ->]]]; simpl in I; repeat (destruct I as [<-|I]); try destruct I; simpl in U;
        repeat (destruct U as [<-|U]); try destruct U; try (eapply IH; [reflexivity|exact Eb|exact Ip|tauto]). 
      inversion R; subst; discriminate. }
  assert (ps = ["a" ↦ SObj [VType [TNumber]]]) as -> by (eapply Z; [exact R|reflexivity|reflexivity|exact Ip|now left]).
  destruct Iq as [E|[]]. injection E as <- <-. split; [reflexivity|]. intros k v [<-|[]]. split; discriminate.
Qed.
Print Assumptions C129_alternatives_refuted.
Print Assumptions C129_traces_refuted.
Print Assumptions C129_defaultless.

(** ** C130 *)

(** A named property with a boolean schema is an error of types when defaults are automatic: always. *)
Theorem C130_properties : forall ad adn arn definitions n stop ps d q b,
  ad || adn || arn = true -> In (q, SBool b) ps ->
  iter_errors ad adn arn definitions (S n) stop (SObj [VProps ps]) (obj d) = Raise TypeError.
Proof.
  intros ad adn arn definitions n stop ps d q b F I. simpl. unfold filling. rewrite F, (fill_untyped _ _ _ _ _ _ _ I). reflexivity.
Qed.
Example C130_properties_example :
  iter_errors true false false [] 9 false (SObj [VProps ["a" ↦ SBool true]]) (obj ["a" ↦ JNum 1]) = Raise TypeError /\
  iter_errors false false false [] 9 false (SObj [VProps ["a" ↦ SBool true]]) (obj ["a" ↦ JNum 1]) = Ok (obj ["a" ↦ JNum 1], []).
Proof. split; reflexivity. Qed.
Theorem C130_boolean_refuted : exists s v, iter_errors true false false [] 9 false s v = Raise TypeError /\ conforms [] 9 s v.
Proof.
  exists (SObj [VProps ["a" ↦ SBool true]]), (obj ["a" ↦ JNum 1]). split; [reflexivity|].
  assert (H : iter_errors false false false [] 9 false (SObj [VProps ["a" ↦ SBool true]]) (obj ["a" ↦ JNum 1]) = Ok (obj ["a" ↦ JNum 1], [])) by reflexivity.
  now apply (C126_conforms _ _ _ _ _ _ _ H).
Qed.
(** That is the only way: everywhere else, and without automatic defaults, there are no such errors. *)
Theorem C130_otherwise : forall ad adn arn definitions n stop s v,
  ad || adn || arn = false \/ (forall t, reaches definitions s t -> object_props t) ->
  iter_errors ad adn arn definitions n stop s v <> Raise TypeError.
Proof. intros ad adn arn definitions n stop s v H. apply iter_typed. intros F. destruct H as [H|H]; [unfold filling in F; congruence|exact H]. Qed.
Example C130_otherwise_example :
  iter_errors true true true [] 9 false (SObj [VPatterns ["^a" ↦ SBool false]; VAddProps (SBool true); VNames (SBool true)]) (obj ["ab" ↦ JNum 1; "c" ↦ JNum 2]) =
  Ok (obj ["ab" ↦ JNum 1; "c" ↦ JNum 2], [VErr [PKey (lit "ab")] [PKey (lit "patternProperties"); PKey (lit "^a")] None (JNum 1) []]).
Proof. reflexivity. Qed.
Print Assumptions C130_properties.
Print Assumptions C130_boolean_refuted.
Print Assumptions C130_otherwise.
