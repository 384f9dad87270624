(** * Additional properties: properties *)
From Coq Require Import String Lia Permutation Sorted.
From Verif Require Import PyBase PyBase_Proofs Json Regex Parse_Model AddProps_Model AddProps_Spec AddProps_Proofs.

(** [re.search] on texts of patterns, the model of Python's library *)
Theorem C86_search : forall p s, ok p -> exists x, search (write p) s = Ok x /\ (x = true <-> found p s).
Proof. exact search_ok. Qed.
Print Assumptions C86_search.

Section Rules.
  Variable E : Type.
  Variable descend : json -> json -> list E.
  Variables (props : list (list N)) (ps : list alts).
  Hypothesis patterns_ok : Forall ok ps.
  (** No pattern is the empty text. *)
  Hypothesis patterns_not_empty : Forall (fun p => write p <> []) ps.

  Definition object_of (items : list (list N * json)) : instance :=
    Object (map (fun kv => (KStr (fst kv), snd kv)) items).
  (** Without patterns, [patternProperties] may be missing. *)
  Definition patterns_of (given : bool) : option (list (list N)) :=
    if given then Some (map write ps) else None.
  Variable given : bool.
  Hypothesis given_ok : given = false -> ps = [].

  (** The additional properties are those that are neither named nor matched by a pattern. *)
  Theorem C86_extras : forall keys, exists xs,
    find_additional_properties props (map write ps) (map KStr keys) = Ok (map KStr xs) /\
    (forall k, In k xs <-> In k keys /\ extra props ps k) /\ (NoDup keys -> NoDup xs).
  Proof. intro keys. exact (extras_spec props ps keys patterns_ok patterns_not_empty). Qed.

  Lemma extras_of : forall items : list (list N * json), exists xs,
    find_additional_properties props (match patterns_of given with Some p => p | None => [] end)
      (map fst (map (fun kv => (KStr (fst kv), snd kv)) items)) = Ok (map KStr xs) /\
    (forall k, In k xs <-> In k (map fst items) /\ extra props ps k) /\ (NoDup (map fst items) -> NoDup xs).
  Proof.
    intro items. destruct (C86_extras (map fst items)) as (xs & Ex & S & D). exists xs.
    split; [|split; assumption]. rewrite <- Ex. f_equal.
    - unfold patterns_of. destruct given; [reflexivity|]. rewrite given_ok by reflexivity. reflexivity.
    - rewrite !map_map. reflexivity.
  Qed.

  (** A schema for them: the errors are those of their values. *)
  Theorem C86_schema : forall d items, exists errors,
    rule_additionalProperties E descend (JDict d) (object_of items) props (patterns_of given) = Ok errors /\
    forall e, In e errors <-> exists k v x, e = At (KStr k) x /\ In (k, v) items /\ extra props ps k /\
      In x (descend v (JDict d)).
  Proof.
    intros d items. destruct (extras_of items) as (xs & Ex & S & _).
    cbn [rule_additionalProperties object_of]. rewrite Ex. cbn [rbind]. eexists. split; [reflexivity|].
    intro e. rewrite in_flat_map. split.
    - intros ((k & v) & I & J). apply filter_In in I. destruct I as [I F]. apply in_map_iff in I.
      destruct I as ((k' & v') & Eq & I). injection Eq as <- <-.
      apply in_map_iff in J. destruct J as (x & <- & J). exists k', v', x. split; [reflexivity|].
      split; [exact I|]. split; [|exact J]. apply existsb_exists in F. destruct F as (y & Iy & Ey).
      apply in_map_iff in Iy. destruct Iy as (z & <- & Iz). apply str_eqb_eq in Ey. simpl in Ey. subst z.
      apply S in Iz. tauto.
    - intros (k & v & x & -> & I & X & J). exists (KStr k, v). split; [|apply in_map; exact J].
      apply filter_In. split; [apply in_map_iff; exists (k, v); auto|]. apply existsb_exists.
      exists (KStr k). split; [|apply str_eqb_refl]. apply in_map. apply S. split; [|exact X].
      apply in_map_iff. exists (k, v). auto.
  Qed.

  (** None of them is allowed: one error, that lists them. *)
  Theorem C86_forbidden : forall aP items, truthy aP = false -> is_mapping aP = false ->
    NoDup (map fst items) ->
    exists xs, NoDup xs /\ (forall k, In k xs <-> In k (map fst items) /\ extra props ps k) /\
      rule_additionalProperties E descend aP (object_of items) props (patterns_of given)
      = Ok (match xs with
            | [] => []
            | _ => if given then [NotMatching (map KStr (sort str_leb xs)) (sort str_leb (map write ps))]
                   else [Unexpected (map KStr xs)]
            end).
  Proof.
    intros aP items T M ND. destruct (extras_of items) as (xs & Ex & S & D). exists xs.
    split; [auto|]. split; [exact S|].
    cbn [rule_additionalProperties object_of]. rewrite Ex. cbn [rbind].
    assert (G : forall ys, existsb (fun k => negb (is_text k)) (map KStr ys) = false)
      by (induction ys; [reflexivity|assumption]).
    assert (I : forall y ys, insert key_leb (KStr y) (map KStr ys) = map KStr (insert str_leb y ys)).
    { intros y ys. induction ys as [|z ys IH]; [reflexivity|]. simpl. destruct (str_leb y z); [reflexivity|].
      rewrite IH. reflexivity. }
    assert (So : forall ys, sort key_leb (map KStr ys) = map KStr (sort str_leb ys)).
    { induction ys as [|y ys IH]; [reflexivity|]. cbn [map].
      change (sort key_leb (KStr y :: map KStr ys)) with (insert key_leb (KStr y) (sort key_leb (map KStr ys))).
      rewrite IH. apply I. }
    assert (K : sorted_keys (map KStr xs) = Ok (map KStr (sort str_leb xs))).
    { unfold sorted_keys. rewrite G, andb_false_r, So. reflexivity. }
    destruct aP; try discriminate M; rewrite T; simpl negb; rewrite K; cbn [rbind andb];
      destruct xs as [|x xs]; try reflexivity; unfold patterns_of; destruct given; reflexivity.
  Qed.

  (** All of them are allowed. *)
  Theorem C86_allowed : forall aP items, truthy aP = true -> is_mapping aP = false ->
    rule_additionalProperties E descend aP (object_of items) props (patterns_of given) = Ok [].
  Proof.
    intros aP items T M. destruct (extras_of items) as (xs & Ex & _).
    cbn [rule_additionalProperties object_of]. rewrite Ex. cbn [rbind].
    destruct aP; try discriminate M; rewrite T; reflexivity.
  Qed.
End Rules.
Print Assumptions C86_extras.
Print Assumptions C86_schema.
Print Assumptions C86_forbidden.
Print Assumptions C86_allowed.

(** The lists are sorted. *)
Theorem C86_sorted : forall xs, Permutation xs (sort str_leb xs) /\
  Sorted (fun a b => str_leb a b = true) (sort str_leb xs).
Proof. intro xs. split; [apply sort_perm|apply sort_sorted; exact str_leb_total]. Qed.
Print Assumptions C86_sorted.

(** What is no object has no properties. *)
Theorem C86_not_object : forall E descend aP v props ps,
  rule_additionalProperties E descend aP (Other v) props ps = Ok [] /\
  rule_propertyNames E descend aP (Other v) = [].
Proof. intros. split; reflexivity. Qed.
Print Assumptions C86_not_object.

(** [propertyNames]: the errors of the names. *)
Theorem C86_names : forall E descend sch items e,
  In e (rule_propertyNames E descend sch (Object items)) <->
  exists k v x, In (k, v) items /\ e = OfName x /\
    In x (descend (match k with KStr s => JStr s | KNum z => JNum z end) sch).
Proof.
  intros E descend sch items e. simpl. rewrite in_flat_map. split.
  - intros ((k & v) & I & J). apply in_map_iff in J. destruct J as (x & <- & J). exists k, v, x. auto.
  - intros (k & v & x & I & -> & J). exists (k, v). split; [exact I|]. apply in_map. exact J.
Qed.
Print Assumptions C86_names.

(** The empty pattern is in every key, but alone it is ignored. *)
Theorem C86_empty_pattern_refuted : exists k,
  found (One Empty) k /\ find_additional_properties [] [write (One Empty)] [KStr k] = Ok [KStr k].
Proof.
  exists (lit "a"). split; [|reflexivity]. exists [], [], (lit "a"). split; reflexivity.
Qed.
Print Assumptions C86_empty_pattern_refuted.

(** "(word)\1" is found where the word is twice; *)
Theorem C86_reference : forall w s, Forall (fun c => ~ In c meta) w ->
  exists x, search (lit "(" ++ w ++ lit ")\1") s = Ok x /\ (x = true <-> exists b a, s = b ++ w ++ w ++ a).
Proof. exact search_twice. Qed.
Print Assumptions C86_reference.

(** references are to groups before them only. *)
Theorem C86_unknown_group : forall d, (49 <= d <= 57)%N -> compile [chr "\"; d] = Raise ReError.
Proof.
  intros d H. assert (I : In d [49; 50; 51; 52; 53; 54; 55; 56; 57]%N) by (cbn [In]; lia). cbn [In] in I.
  repeat (destruct I as [<-|I]; [vm_compute; reflexivity|]). destruct I.
Qed.
Print Assumptions C86_unknown_group.

(** The patterns are searched as one, where references mean groups of other patterns: keys that
    match the second pattern, and not the first, are additional. *)
Theorem C86_reference_refuted : exists w1 w2,
  let p1 := lit "(" ++ w1 ++ lit ")\1" in
  let p2 := lit "(" ++ w2 ++ lit ")\1" in
  search p1 (w2 ++ w2) = Ok false /\ search p2 (w2 ++ w2) = Ok true /\
  forall k, search p1 k = Ok false -> find_additional_properties [] [p1; p2] [KStr k] = Ok [KStr k].
Proof.
  exists (lit "a"), (lit "b"). cbv zeta. split; [reflexivity|]. split; [reflexivity|]. intros k E.
  assert (A : Forall (fun c => ~ In c meta) (lit "a")) by (constructor; [vm_compute; intuition discriminate|constructor]).
  assert (B : Forall (fun c => ~ In c meta) (lit "b")) by (constructor; [vm_compute; intuition discriminate|constructor]).
  destruct (search_twice (lit "a") k A) as (x & Ex & Sx). rewrite Ex in E. injection E as ->.
  destruct (search_two (lit "a") (lit "b") k A B) as (y & Ey & Sy).
  assert (Y : y = false).
  { destruct y; [|reflexivity]. symmetry. apply Sx, Sy. reflexivity. }
  subst y. cbn [find_additional_properties is_named existsb].
  change (is_matched (join (lit "|") [lit "(" ++ lit "a" ++ lit ")\1"; lit "(" ++ lit "b" ++ lit ")\1"]) (KStr k))
    with (search ((lit "(" ++ lit "a" ++ lit ")\1") ++ lit "|" ++ (lit "(" ++ lit "b" ++ lit ")\1")) k).
  rewrite Ey. reflexivity.
Qed.
Print Assumptions C86_reference_refuted.

(** Keys that are numbers cannot be searched, nor sorted among texts. *)
Theorem C86_number_key_refuted : (exists z,
    find_additional_properties [] [lit "a"] [KNum z] = Raise TypeError) /\
  (exists z k, forall E descend, rule_additionalProperties E descend (JBool false)
     (Object [(KNum z, JNull); (KStr k, JNull)]) [] (Some []) = Raise TypeError).
Proof. split; [exists 1%Z; reflexivity|]. exists 1%Z, (lit "a"). reflexivity. Qed.
Print Assumptions C86_number_key_refuted.

(** "^x-" and "^(a|b+)$" *)
Example C86_example :
  let p1 := One (Start (Char (Letter 120) Once (Char (Letter 45) Once Empty))) in
  let p2 := One (Start (Group (Or (Char (Letter 97) Once Empty) (One (Char (Letter 98) Some1 Empty)))
                          (Finish Empty))) in
  ok p1 /\ ok p2 /\ map show [write p1; write p2] = ["^x-"; "^(a|b+)$"]%string /\
  rule_additionalProperties nat (fun v _ => match v with JNull => [7] | _ => [] end) (JBool false)
    (Object (map (fun k => (KStr (lit k), JNull)) ["x-y"; "bb"; "q"; "name"; "ab"]%string))
    [lit "name"] (Some [write p1; write p2])
  = Ok [NotMatching [KStr (lit "ab"); KStr (lit "q")] [lit "^(a|b+)$"; lit "^x-"]].
Proof. repeat split; vm_compute; intuition discriminate. Qed.

Example C86_schema_example :
  rule_additionalProperties nat (fun v _ => match v with JNull => [7] | _ => [] end) (JDict [])
    (Object (map (fun k => (KStr (lit k), JNull)) ["a"; "q"; "name"]%string)) [lit "name"] (Some [lit "a.?"])
  = Ok [At (KStr (lit "q")) 7].
Proof. reflexivity. Qed.

Example C86_python_re :
  map (fun ps => search (lit (fst ps)) (lit (snd ps)))
    [("(a(b))\2", "xabb"); ("a.c$", "xabc"); ("", ""); ("b|^a", "ca"); ("\.\*", "a.*"); ("x?y+", "y")]%string
  = [Ok true; Ok true; Ok true; Ok false; Ok true; Ok true] /\
  map (fun p => compile (lit p)) ["(a"; "a)"; "*a"; "a|+"; "(\1)"; "\2(a)"; "\"]%string
  = repeat (Raise ReError) 7.
Proof. split; reflexivity. Qed.
