(** * Properties C09-C15: path mappings *)
From Coq Require Import String.
From Verif Require Import PyBase PyBase_Proofs Json JsonPointer_Model JsonPointer_Spec
  JsonPointer_Proofs Paths_Model Paths_Spec Paths_Proofs
  Pmod_Model Pmod_Spec Pmod_Proofs PmodMap_Proofs PmodTuples_Proofs.

(** A regex engine for the examples: the pattern [xyz*] matches the texts that
    start with [xyz], the match being the rest; templates are extended with it. *)
Definition ex_fullmatch (r s : pystr) : option pystr :=
  if ends_with (lit "*") r then
    if starts_with (removelast r) s then Some (skipn (length r - 1) s) else None
  else if str_eqb r s then Some [] else None.
Definition ex_expand (m t : pystr) : res pystr := Ok (t ++ m).
Definition leaf (a : pystr) := Pmod (Some a) [] [].

(** ** C09 *)

Theorem C09_merge_assoc : forall a b c, wf a -> wf b -> wf c ->
  merge (merge a b) c = merge a (merge b c).
Proof. exact (fun a b c => merge_assoc c a b). Qed.
Print Assumptions C09_merge_assoc.

Theorem C09_merge_unit : forall a, merge a empty_pmod = a /\ merge empty_pmod a = a.
Proof. exact (fun a => conj (merge_empty_r a) (merge_empty_l a)). Qed.
Print Assumptions C09_merge_unit.

Theorem C09_merge_idempotent : forall a, wf a -> merge a a = a.
Proof. exact merge_idem. Qed.
Print Assumptions C09_merge_idempotent.

Theorem C09_merge_wf : forall a b, wf a -> wf b -> wf (merge a b).
Proof. exact (fun a b => wf_merge b a). Qed.
Print Assumptions C09_merge_wf.

Definition pm1 := Pmod (Some (lit "pm1")) []
  [(lit "d", leaf (lit "D")); (lit "a", leaf (lit "A")); (lit "c", leaf (lit "C"))].
Definition pm2 := Pmod (Some (lit "pm2")) [(lit "x", leaf (lit "X"))]
  [(lit "b", leaf (lit "BB")); (lit "a", leaf (lit "AA"))].

Ltac show_wf :=
  repeat (match goal with
          | |- wf _ => constructor
          | |- NoDup _ => constructor
          | |- ~ In _ _ => cbn; intuition discriminate
          | |- forall k c, In (k, c) _ -> wf c => intros k c Hin; cbn in Hin;
              repeat (destruct Hin as [Hin|Hin]; [inversion Hin; subst|]); try (destruct Hin)
          end).

Example C09_example :
  wf pm1 /\ wf pm2
  /\ map (fun kv => (show (fst kv), option_map show (p_alias (snd kv)))) (p_regxs (merge pm1 pm2))
     = [("d", Some "D"); ("c", Some "C"); ("b", Some "BB"); ("a", Some "AA")]%string
  /\ map (fun kv => (show (fst kv), option_map show (p_alias (snd kv)))) (p_regxs (merge pm2 pm1))
     = [("b", Some "BB"); ("d", Some "D"); ("a", Some "A"); ("c", Some "C")]%string.
Proof. split; [show_wf|]. split; [show_wf|]. split; reflexivity. Qed.

(** ** C10 *)

Theorem C10_merge_overrides : forall a b, wf a -> wf b -> overrides a b (merge a b).
Proof. exact (fun a b => merge_overrides b a). Qed.
Print Assumptions C10_merge_overrides.

Example C10_example :
  let m := merge (Pmod (Some (lit "p")) [(lit "a", Pmod (Some (lit "A")) [(lit "k", leaf (lit "K"))] [])] [])
                 (Pmod None [(lit "a", Pmod None [(lit "k", leaf (lit "L"))] []); (lit "b", leaf (lit "B"))] []) in
  m = Pmod (Some (lit "p")) [(lit "a", Pmod (Some (lit "A")) [(lit "k", leaf (lit "L"))] []); (lit "b", leaf (lit "B"))] [].
Proof. reflexivity. Qed.

(** ** C11 *)

Theorem C11_alias_meaning : forall M fullmatch expand p step x, wf p ->
  (alias_ M fullmatch expand p step = x <-> aliased M fullmatch expand p step x).
Proof. exact aliased_iff. Qed.
Print Assumptions C11_alias_meaning.

Theorem C11_descend_agrees : forall M fullmatch expand p step pm a, wf p ->
  descend M fullmatch expand p step = Ok (pm, a) ->
  alias_ M fullmatch expand p step = Ok a
  /\ below M fullmatch p step pm
  /\ (pm <> None <-> hits M fullmatch p step)
  /\ (pm = None -> a = None).
Proof.
  intros M fm ex p step pm a Hw H. rewrite descend_alias in H by exact Hw.
  destruct (alias_ M fm ex p step) as [a'|e] eqn:E; [|discriminate]. inversion H; subst.
  split; [reflexivity|]. split; [apply below_of_below; exact Hw|].
  split; [apply below_of_hits; exact Hw|]. intro Hn.
  rewrite (no_hits_no_alias M fm ex p step Hw Hn) in E. congruence.
Qed.
Print Assumptions C11_descend_agrees.

Theorem C11_descend_raises : forall M fullmatch expand p step e, wf p ->
  (descend M fullmatch expand p step = Raise e <-> alias_ M fullmatch expand p step = Raise e).
Proof.
  intros M fm ex p step e Hw. rewrite descend_alias by exact Hw.
  destruct (alias_ M fm ex p step); split; congruence.
Qed.
Print Assumptions C11_descend_raises.

Example C11_example :
  let p := Pmod None [(lit "abc", Pmod None [(lit "z", leaf (lit "Z"))] [])]
                [(lit "a*", leaf (lit "one_")); (lit "ab*", leaf (lit "two_")); (lit "q*", leaf (lit "Q"))] in
  wf p
  /\ alias_ pystr ex_fullmatch ex_expand p (lit "abc") = Ok (Some (lit "two_c"))
  /\ alias_ pystr ex_fullmatch ex_expand p (lit "ax") = Ok (Some (lit "one_x"))
  /\ descend pystr ex_fullmatch ex_expand p (lit "nope") = Ok (None, None)
  /\ descend pystr ex_fullmatch ex_expand p (lit "abc")
     = Ok (Some (Pmod (Some (lit "two_")) [(lit "z", leaf (lit "Z"))] []), Some (lit "two_c")).
Proof. split; [show_wf|]. repeat split; reflexivity. Qed.

(** ** C12 *)

(** Without any mapping at all, a path with an escaped slash is still changed, and
    a trailing slash is lost. *)
Theorem C12_no_mapping_identity_refuted :
  exists path path', forall M fullmatch expand,
    map_path M fullmatch expand empty_pmod path = Ok (lit "/a/b") /\ path = lit "/a~1b"
    /\ map_path M fullmatch expand empty_pmod path' = Ok (lit "/a") /\ path' = lit "/a/".
Proof. exists (lit "/a~1b"), (lit "/a/"). intros. repeat split; reflexivity. Qed.
Print Assumptions C12_no_mapping_identity_refuted.

(** For absolute paths of plain names without escapes it holds. *)
Theorem C12_map_path_identity : forall M fullmatch expand p names,
  wf p -> p_alias p = None -> names <> [] -> Forall plain names ->
  (forall n, In n names -> ~ In 47%N n /\ unescapes n n) ->
  unmapped M fullmatch expand (Some p) ([] :: names) ->
  map_path M fullmatch expand p (join [47%N] ([] :: names)) = Ok (join [47%N] ([] :: names)).
Proof. exact map_path_identity. Qed.
Print Assumptions C12_map_path_identity.

Example C12_example :
  let p := Pmod None [([], Pmod None [(lit "a", Pmod None [(lit "q", leaf (lit "Q"))] [])] [(lit "z*", leaf (lit "Z"))])] [] in
  wf p
  /\ unmapped pystr ex_fullmatch ex_expand (Some p) [[]; lit "b"; lit "q"]
  /\ map_path pystr ex_fullmatch ex_expand p (lit "/b/q") = Ok (lit "/b/q")
  /\ map_path pystr ex_fullmatch ex_expand p (lit "/a/q") = Ok (lit "/a/Q").
Proof.
  cbn zeta. set (p := Pmod None _ _).
  assert (Hw : wf p) by show_wf.
  split; [exact Hw|]. split; [|split; reflexivity].
  apply Um_some.
  - apply aliased_iff; [exact Hw|reflexivity].
  - intros pm' Hb. inversion Hb as [Hn|ps cs q qs m Hm Hc Ha Ho]; subst; [constructor|].
    inversion Hm; subst.
    destruct Hc as [(c & Hc & ->)|[Hno _]];
      [|exfalso; apply (Hno (Pmod None [(lit "a", Pmod None [(lit "q", leaf (lit "Q"))] [])] [(lit "z*", leaf (lit "Z"))])); left; reflexivity].
    destruct Hc as [Hc|[]]. inversion Hc; subst. cbn in Ha. inversion Ha; subst.
    inversion Ho; subst.
    set (q0 := Pmod None [(lit "a", Pmod None [(lit "q", leaf (lit "Q"))] [])] [(lit "z*", leaf (lit "Z"))]).
    assert (Hq : wf q0) by show_wf.
    apply Um_some; [apply aliased_iff; [exact Hq|reflexivity]|].
    intros pm' Hb'. destruct pm' as [x|]; [|constructor]. exfalso.
    inversion Hb' as [|ps cs q qs m' Hm' Hc' Ha' Ho']; subst.
    inversion Hm' as [|? ? ? ? Hy Hr|? ? ? ? Hy Hr]; subst.
    + destruct Hy as (mm & E). vm_compute in E. discriminate.
    + inversion Hr; subst. destruct Hc' as [(c & Hc' & ->)|[_ ->]]; [|discriminate].
      destruct Hc' as [Hc'|[]]. inversion Hc'.
Qed.

(** ** C13 *)

Theorem C13_map_path_stepwise : forall M fullmatch expand p path r, wf p ->
  map_path M fullmatch expand p path = Ok r ->
  exists steps pre news,
    written_steps path steps
    /\ (match p_alias p with Some a => steps_of a pre | None => pre = [] end)
    /\ mapped M fullmatch expand (Some p) steps news
    /\ r = join_paths (pre ++ news)
    /\ ((forall s, In s (pre ++ news) -> ~ In 47%N s) ->
        forall f g, text_walks f r g <-> walks f (pre ++ news) g).
Proof.
  intros M fm ex p path r Hw H.
  destruct (map_path_mapped M fm ex p path r Hw H) as (steps & pre & news & H1 & H2 & H3 & ->).
  exists steps, pre, news. repeat (split; [assumption || reflexivity|]).
  intros Hs f g. symmetry. apply join_paths_meaning. exact Hs.
Qed.
Print Assumptions C13_map_path_stepwise.

(** The only exceptions are those of expanding a template. *)
Theorem C13_map_path_raises : forall M fullmatch expand p path e,
  map_path M fullmatch expand p path = Raise e -> exists m t, expand m t = Raise e.
Proof. exact map_path_raise. Qed.
Print Assumptions C13_map_path_raises.

Example C13_example :
  let p := Pmod None [([], Pmod None
     [(lit "a", Pmod (Some (lit "A/AA")) [(lit "b", leaf (lit "/top")); (lit "c", leaf (lit "../C"))] [])]
     [(lit "x*", leaf (lit "y"))])] [] in
  wf p
  /\ map_path pystr ex_fullmatch ex_expand p (lit "/a/k") = Ok (lit "/A/AA/k")
  /\ map_path pystr ex_fullmatch ex_expand p (lit "/a/b/k") = Ok (lit "/top/k")
  /\ map_path pystr ex_fullmatch ex_expand p (lit "/a/c/k") = Ok (lit "/A/AA/C/k")
  /\ map_path pystr ex_fullmatch ex_expand p (lit "/x1") = Ok (lit "/y1").
Proof. split; [show_wf|]. repeat split; reflexivity. Qed.

(** ** C14 *)

Theorem C14_last_declared_alias : forall compiles ts l p ds q t,
  counted ts l -> pmods_from_tuples compiles ts = Ok p -> node_at p ds q ->
  (p_alias q = Some t <->
   exists l1 l2, l = l1 ++ (ds, t) :: l2 /\ forall dt, In dt l2 -> fst dt <> ds).
Proof. exact pft_alias. Qed.
Print Assumptions C14_last_declared_alias.

Theorem C14_declared_paths_only : forall compiles ts l p ds,
  counted ts l -> pmods_from_tuples compiles ts = Ok p ->
  ((exists q, node_at p ds q) <-> ds = [] \/ exists more t, In (ds ++ more, t) l).
Proof. exact pft_exists. Qed.
Print Assumptions C14_declared_paths_only.

Theorem C14_raises : forall compiles ts l, counted ts l ->
  ((exists e, pmods_from_tuples compiles ts = Raise e) <->
   exists ds t r, In (ds, t) l /\ In (DRegex r) ds /\ compiles r = false).
Proof. exact pft_raise. Qed.
Print Assumptions C14_raises.

(** Every list of tuples has exactly one reading, and the result is well-formed. *)
Theorem C14_counted_total : forall ts, exists l, counted ts l /\ forall l', counted ts l' -> l' = l.
Proof.
  intro ts. exists (map dtagged (kept ts)). split; [exact (proj2 (counted_kept (fun _ => true) _ _) eq_refl)|].
  intros l' H. apply (counted_kept (fun _ => true)) in H. congruence.
Qed.
Print Assumptions C14_counted_total.

Theorem C14_result_wf : forall compiles ts p, pmods_from_tuples compiles ts = Ok p -> wf p.
Proof. exact pft_wf. Qed.
Print Assumptions C14_result_wf.

Example C14_example :
  let ts := [(Some (lit "/a"), Some (lit "A1/A2")); (Some (lit "/a/b"), Some (lit "B"));
             (Some (lit ""), Some (lit "")); (None, Some (lit "z")); (Some (lit "/a"), Some (lit "A3"))] in
  counted ts [([DName []; DName (lit "a")], lit "A1/A2");
              ([DName []; DName (lit "a"); DName (lit "b")], lit "B");
              ([DName []; DName (lit "a")], lit "A3")]
  /\ pmods_from_tuples (fun _ => true) ts
     = Ok (Pmod None [([], Pmod None [(lit "a", Pmod (Some (lit "A3")) [(lit "b", leaf (lit "B"))] [])] [])] []).
Proof. split; [apply (proj2 (counted_kept (fun _ => true) _ _)); reflexivity|reflexivity]. Qed.

(** ** C15 *)

Theorem C15_regexes_by_last_mention : forall compiles ts l p ds q,
  counted ts l -> pmods_from_tuples compiles ts = Ok p -> node_at p ds q ->
  NoDup (map fst (p_regxs q))
  /\ (forall r, In r (map fst (p_regxs q)) <-> exists dt, In dt l /\ mentions ds r dt)
  /\ (forall r1 r2, before (map fst (p_regxs q)) r1 r2 -> later_mentioned l ds r1 r2).
Proof. exact pft_regxs. Qed.
Print Assumptions C15_regexes_by_last_mention.

(** So the regex mentioned last among the matching ones decides the alias. *)
Theorem C15_later_regex_wins : forall M fullmatch expand compiles ts l p ds q step r m t rp,
  counted ts l -> pmods_from_tuples compiles ts = Ok p -> node_at p ds q ->
  (forall c, child q step c -> p_alias c = None) ->
  rchild q r rp -> p_alias rp = Some t -> fullmatch r step = Some m ->
  (forall r' rp', rchild q r' rp' -> r' <> r -> matches M fullmatch r' step -> p_alias rp' <> None ->
     ~ later_mentioned l ds r r') ->
  aliased M fullmatch expand q step (match expand m t with Ok x => Ok (Some x) | Raise e => Raise e end).
Proof. exact later_wins. Qed.
Print Assumptions C15_later_regex_wins.

(** A regex that begins with 0 or 1 is not taken as a regex: [~0] and [~1] are
    unescaped first. *)
Theorem C15_tilde_digit_regex_refuted :
  exists r, forall compiles, exists p,
    pmods_from_tuples compiles [(Some (126%N :: r), Some (lit "X"))] = Ok p
    /\ p_regxs p = [] /\ p_steps p <> [].
Proof.
  exists (lit "1.*"). intro c. eexists. split; [reflexivity|]. split; [reflexivity|discriminate].
Qed.
Print Assumptions C15_tilde_digit_regex_refuted.

Example C15_example :
  let ts := [(Some (lit "~a*"), Some (lit "one")); (Some (lit "~ab*"), Some (lit "two"));
             (Some (lit "~a*/k"), Some (lit "K"))] in
  pmods_from_tuples (fun _ => true) ts
  = Ok (Pmod None [] [(lit "ab*", leaf (lit "two")); (lit "a*", Pmod (Some (lit "one")) [(lit "k", leaf (lit "K"))] [])])
  /\ (forall p, pmods_from_tuples (fun _ => true) ts = Ok p ->
      alias_ pystr ex_fullmatch ex_expand p (lit "abc") = Ok (Some (lit "onebc"))).
Proof. split; [reflexivity|]. intros p H. inversion H; subst. reflexivity. Qed.
