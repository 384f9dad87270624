(** * Properties C01-C06, C55, C56: JSON pointers and paths *)
From Coq Require Import String.
From Verif Require Import PyBase PyBase_Proofs Json JsonPointer_Model JsonPointer_Spec JsonPointer_Proofs.

(** ** C01 *)

Theorem C01_unescape_escape : forall s, unescape_part (escape_part s) = s.
Proof. exact unescape_escape. Qed.
Print Assumptions C01_unescape_escape.

Theorem C01_escape_charwise : forall s, escape_part s = flat_map esc_char s.
Proof. exact escape_charwise. Qed.
Print Assumptions C01_escape_charwise.

Theorem C01_escape_no_slash : forall s, ~ In 47%N (escape_part s).
Proof. exact escape_no_slash. Qed.
Print Assumptions C01_escape_no_slash.

Theorem C01_escape_injective : forall a b, escape_part a = escape_part b -> a = b.
Proof. exact escape_injective. Qed.
Print Assumptions C01_escape_injective.

(** The two successive replacements read every text, escaped or not, token by
    token from the left. *)
Theorem C01_unescape_tokens : forall s t, unescape_part s = t <-> unescapes s t.
Proof. exact unescape_spec. Qed.
Print Assumptions C01_unescape_tokens.

Example C01_example :
  escape_part (lit "a/~1~0/b") = lit "a~1~01~00~1b"
  /\ unescape_part (lit "a~1~01~00~1b") = lit "a/~1~0/b".
Proof. split; reflexivity. Qed.

(** ** C02 *)

Theorem C02_parts_of_pointer : forall parts, iter_parts (pointer_of parts) = Ok parts.
Proof. exact iter_parts_pointer_of. Qed.
Print Assumptions C02_parts_of_pointer.

Theorem C02_relaxed_parts : forall parts, parts <> [] ->
  iter_parts_relaxed (join [47%N] (map (flat_map esc_char) parts)) = parts.
Proof.
  intros parts H. rewrite (map_ext _ _ (fun s => eq_sym (escape_charwise s))).
  exact (iter_parts_relaxed_join parts H).
Qed.
Print Assumptions C02_relaxed_parts.

Theorem C02_strict_raises : forall p e,
  iter_parts p = Raise e <-> (e = RefResolutionError /\ exists c p', p = c :: p' /\ c <> 47%N).
Proof. exact iter_parts_raise. Qed.
Print Assumptions C02_strict_raises.

Example C02_example :
  pointer_of [lit "a/b"; []; lit "~"] = lit "/a~1b//~0"
  /\ iter_parts (lit "/a~1b//~0") = Ok [lit "a/b"; []; lit "~"]
  /\ iter_parts_relaxed (lit "a/../b/.") = [lit "a"; lit ".."; lit "b"; lit "."]
  /\ iter_parts (lit "a") = Raise RefResolutionError.
Proof. repeat split; reflexivity. Qed.

(** ** C03 *)

Theorem C03_resolve_is_reaching : forall doc ptr parts dflt,
  iter_parts ptr = Ok parts ->
  (exists v, reaches doc parts v /\ resolve_jsonpointer doc ptr dflt = Ok v)
  \/ ((forall v, ~ reaches doc parts v) /\
      resolve_jsonpointer doc ptr dflt =
        match dflt with Some d => Ok d | None => Raise RefResolutionError end).
Proof. exact resolve_jsonpointer_spec. Qed.
Print Assumptions C03_resolve_is_reaching.

Theorem C03_reaches_functional : forall doc ps v w,
  reaches doc ps v -> reaches doc ps w -> v = w.
Proof. exact (fun doc ps v w H => reaches_fun doc ps v H w). Qed.
Print Assumptions C03_reaches_functional.

(** The index of a list element, written in decimal, reaches that element. *)
Theorem C03_decimal_index : forall l (i : nat) v ps w,
  nth_error l i = Some v -> reaches v ps w ->
  reaches (JList l) (str_of_Z (Z.of_nat i) :: ps) w.
Proof.
  intros l i v ps w Hn Hr. apply (R_index l _ (Z.of_nat i) v ps w).
  - apply py_int_str_of_Z.
  - left. split; [lia|]. rewrite Nat2Z.id. exact Hn.
  - exact Hr.
Qed.
Print Assumptions C03_decimal_index.

Definition doc3 := JDict [(lit "foo", JNum 1); (lit "bar", JList [JNum 11; JDict [(lit "a/b", JNum 222)]])].
Example C03_example :
  resolve_jsonpointer doc3 (lit "/bar/1/a~1b") None = Ok (JNum 222)
  /\ resolve_jsonpointer doc3 (lit "/bar/-1/a~1b") None = Ok (JNum 222)
  /\ resolve_jsonpointer doc3 (lit "") None = Ok doc3
  /\ resolve_jsonpointer doc3 (lit "/bar/2") None = Raise RefResolutionError
  /\ resolve_jsonpointer doc3 (lit "/foo/x") (Some JNull) = Ok JNull.
Proof. repeat split; reflexivity. Qed.

(** ** C04 *)

(** The full claim does not hold: an index counted from the end that falls
    before the first element silently appends. *)
Theorem C04_set_then_resolve_refuted :
  exists doc ptr v doc',
    set_jsonpointer doc ptr v = (doc', None) /\ resolve_jsonpointer doc' ptr None <> Ok v.
Proof.
  exists (JList [JNum 1; JNum 2]), (lit "/-5"), (JNum 7), (JList [JNum 1; JNum 2; JNum 7]).
  split; [reflexivity|]. vm_compute. discriminate.
Qed.
Print Assumptions C04_set_then_resolve_refuted.

(** It holds whenever lists are indexed from the front. *)
Theorem C04_set_then_resolve : forall doc ptr parts v doc' dflt,
  iter_parts ptr = Ok parts -> front_indexed doc parts ->
  set_jsonpointer doc ptr v = (doc', None) ->
  resolve_jsonpointer doc' ptr dflt = Ok v.
Proof. exact set_then_resolve. Qed.
Print Assumptions C04_set_then_resolve.

(** In all cases the document afterwards is the one described by [written]. *)
Theorem C04_set_written : forall doc ptr parts v doc',
  iter_parts ptr = Ok parts -> set_jsonpointer doc ptr v = (doc', None) ->
  parts <> [] /\ written doc parts v doc'.
Proof. exact set_jsonpointer_written. Qed.
Print Assumptions C04_set_written.

Example C04_example :
  let doc := JDict [(lit "foo", JStr (lit "bar")); (lit "l", JList [JNum 0])] in
  front_indexed doc [lit "l"; lit "1"; lit "k"]
  /\ set_jsonpointer doc (lit "/l/1/k") (JNum 5)
     = (JDict [(lit "foo", JStr (lit "bar")); (lit "l", JList [JNum 0; JDict [(lit "k", JNum 5)]])], None)
  /\ set_jsonpointer doc (lit "/foo/x/y") (JNum 5)
     = (JDict [(lit "foo", JDict [(lit "x", JDict [(lit "y", JNum 5)])]); (lit "l", JList [JNum 0])], None).
Proof.
  split; [|split; reflexivity].
  apply F_dict. intros c H. inversion H; subst.
  apply (F_list _ _ 1%Z); [reflexivity|lia|]. intros c' H'. discriminate.
Qed.

(** ** C05 *)

Theorem C05_set_frame : forall doc ptr parts v doc' qtr qs dflt,
  iter_parts ptr = Ok parts -> iter_parts qtr = Ok qs -> diverge doc parts qs ->
  set_jsonpointer doc ptr v = (doc', None) ->
  resolve_jsonpointer doc' qtr dflt = resolve_jsonpointer doc qtr dflt.
Proof. exact set_frame. Qed.
Print Assumptions C05_set_frame.

Example C05_example :
  diverge (JDict [(lit "l", JList [JNum 0; JNum 1])]) [lit "l"; lit "-"] [lit "l"; lit "1"]
  /\ fst (set_jsonpointer (JDict [(lit "l", JList [JNum 0; JNum 1])]) (lit "/l/-") (JNum 5))
     = JDict [(lit "l", JList [JNum 0; JNum 1; JNum 5])].
Proof.
  split; [|reflexivity].
  eapply D_dict_eq; [reflexivity|].
  eapply (D_list_front _ _ _ 2 1%Z); [constructor|reflexivity|lia|discriminate].
Qed.

(** ** C06 *)

(** The claim fails for the empty pointer, contrary to the docstring, and for
    documents that are not containers. *)
Theorem C06_only_RefResolutionError_refuted :
  exists doc ptr v e,
    snd (set_jsonpointer doc ptr v) = Some e /\ e <> RefResolutionError /\ container doc = true.
Proof.
  exists (JDict [(lit "a", JNum 1)]), [], JNull, UnboundLocalError.
  repeat split; discriminate.
Qed.
Print Assumptions C06_only_RefResolutionError_refuted.

Theorem C06_scalar_document_refuted :
  exists doc ptr v e,
    snd (set_jsonpointer doc ptr v) = Some e /\ e <> RefResolutionError /\ ptr <> [].
Proof. exists (JNum 1), (lit "/a"), JNull, TypeError. repeat split; discriminate. Qed.
Print Assumptions C06_scalar_document_refuted.

(** For dict and list documents and non-empty pointers, it fails exactly when
    the pointer is not absolute or meets a list with an invalid index, always
    with RefResolutionError. *)
Theorem C06_set_errors : forall doc ptr v, container doc = true -> ptr <> [] ->
  (exists doc', set_jsonpointer doc ptr v = (doc', None) /\
     exists parts, iter_parts ptr = Ok parts /\ ~ bad_index doc parts)
  \/ (set_jsonpointer doc ptr v = (doc, Some RefResolutionError) /\
      (iter_parts ptr = Raise RefResolutionError \/
       exists parts, iter_parts ptr = Ok parts /\ bad_index doc parts)).
Proof. exact set_errors. Qed.
Print Assumptions C06_set_errors.

(** Whatever the exception, nothing was modified. *)
Theorem C06_error_leaves_document : forall doc ptr v doc' e,
  set_jsonpointer doc ptr v = (doc', Some e) -> doc' = doc.
Proof. exact set_error_unmodified. Qed.
Print Assumptions C06_error_leaves_document.

Example C06_example :
  set_jsonpointer (JDict [(lit "l", JList [JNum 0; JNum 1])]) (lit "/l/3") JNull
    = (JDict [(lit "l", JList [JNum 0; JNum 1])], Some RefResolutionError)
  /\ set_jsonpointer (JList [JNum 0]) (lit "/x") JNull = (JList [JNum 0], Some RefResolutionError)
  /\ bad_index (JList [JNum 0]) [lit "2"].
Proof.
  split; [reflexivity|]. split; [reflexivity|]. apply B_here. intros i H.
  assert (P : py_int (lit "2") = Some 2%Z) by reflexivity.
  remember (lit "2") as two eqn:E2. remember (length [JNum 0]) as n eqn:En. cbn in En.
  destruct H as [|p z Hne Hp Hr|p z Hne Hp Hr|p z Hne Hp Hr]; [discriminate E2|..];
    rewrite P in Hp; inversion Hp; lia.
Qed.

(** ** C55: [resolve_path] *)

Theorem C55_extends_resolve_jsonpointer : forall attr doc ptr v dflt,
  no_empty_name attr doc -> resolve_jsonpointer doc ptr None = Ok v ->
  resolve_path attr doc ptr dflt None = Ok v.
Proof. exact resolve_path_extends. Qed.
Print Assumptions C55_extends_resolve_jsonpointer.

Theorem C55_absolute_from_root : forall attr doc root path dflt,
  no_empty_name attr doc -> truthy root = true ->
  resolve_path attr doc (47%N :: path) dflt (Some root)
  = resolve_path attr root path dflt (Some root).
Proof. exact resolve_path_absolute. Qed.
Print Assumptions C55_absolute_from_root.

Theorem C55_outcomes : forall attr doc path dflt root,
  (exists v, resolve_path attr doc path None root = Ok v /\ resolve_path attr doc path dflt root = Ok v)
  \/ (resolve_path attr doc path None root = Raise RefResolutionError /\
      resolve_path attr doc path dflt root =
        match dflt with Some d => Ok d | None => Raise RefResolutionError end).
Proof. exact resolve_path_outcomes. Qed.
Print Assumptions C55_outcomes.

(** An empty root document is not used: the absolute path is looked up in the
    relative document instead. *)
Theorem C55_empty_root_ignored_refuted :
  exists doc root path,
    no_empty_name (fun _ _ => None) doc /\
    resolve_path (fun _ _ => None) doc (47%N :: path) None (Some root)
    <> resolve_path (fun _ _ => None) root path None (Some root).
Proof.
  exists (JDict [(lit "a", JNum 1)]), (JDict []), (lit "a").
  split; [split; [reflexivity|intros d H; inversion H; reflexivity]|]. vm_compute. discriminate.
Qed.
Print Assumptions C55_empty_root_ignored_refuted.

(** Without a root, an absolute path inside a path restarts from the element
    reached so far, not from the document given. *)
Theorem C55_inner_root_is_current_refuted :
  exists doc path, no_empty_name (fun _ _ => None) doc /\
    resolve_path (fun _ _ => None) doc (lit "a//" ++ path) None None
    <> resolve_path (fun _ _ => None) doc path None None.
Proof.
  exists (JDict [(lit "a", JDict [(lit "b", JNum 1)]); (lit "b", JNum 2)]), (lit "b").
  split; [split; [reflexivity|intros d H; inversion H; reflexivity]|]. vm_compute. discriminate.
Qed.
Print Assumptions C55_inner_root_is_current_refuted.

Example C55_example :
  let doc := JDict [(lit "a", JList [JNum 5])] in
  let root := JDict [(lit "b", JNum 6)] in
  no_empty_name (fun _ _ => None) doc
  /\ resolve_path (fun _ _ => None) doc (lit "a/0") None (Some root) = Ok (JNum 5)
  /\ resolve_path (fun _ _ => None) doc (lit "/b") None (Some root) = Ok (JNum 6)
  /\ resolve_path (fun _ _ => None) doc (lit "/a/0") None None = Ok (JNum 5).
Proof.
  split; [split; [reflexivity|intros d H; inversion H; reflexivity]|]. repeat split; reflexivity.
Qed.

(** ** C56: [build_all_jsonpaths] *)

Theorem C56_paths_are_leaves : forall s p,
  In p (build_all_jsonpaths s) <->
  exists names, schema_leaf forks_of props_of s names /\ p = slashed names.
Proof. exact build_all_jsonpaths_spec. Qed.
Print Assumptions C56_paths_are_leaves.

Example C56_example :
  build_all_jsonpaths
    (Schema [] [(lit "a", Schema [Schema [] [(lit "x", Schema [] [])]] [(lit "b", Schema [] [])]);
                (lit "c", Schema [] [])])
  = [lit "/a/x"; lit "/a/b"; lit "/c"].
Proof. reflexivity. Qed.
