(** * The project's own examples, run on the model: pointers of [/repo/pandalone/pandata.py]

    The tests are those of [/repo/tests/test_pandata.py], whose line numbers are given.  Keys
    that are numbers are written as texts no pointer reads; [None] is not a pointer here. *)
From Coq Require Import String.
From Verif Require Import PyBase Json JsonPointer_Model.
Local Open Scope string_scope.
Local Open Scope list_scope.

Definition S (l : list string) : list pystr := map (fun s => lit s) l.
Definition field (j : json) (k : string) : option json := match j with JDict d => sget (lit k) d | _ => None end.
(** :90-100 *)
Example test_jsonpointer_escape_parts :
  unescape_part (escape_part (lit "hi/there")) = lit "hi/there" /\ unescape_part (escape_part (lit "hi~there")) = lit "hi~there"
  /\ unescape_part (escape_part (lit "/hi~there/")) = lit "/hi~there/".
Proof. repeat split; vm_compute; reflexivity. Qed.
(** :102-104 *)
Example test_iter_jsonpointer_empty :
  iter_parts (lit "") = Ok (S [])
  /\ iter_parts_relaxed (lit "") = (S [""]).
Proof. repeat split; vm_compute; reflexivity. Qed.
(** :106-108 *)
Example test_iter_jsonpointer_root :
  iter_parts (lit "/") = Ok (S [""])
  /\ iter_parts_relaxed (lit "/") = (S [""; ""]).
Proof. repeat split; vm_compute; reflexivity. Qed.
(** :110-117 *)
Example test_iter_jsonpointer_regular :
  iter_parts (lit "/a") = Ok (S ["a"])
  /\ iter_parts_relaxed (lit "/a") = (S [""; "a"])
  /\ iter_parts (lit "/a/b") = Ok (S ["a"; "b"])
  /\ iter_parts_relaxed (lit "/a/b") = (S [""; "a"; "b"]).
Proof. repeat split; vm_compute; reflexivity. Qed.
(** :119-121 *)
Example test_iter_jsonpointer_folder :
  iter_parts (lit "/a/") = Ok (S ["a"; ""])
  /\ iter_parts_relaxed (lit "/a/") = (S [""; "a"; ""]).
Proof. repeat split; vm_compute; reflexivity. Qed.
(** :123-127 *)
Example test_iter_jsonpointer_non_absolute :
  iter_parts (lit "a") = Raise RefResolutionError
  /\ iter_parts (lit "a/b") = Raise RefResolutionError.
Proof. repeat split; vm_compute; reflexivity. Qed.
(** :135-144 *)
Example test_iter_jsonpointer_with_spaces :
  iter_parts (lit "/ some ") = Ok (S [" some "])
  /\ iter_parts (lit "/ some /  ") = Ok (S [" some "; "  "])
  /\ iter_parts_relaxed (lit " some ") = (S [" some "])
  /\ iter_parts_relaxed (lit " some /  ") = (S [" some "; "  "]).
Proof. repeat split; vm_compute; reflexivity. Qed.
(** :146-174 *)
Example test_iter_jsonpointer_massive :
  iter_parts (lit "/a") = Ok (S ["a"])
  /\ iter_parts (lit "/a/") = Ok (S ["a"; ""])
  /\ iter_parts (lit "/a/b") = Ok (S ["a"; "b"])
  /\ iter_parts (lit "/a/b/") = Ok (S ["a"; "b"; ""])
  /\ iter_parts (lit "/a//b") = Ok (S ["a"; ""; "b"])
  /\ iter_parts (lit "/a/../b") = Ok (S ["a"; ".."; "b"])
  /\ iter_parts (lit "/") = Ok (S [""])
  /\ iter_parts (lit "") = Ok (S [])
  /\ iter_parts (lit "/ some ") = Ok (S [" some "])
  /\ iter_parts (lit "/ some /") = Ok (S [" some "; ""])
  /\ iter_parts (lit "/ some /  ") = Ok (S [" some "; "  "])
  /\ iter_parts (lit "/ some /  /") = Ok (S [" some "; "  "; ""])
  /\ iter_parts (lit "a") = Raise RefResolutionError.
Proof. repeat split; vm_compute; reflexivity. Qed.
(** :176-213 *)
Example test_iter_jsonpointer_relaxed_massive :
  iter_parts_relaxed (lit "/a") = (S [""; "a"])
  /\ iter_parts_relaxed (lit "/a/") = (S [""; "a"; ""])
  /\ iter_parts_relaxed (lit "/a/b") = (S [""; "a"; "b"])
  /\ iter_parts_relaxed (lit "/a/b/") = (S [""; "a"; "b"; ""])
  /\ iter_parts_relaxed (lit "/a//b") = (S [""; "a"; ""; "b"])
  /\ iter_parts_relaxed (lit "/") = (S [""; ""])
  /\ iter_parts_relaxed (lit "") = (S [""])
  /\ iter_parts_relaxed (lit "/ some ") = (S [""; " some "])
  /\ iter_parts_relaxed (lit "/ some /") = (S [""; " some "; ""])
  /\ iter_parts_relaxed (lit "/ some /  ") = (S [""; " some "; "  "])
  /\ iter_parts_relaxed (lit "a") = (S ["a"])
  /\ iter_parts_relaxed (lit "a/") = (S ["a"; ""])
  /\ iter_parts_relaxed (lit "a/b") = (S ["a"; "b"])
  /\ iter_parts_relaxed (lit "a/b/") = (S ["a"; "b"; ""])
  /\ iter_parts_relaxed (lit "a/../b/.") = (S ["a"; ".."; "b"; "."])
  /\ iter_parts_relaxed (lit "a/../b/.") = (S ["a"; ".."; "b"; "."])
  /\ iter_parts_relaxed (lit " some ") = (S [" some "])
  /\ iter_parts_relaxed (lit " some /") = (S [" some "; ""])
  /\ iter_parts_relaxed (lit " some /  ") = (S [" some "; "  "])
  /\ iter_parts_relaxed (lit " some /  /") = (S [" some "; "  "; ""]).
Proof. repeat split; vm_compute; reflexivity. Qed.
(** :215-225 *)
Example test_resolve_jsonpointer_existing :
  resolve_jsonpointer (JDict [(lit "foo", JNum (1)); (lit "bar", JList [JNum (11); JDict [(lit "a", JNum (222))]])]) (lit "/foo") None = Ok (JNum (1))
  /\ resolve_jsonpointer (JDict [(lit "foo", JNum (1)); (lit "bar", JList [JNum (11); JDict [(lit "a", JNum (222))]])]) (lit "/bar/0") None = Ok (JNum (11))
  /\ resolve_jsonpointer (JDict [(lit "foo", JNum (1)); (lit "bar", JList [JNum (11); JDict [(lit "a", JNum (222))]])]) (lit "/bar/1/a") None = Ok (JNum (222)).
Proof. repeat split; vm_compute; reflexivity. Qed.
(** :227-239 *)
Example test_resolve_jsonpointer_sequence :
  resolve_jsonpointer (JList [JNum (1); JList [JNum (22); JNum (33)]]) (lit "/0") None = Ok (JNum (1))
  /\ resolve_jsonpointer (JList [JNum (1); JList [JNum (22); JNum (33)]]) (lit "/1") None = Ok (JList [JNum (22); JNum (33)])
  /\ resolve_jsonpointer (JList [JNum (1); JList [JNum (22); JNum (33)]]) (lit "/1/0") None = Ok (JNum (22))
  /\ resolve_jsonpointer (JList [JNum (1); JList [JNum (22); JNum (33)]]) (lit "/1/1") None = Ok (JNum (33)).
Proof. repeat split; vm_compute; reflexivity. Qed.
(** :241-246 *)
Example test_resolve_jsonpointer_missing_screams :
  resolve_jsonpointer (JDict []) (lit "/foo") None = Raise RefResolutionError.
Proof. repeat split; vm_compute; reflexivity. Qed.
(** :248-254 *)
Example test_resolve_jsonpointer_empty_path :
  resolve_jsonpointer (JDict []) (lit "") None = Ok (JDict [])
  /\ resolve_jsonpointer (JDict [(lit "foo", JNum (1))]) (lit "") None = Ok (JDict [(lit "foo", JNum (1))]).
Proof. repeat split; vm_compute; reflexivity. Qed.
(** :256-287 *)
Example test_resolve_jsonpointer_examples_from_spec :
  resolve_jsonpointer (JDict [(lit "foo", JList [JStr (lit "bar"); JStr (lit "baz")]); (lit "", JNum (0)); (lit "a/b", JNum (1)); (lit "c%d", JNum (2)); (lit "e^f", JNum (3)); (lit "g|h", JNum (4)); (lit "i\\j", JNum (5)); (lit "k\""l", JNum (6)); (lit " ", JNum (7)); (lit "m~n", JNum (8))]) (lit "") None = Ok (JDict [(lit "foo", JList [JStr (lit "bar"); JStr (lit "baz")]); (lit "", JNum (0)); (lit "a/b", JNum (1)); (lit "c%d", JNum (2)); (lit "e^f", JNum (3)); (lit "g|h", JNum (4)); (lit "i\\j", JNum (5)); (lit "k\""l", JNum (6)); (lit " ", JNum (7)); (lit "m~n", JNum (8))])
  /\ resolve_jsonpointer (JDict [(lit "foo", JList [JStr (lit "bar"); JStr (lit "baz")]); (lit "", JNum (0)); (lit "a/b", JNum (1)); (lit "c%d", JNum (2)); (lit "e^f", JNum (3)); (lit "g|h", JNum (4)); (lit "i\\j", JNum (5)); (lit "k\""l", JNum (6)); (lit " ", JNum (7)); (lit "m~n", JNum (8))]) (lit "/foo") None = Ok (JList [JStr (lit "bar"); JStr (lit "baz")])
  /\ resolve_jsonpointer (JDict [(lit "foo", JList [JStr (lit "bar"); JStr (lit "baz")]); (lit "", JNum (0)); (lit "a/b", JNum (1)); (lit "c%d", JNum (2)); (lit "e^f", JNum (3)); (lit "g|h", JNum (4)); (lit "i\\j", JNum (5)); (lit "k\""l", JNum (6)); (lit " ", JNum (7)); (lit "m~n", JNum (8))]) (lit "/foo/0") None = Ok (JStr (lit "bar"))
  /\ resolve_jsonpointer (JDict [(lit "foo", JList [JStr (lit "bar"); JStr (lit "baz")]); (lit "", JNum (0)); (lit "a/b", JNum (1)); (lit "c%d", JNum (2)); (lit "e^f", JNum (3)); (lit "g|h", JNum (4)); (lit "i\\j", JNum (5)); (lit "k\""l", JNum (6)); (lit " ", JNum (7)); (lit "m~n", JNum (8))]) (lit "/") None = Ok (JNum (0))
  /\ resolve_jsonpointer (JDict [(lit "foo", JList [JStr (lit "bar"); JStr (lit "baz")]); (lit "", JNum (0)); (lit "a/b", JNum (1)); (lit "c%d", JNum (2)); (lit "e^f", JNum (3)); (lit "g|h", JNum (4)); (lit "i\\j", JNum (5)); (lit "k\""l", JNum (6)); (lit " ", JNum (7)); (lit "m~n", JNum (8))]) (lit "/a~1b") None = Ok (JNum (1))
  /\ resolve_jsonpointer (JDict [(lit "foo", JList [JStr (lit "bar"); JStr (lit "baz")]); (lit "", JNum (0)); (lit "a/b", JNum (1)); (lit "c%d", JNum (2)); (lit "e^f", JNum (3)); (lit "g|h", JNum (4)); (lit "i\\j", JNum (5)); (lit "k\""l", JNum (6)); (lit " ", JNum (7)); (lit "m~n", JNum (8))]) (lit "/c%d") None = Ok (JNum (2))
  /\ resolve_jsonpointer (JDict [(lit "foo", JList [JStr (lit "bar"); JStr (lit "baz")]); (lit "", JNum (0)); (lit "a/b", JNum (1)); (lit "c%d", JNum (2)); (lit "e^f", JNum (3)); (lit "g|h", JNum (4)); (lit "i\\j", JNum (5)); (lit "k\""l", JNum (6)); (lit " ", JNum (7)); (lit "m~n", JNum (8))]) (lit "/e^f") None = Ok (JNum (3))
  /\ resolve_jsonpointer (JDict [(lit "foo", JList [JStr (lit "bar"); JStr (lit "baz")]); (lit "", JNum (0)); (lit "a/b", JNum (1)); (lit "c%d", JNum (2)); (lit "e^f", JNum (3)); (lit "g|h", JNum (4)); (lit "i\\j", JNum (5)); (lit "k\""l", JNum (6)); (lit " ", JNum (7)); (lit "m~n", JNum (8))]) (lit "/g|h") None = Ok (JNum (4))
  /\ resolve_jsonpointer (JDict [(lit "foo", JList [JStr (lit "bar"); JStr (lit "baz")]); (lit "", JNum (0)); (lit "a/b", JNum (1)); (lit "c%d", JNum (2)); (lit "e^f", JNum (3)); (lit "g|h", JNum (4)); (lit "i\\j", JNum (5)); (lit "k\""l", JNum (6)); (lit " ", JNum (7)); (lit "m~n", JNum (8))]) (lit "/i\\j") None = Ok (JNum (5))
  /\ resolve_jsonpointer (JDict [(lit "foo", JList [JStr (lit "bar"); JStr (lit "baz")]); (lit "", JNum (0)); (lit "a/b", JNum (1)); (lit "c%d", JNum (2)); (lit "e^f", JNum (3)); (lit "g|h", JNum (4)); (lit "i\\j", JNum (5)); (lit "k\""l", JNum (6)); (lit " ", JNum (7)); (lit "m~n", JNum (8))]) (lit "/k\""l") None = Ok (JNum (6))
  /\ resolve_jsonpointer (JDict [(lit "foo", JList [JStr (lit "bar"); JStr (lit "baz")]); (lit "", JNum (0)); (lit "a/b", JNum (1)); (lit "c%d", JNum (2)); (lit "e^f", JNum (3)); (lit "g|h", JNum (4)); (lit "i\\j", JNum (5)); (lit "k\""l", JNum (6)); (lit " ", JNum (7)); (lit "m~n", JNum (8))]) (lit "/ ") None = Ok (JNum (7))
  /\ resolve_jsonpointer (JDict [(lit "foo", JList [JStr (lit "bar"); JStr (lit "baz")]); (lit "", JNum (0)); (lit "a/b", JNum (1)); (lit "c%d", JNum (2)); (lit "e^f", JNum (3)); (lit "g|h", JNum (4)); (lit "i\\j", JNum (5)); (lit "k\""l", JNum (6)); (lit " ", JNum (7)); (lit "m~n", JNum (8))]) (lit "/m~0n") None = Ok (JNum (8)).
Proof. repeat split; vm_compute; reflexivity. Qed.
(** :289-300 *)
Example test_set_jsonpointer_empty_doc :
  snd (set_jsonpointer (JDict []) (lit "/foo") (JStr (lit "value"))) = None
  /\ resolve_jsonpointer (fst (set_jsonpointer (JDict []) (lit "/foo") (JStr (lit "value")))) (lit "/foo") None = Ok (JStr (lit "value"))
  /\ snd (set_jsonpointer (JDict []) (lit "/foo/bar") (JStr (lit "value"))) = None
  /\ resolve_jsonpointer (fst (set_jsonpointer (JDict []) (lit "/foo/bar") (JStr (lit "value")))) (lit "/foo/bar") None = Ok (JStr (lit "value")).
Proof. repeat split; vm_compute; reflexivity. Qed.
(** :302-313 *)
Example test_resolve_jsonpointer_root_path_only :
  resolve_jsonpointer (JDict []) (lit "/") None = Raise RefResolutionError
  /\ resolve_jsonpointer (JDict [(lit "foo", JNum (1))]) (lit "/") None = Raise RefResolutionError
  /\ resolve_jsonpointer (JDict [(lit "", JNum (1))]) (lit "/") None = Ok (JNum (1)).
Proof. repeat split; vm_compute; reflexivity. Qed.
(** :315-335 *)
Example test_set_jsonpointer_replace_value :
  snd (set_jsonpointer (JDict [(lit "foo", JStr (lit "bar")); (lit "the number 1", JNum (2))]) (lit "/foo") (JStr (lit "value"))) = None
  /\ resolve_jsonpointer (fst (set_jsonpointer (JDict [(lit "foo", JStr (lit "bar")); (lit "the number 1", JNum (2))]) (lit "/foo") (JStr (lit "value")))) (lit "/foo") None = Ok (JStr (lit "value"))
  /\ field (fst (set_jsonpointer (JDict [(lit "foo", JStr (lit "bar")); (lit "the number 1", JNum (2))]) (lit "/foo") (JStr (lit "value")))) "the number 1" = Some (JNum 2)
  /\ snd (set_jsonpointer (JDict [(lit "foo", JNum (1)); (lit "the number 1", JNum (2))]) (lit "/foo") (JStr (lit "value"))) = None
  /\ resolve_jsonpointer (fst (set_jsonpointer (JDict [(lit "foo", JNum (1)); (lit "the number 1", JNum (2))]) (lit "/foo") (JStr (lit "value")))) (lit "/foo") None = Ok (JStr (lit "value"))
  /\ field (fst (set_jsonpointer (JDict [(lit "foo", JNum (1)); (lit "the number 1", JNum (2))]) (lit "/foo") (JStr (lit "value")))) "the number 1" = Some (JNum 2)
  /\ snd (set_jsonpointer (JDict [(lit "foo", JDict [(lit "bar", JNum (1))]); (lit "the number 1", JNum (2))]) (lit "/foo") (JNum (2))) = None
  /\ resolve_jsonpointer (fst (set_jsonpointer (JDict [(lit "foo", JDict [(lit "bar", JNum (1))]); (lit "the number 1", JNum (2))]) (lit "/foo") (JNum (2)))) (lit "/foo") None = Ok (JNum (2))
  /\ field (fst (set_jsonpointer (JDict [(lit "foo", JDict [(lit "bar", JNum (1))]); (lit "the number 1", JNum (2))]) (lit "/foo") (JNum (2)))) "the number 1" = Some (JNum 2).
Proof. repeat split; vm_compute; reflexivity. Qed.
(** :337-350 *)
Example test_set_jsonpointer_append_path :
  snd (set_jsonpointer (JDict [(lit "foo", JStr (lit "bar")); (lit "the number 1", JNum (2))]) (lit "/foo/bar") (JStr (lit "value"))) = None
  /\ resolve_jsonpointer (fst (set_jsonpointer (JDict [(lit "foo", JStr (lit "bar")); (lit "the number 1", JNum (2))]) (lit "/foo/bar") (JStr (lit "value")))) (lit "/foo/bar") None = Ok (JStr (lit "value"))
  /\ field (fst (set_jsonpointer (JDict [(lit "foo", JStr (lit "bar")); (lit "the number 1", JNum (2))]) (lit "/foo/bar") (JStr (lit "value")))) "the number 1" = Some (JNum 2)
  /\ snd (set_jsonpointer (JDict [(lit "foo", JStr (lit "bar")); (lit "the number 1", JNum (2))]) (lit "/foo/bar/some/other") (JStr (lit "value"))) = None
  /\ resolve_jsonpointer (fst (set_jsonpointer (JDict [(lit "foo", JStr (lit "bar")); (lit "the number 1", JNum (2))]) (lit "/foo/bar/some/other") (JStr (lit "value")))) (lit "/foo/bar/some/other") None = Ok (JStr (lit "value"))
  /\ field (fst (set_jsonpointer (JDict [(lit "foo", JStr (lit "bar")); (lit "the number 1", JNum (2))]) (lit "/foo/bar/some/other") (JStr (lit "value")))) "the number 1" = Some (JNum 2).
Proof. repeat split; vm_compute; reflexivity. Qed.
(** :352-360 *)
Example test_set_jsonpointer_append_path_preserves_intermediate :
  snd (set_jsonpointer (JDict [(lit "foo", JDict [(lit "bar", JNum (1))]); (lit "the number 1", JNum (2))]) (lit "/foo/foo2") (JStr (lit "value"))) = None
  /\ resolve_jsonpointer (fst (set_jsonpointer (JDict [(lit "foo", JDict [(lit "bar", JNum (1))]); (lit "the number 1", JNum (2))]) (lit "/foo/foo2") (JStr (lit "value")))) (lit "/foo/foo2") None = Ok (JStr (lit "value"))
  /\ field (fst (set_jsonpointer (JDict [(lit "foo", JDict [(lit "bar", JNum (1))]); (lit "the number 1", JNum (2))]) (lit "/foo/foo2") (JStr (lit "value")))) "the number 1" = Some (JNum 2)
  /\ resolve_jsonpointer (fst (set_jsonpointer (JDict [(lit "foo", JDict [(lit "bar", JNum (1))]); (lit "the number 1", JNum (2))]) (lit "/foo/foo2") (JStr (lit "value")))) (lit "/foo/bar") None = Ok (JNum (1)).
Proof. repeat split; vm_compute; reflexivity. Qed.
(** :362-375 *)
Example test_set_jsonpointer_missing :
  snd (set_jsonpointer (JDict [(lit "foo", JNum (1)); (lit "the number 1", JNum (2))]) (lit "/foo/bar") (JStr (lit "value"))) = None
  /\ resolve_jsonpointer (fst (set_jsonpointer (JDict [(lit "foo", JNum (1)); (lit "the number 1", JNum (2))]) (lit "/foo/bar") (JStr (lit "value")))) (lit "/foo/bar") None = Ok (JStr (lit "value"))
  /\ field (fst (set_jsonpointer (JDict [(lit "foo", JNum (1)); (lit "the number 1", JNum (2))]) (lit "/foo/bar") (JStr (lit "value")))) "the number 1" = Some (JNum 2)
  /\ snd (set_jsonpointer (JDict [(lit "foo", JNum (1)); (lit "the number 1", JNum (2))]) (lit "/foo/bar/some/other") (JStr (lit "value"))) = None
  /\ resolve_jsonpointer (fst (set_jsonpointer (JDict [(lit "foo", JNum (1)); (lit "the number 1", JNum (2))]) (lit "/foo/bar/some/other") (JStr (lit "value")))) (lit "/foo/bar/some/other") None = Ok (JStr (lit "value"))
  /\ field (fst (set_jsonpointer (JDict [(lit "foo", JNum (1)); (lit "the number 1", JNum (2))]) (lit "/foo/bar/some/other") (JStr (lit "value")))) "the number 1" = Some (JNum 2).
Proof. repeat split; vm_compute; reflexivity. Qed.
(** :377-388 *)
Example test_set_jsonpointer_sequence :
  snd (set_jsonpointer (JList [JNum (1); JNum (2)]) (lit "/1") (JStr (lit "value"))) = None
  /\ resolve_jsonpointer (fst (set_jsonpointer (JList [JNum (1); JNum (2)]) (lit "/1") (JStr (lit "value")))) (lit "/1") None = Ok (JStr (lit "value"))
  /\ snd (set_jsonpointer (JList [JNum (1); JNum (2)]) (lit "/1/foo/bar") (JStr (lit "value"))) = None
  /\ resolve_jsonpointer (fst (set_jsonpointer (JList [JNum (1); JNum (2)]) (lit "/1/foo/bar") (JStr (lit "value")))) (lit "/1/foo/bar") None = Ok (JStr (lit "value")).
Proof. repeat split; vm_compute; reflexivity. Qed.
(** :390-405 *)
Example test_set_jsonpointer_sequence_insert_end :
  snd (set_jsonpointer (JList [JNum (0); JNum (1)]) (lit "/2") (JStr (lit "value"))) = None
  /\ resolve_jsonpointer (fst (set_jsonpointer (JList [JNum (0); JNum (1)]) (lit "/2") (JStr (lit "value")))) (lit "/2") None = Ok (JStr (lit "value"))
  /\ resolve_jsonpointer (fst (set_jsonpointer (JList [JNum (0); JNum (1)]) (lit "/2") (JStr (lit "value")))) (lit "/0") None = Ok (JNum (0))
  /\ resolve_jsonpointer (fst (set_jsonpointer (JList [JNum (0); JNum (1)]) (lit "/2") (JStr (lit "value")))) (lit "/1") None = Ok (JNum (1))
  /\ snd (set_jsonpointer (JList [JNum (0); JNum (1)]) (lit "/-") (JStr (lit "value"))) = None
  /\ resolve_jsonpointer (fst (set_jsonpointer (JList [JNum (0); JNum (1)]) (lit "/-") (JStr (lit "value")))) (lit "/2") None = Ok (JStr (lit "value"))
  /\ resolve_jsonpointer (fst (set_jsonpointer (JList [JNum (0); JNum (1)]) (lit "/-") (JStr (lit "value")))) (lit "/0") None = Ok (JNum (0))
  /\ resolve_jsonpointer (fst (set_jsonpointer (JList [JNum (0); JNum (1)]) (lit "/-") (JStr (lit "value")))) (lit "/1") None = Ok (JNum (1)).
Proof. repeat split; vm_compute; reflexivity. Qed.
(** :407-412 *)
Example test_set_jsonpointer_sequence_out_of_bounds :
  resolve_jsonpointer (JList [JNum (0); JNum (1)]) (lit "/3") None = Raise RefResolutionError.
Proof. repeat split; vm_compute; reflexivity. Qed.
(** :414-419 *)
Example test_set_jsonpointer_sequence_with_str_screams :
  resolve_jsonpointer (JList [JNum (0); JNum (1)]) (lit "/str") None = Raise RefResolutionError.
Proof. repeat split; vm_compute; reflexivity. Qed.
(** pandata.py:1067-1088 and 1118-1134 *)
Example doc_parts :
  iter_parts (lit "/a/b") = Ok (S ["a"; "b"]) /\ iter_parts (lit "/a//b") = Ok (S ["a"; ""; "b"]) /\ iter_parts (lit "/") = Ok (S [""])
  /\ iter_parts [] = Ok [] /\ iter_parts (lit "a") = Raise RefResolutionError
  /\ iter_parts_relaxed (lit "a") = S ["a"] /\ iter_parts_relaxed (lit "a/") = S ["a"; ""] /\ iter_parts_relaxed (lit "a/b") = S ["a"; "b"]
  /\ iter_parts_relaxed (lit "/a") = S [""; "a"] /\ iter_parts_relaxed (lit "/a/") = S [""; "a"; ""] /\ iter_parts_relaxed (lit "/") = S [""; ""]
  /\ iter_parts_relaxed [] = S [""].
Proof. repeat split; vm_compute; reflexivity. Qed.
(** pandata.py:1156-1172 and 1209-1227, with an integer for the number and nothing of pandas *)
Example doc_resolve :
  let dt := JDict [(lit "pi", JNum 314); (lit "foo", JStr (lit "bar")); (lit "sub", JDict [(lit "sr", JDict [(lit "abc", JStr (lit "def"))])])] in
  resolve_jsonpointer dt (lit "/pi") None = Ok (JNum 314) /\ resolve_jsonpointer dt (lit "/pi/BAD") None = Raise RefResolutionError
  /\ resolve_jsonpointer dt (lit "/pi/BAD") (Some (JStr (lit "Hi!"))) = Ok (JStr (lit "Hi!"))
  /\ resolve_path (fun _ _ => None) dt (lit "/pi") None None = Ok (JNum 314)
  /\ resolve_path (fun _ _ => None) dt (lit "sub/sr/abc") None None = Ok (JStr (lit "def"))
  /\ resolve_path (fun _ _ => None) dt (lit "/pi/BAD") (Some (JStr (lit "Hi!"))) None = Ok (JStr (lit "Hi!")).
Proof. cbv zeta. repeat split; vm_compute; reflexivity. Qed.
