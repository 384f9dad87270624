(** * The project's own examples, run on the model: steps of [/repo/pandalone/mappings.py]

    They are the tests of [/repo/tests/test_mappings.py], whose line numbers are given. *)
From Coq Require Import String.
From Verif Require Import PyBase Json Regex Paths_Model Pmod_Model Pstep_Model Docs_Pmod.
Local Open Scope string_scope.
Local Open Scope list_scope.
Local Open Scope bool_scope.

(** What the tests do with a step [p]: follow attributes from it, ... *)
Inductive link := At (name : string) | Tag (t : string) | Untag (t : string) | Fix | Lock | SetLocked (state : Z).
(** ... build another, follow links, assign a text to an attribute of what they lead to, expect
    [ValueError], and compare the texts, tags, paths and derived mappings with the expected. *)
Inductive cmd :=
| New (name : option pystr) (maps : option (list (option pystr * option pystr)))
| Go (l : list link)
| Put (l : list link) (name text : string)
| Fails (l : list link)
| Text (l : list link) (text : string)
| Tags (l : list link) (tags : list string)
| Paths (with_orig : bool) (tag : string) (expected : list string)
| Derived (expected : list (string * string)).

Definition no_class_attr (a : pystr) : bool := false.
Definition doc_new := new_step groups doc_fullmatch doc_expand all_compile.
Definition doc_get := getattr groups doc_fullmatch doc_expand all_compile no_class_attr.
Definition doc_set := setattr groups doc_fullmatch doc_expand all_compile.
Fixpoint follow (h : heap) (i : nat) (l : list link) : heap * res nat :=
  match l with
  | [] => (h, Ok i)
  | At n :: l => match doc_get h i (lit n) with
                 | (h, Ok (VStep j)) => follow h j l
                 | (h, Ok VClass) => (h, Raise TypeError)
                 | (h, Raise e) => (h, Raise e)
                 end
  | Tag t :: l => follow (tag h i [lit t]) i l
  | Untag t :: l => follow (tag_remove h i (lit t)) i l
  | Fix :: l => match fix_ h i with (h, Ok _) => follow h i l | (h, Raise e) => (h, Raise e) end
  | Lock :: l => match lock h i with (h, Ok _) => follow h i l | (h, Raise e) => (h, Raise e) end
  | SetLocked z :: l => match set_locked h i z with (h, Ok _) => follow h i l | (h, Raise e) => (h, Raise e) end
  end.
Fixpoint strs_eqb (a b : list pystr) : bool :=
  match a, b with [], [] => true | x :: a, y :: b => str_eqb x y && strs_eqb a b | _, _ => false end.
Definition step_cmd (h : heap) (p : nat) (c : cmd) : option (heap * nat) :=
  match c with
  | New n m =>
      match doc_new h n (match m with None => NoMaps | Some l => MTuples l end) None [] with
      | (h, Ok p) => Some (h, p) | _ => None end
  | Go l => match follow h p l with (h, Ok _) => Some (h, p) | _ => None end
  | Put l n t => match follow h p l with
                 | (h, Ok i) => match doc_set h i (lit n) (AStr (lit t)) with (h, Ok _) => Some (h, p) | _ => None end
                 | _ => None end
  | Fails l => match follow h p l with (h, Raise ValueError) => Some (h, p) | _ => None end
  | Text l t => match follow h p l with
                | (h, Ok i) => if str_eqb (text_of h i) (lit t) then Some (h, p) else None | _ => None end
  | Tags l ts => match follow h p l with
                 | (h, Ok i) => if strs_eqb (tags_of h i) (S ts) then Some (h, p) else None | _ => None end
  | Paths o t e => match paths 100 h p o (lit t) with
                   | Ok ps => if strs_eqb ps (S e) then Some (h, p) else None | _ => None end
  | Derived e => match derive_map_tuples 100 h p with
                 | Ok ps => if strs_eqb (map fst ps) (S (map fst e)) && strs_eqb (map snd ps) (S (map snd e))
                            then Some (h, p) else None | _ => None end
  end.
Definition does (l : list cmd) : bool :=
  match fold_left (fun s c => match s with Some (h, p) => step_cmd h p c | None => None end) l (Some (empty_heap, 0%nat)) with
  | Some _ => true | None => false
  end.

(** :581-598 *)
Example test_equality :
  does
    [New (None) None;
     Text [] "";
     Text [] "";
     Text [At "a"] "a";
     Text [At "a"] "a";
     New (Some (lit "foo")) None;
     Text [] "foo";
     Text [] "foo";
     Text [At "foo"] "foo";
     New (Some (lit "/foo")) None;
     Text [] "/foo";
     Text [] "/foo"] = true.
Proof. vm_compute. reflexivity. Qed.
(** :600-611 *)
Example test_buildtree_valid_ops :
  does
    [New (None) None;
     Go [At "abc"];
     Put [At "abc"] "ddd" "def";
     Put [At "abc"] "dfg" "defg";
     Go [At "n123"];
     Put [] "pp" "321";
     Put [] "_some_hidden" "x";
     Put [At "a"; At "b"; At "c"] "d" "123";
     Put [At "a"; At "b"; At "c"; At "d"] "e" "123"] = true.
Proof. vm_compute. reflexivity. Qed.
(** :613-627 *)
Example test_constructor :
  does
    [New (None) (Some [(Some (lit "/a"), Some (lit "A")); (Some (lit "/a/c"), Some (lit "C")); (Some (lit "/b/c"), Some (lit "C1"))]);
     Text [At "a"] "A";
     Text [At "a"; At "c"] "C";
     Text [At "b"] "b";
     Text [At "b"; At "c"] "C1";
     Put [] "a" "AA";
     Text [At "a"] "AA"] = true.
Proof. vm_compute. reflexivity. Qed.
(** :650-662 *)
Example test_paths_empty1ststep :
  does
    [New (None) None;
     Paths false "" [""];
     Go [At "a"];
     Paths false "" ["/a"];
     New (Some (lit "")) None;
     Paths false "" [""];
     New (Some (lit "")) None;
     Go [At "a"];
     Paths false "" ["/a"]] = true.
Proof. vm_compute. reflexivity. Qed.
(** :664-669 *)
Example test_paths :
  does
    [New (Some (lit "r")) None;
     Paths false "" ["r"];
     Go [At "a"];
     Paths false "" ["r/a"]] = true.
Proof. vm_compute. reflexivity. Qed.
(** :671-683 *)
Example test_paths_multi_empty1ststep :
  does
    [New (None) None;
     Go [At "abc"];
     Put [At "abc"] "aaa" "def";
     Go [At "abc"; At "defg"];
     Go [At "n123"];
     Put [] "pp" "321";
     Put [] "_some_hidden" "x";
     Paths false "" ["/321"; "/abc/def"; "/abc/defg"; "/n123"];
     Paths true "" ["/(pp-->321)"; "/abc/(aaa-->def)"; "/abc/defg"; "/n123"]] = true.
Proof. vm_compute. reflexivity. Qed.
(** :685-696 *)
Example test_paths_multi_nonemptyroot :
  does
    [New (Some (lit "r")) None;
     Go [At "abc"];
     Put [At "abc"] "aaa" "def";
     Go [At "abc"; At "defg"];
     Go [At "n123"];
     Put [] "pp" "321";
     Put [] "_some_hidden" "x";
     Paths false "" ["r/321"; "r/abc/def"; "r/abc/defg"; "r/n123"]] = true.
Proof. vm_compute. reflexivity. Qed.
(** :700-703 *)
Example test_paths_dot_atroot_emptyroot :
  does
    [New (None) None;
     Put [] "pp" ".";
     Paths false "" [""]] = true.
Proof. vm_compute. reflexivity. Qed.
(** :705-708 *)
Example test_paths_dot_emptyroot :
  does
    [New (None) None;
     Put [At "a"] "b" ".";
     Paths false "" ["/a"]] = true.
Proof. vm_compute. reflexivity. Qed.
(** :710-715 *)
Example test_paths_dot_atroot :
  does
    [New (Some (lit "r")) None;
     Put [] "pp" ".";
     Paths false "" ["r"];
     Put [] "pp" ".";
     Paths false "" ["r"]] = true.
Proof. vm_compute. reflexivity. Qed.
(** :717-720 *)
Example test_paths_dot :
  does
    [New (Some (lit "r")) None;
     Put [At "a"] "b" ".";
     Paths false "" ["r/a"]] = true.
Proof. vm_compute. reflexivity. Qed.
(** :722-728 *)
Example test_paths_dot_multi_emptyroot :
  does
    [New (Some (lit "")) None;
     Put [] "pp" ".";
     Go [At "pp"; At "a"; At "b"];
     Put [At "c"] "pp" ".";
     Go [At "c"; At "pp"; At "d"];
     Paths false "" ["/a/b"; "/c/d"]] = true.
Proof. vm_compute. reflexivity. Qed.
(** :730-736 *)
Example test_paths_dot_multi :
  does
    [New (Some (lit "r")) None;
     Put [] "pp" ".";
     Go [At "pp"; At "a"; At "b"];
     Put [At "c"] "cc" ".";
     Go [At "c"; At "cc"; At "d"];
     Paths false "" ["r/a/b"; "r/c/d"]] = true.
Proof. vm_compute. reflexivity. Qed.
(** :743-753 *)
Example test_paths_dotdot_atroot_emptyroot :
  does
    [New (None) None;
     Put [] "pp" "..";
     Go [At "pp"; At "a"];
     Paths false "" ["/a"];
     New (None) None;
     Put [] "pp" "..";
     Go [At "pp"; At "a"];
     Go [At "pp"; At "b"];
     Paths false "" ["/a"; "/b"]] = true.
Proof. vm_compute. reflexivity. Qed.
(** :755-765 *)
Example test_paths_dotdot_emptyroot :
  does
    [New (None) None;
     Put [At "a"] "aa" "..";
     Go [At "a"; At "aa"; At "b"];
     Paths false "" ["/b"];
     New (None) None;
     Put [At "a"] "aa" "..";
     Go [At "a"; At "aa"; At "b"];
     Go [At "a"; At "c"];
     Paths false "" ["/a/c"; "/b"]] = true.
Proof. vm_compute. reflexivity. Qed.
(** :767-771 *)
Example test_paths_dotdot_atroot :
  does
    [New (Some (lit "r")) None;
     Put [] "pp" "..";
     Go [At "pp"; At "a"];
     Paths false "" ["a"]] = true.
Proof. vm_compute. reflexivity. Qed.
(** :773-777 *)
Example test_paths_dotdot :
  does
    [New (Some (lit "r")) None;
     Put [At "a"] "aa" "..";
     Go [At "a"; At "aa"; At "b"];
     Paths false "" ["r/b"]] = true.
Proof. vm_compute. reflexivity. Qed.
(** :779-785 *)
Example test_paths_dotdot_multi_emptyroot :
  does
    [New (Some (lit "")) None;
     Put [] "pp" "..";
     Go [At "pp"; At "a"; At "b"];
     Put [At "c"] "cc" "..";
     Go [At "c"; At "cc"; At "d"];
     Paths false "" ["/a/b"; "/d"]] = true.
Proof. vm_compute. reflexivity. Qed.
(** :787-793 *)
Example test_paths_dotdot_multi :
  does
    [New (Some (lit "r")) None;
     Put [] "pp" "..";
     Go [At "pp"; At "a"; At "b"];
     Put [At "c"] "cc" "..";
     Go [At "c"; At "cc"; At "d"];
     Paths false "" ["a/b"; "r/d"]] = true.
Proof. vm_compute. reflexivity. Qed.
(** :797-801 *)
Example test_pmods_miss :
  does
    [New (None) (Some [(Some (lit "/MISS"), Some (lit "BOO"))]);
     Text [] "";
     New (Some (lit "foo")) (Some [(Some (lit "/MISS"), Some (lit "BOO"))]);
     Text [] "foo"] = true.
Proof. vm_compute. reflexivity. Qed.
(** :803-817 *)
Example test_pmods_emptyroot_rootunmapped :
  does
    [New (None) (Some [(Some (lit "/a"), Some (lit "bar"))]);
     Go [At "a"];
     Text [] "";
     Text [At "a"] "bar";
     Paths false "" ["/bar"];
     Text [At "a"; At "b"] "b";
     Paths false "" ["/bar/b"];
     Text [At "c"] "c";
     Paths false "" ["/bar/b"; "/c"];
     Text [At "a"; At "f"] "f";
     Paths false "" ["/bar/b"; "/bar/f"; "/c"]] = true.
Proof. vm_compute. reflexivity. Qed.
(** :819-833 *)
Example test_pmods_nonemptyroot_rootunmapped :
  does
    [New (Some (lit "root")) (Some [(Some (lit "root/a"), Some (lit "bar"))]);
     Go [At "a"];
     Text [] "root";
     Text [At "a"] "bar";
     Paths false "" ["root/bar"];
     Text [At "a"; At "b"] "b";
     Paths false "" ["root/bar/b"];
     Text [At "c"] "c";
     Paths false "" ["root/bar/b"; "root/c"];
     Text [At "a"; At "f"] "f";
     Paths false "" ["root/bar/b"; "root/bar/f"; "root/c"]] = true.
Proof. vm_compute. reflexivity. Qed.
(** :835-849 *)
Example test_pmods_emptyroot_rootmapped :
  does
    [New (None) (Some [(Some (lit ""), Some (lit "root")); (Some (lit "/a"), Some (lit "bar"))]);
     Go [At "a"];
     Text [] "root";
     Text [At "a"] "bar";
     Paths false "" ["root/bar"];
     Text [At "a"; At "b"] "b";
     Paths false "" ["root/bar/b"];
     Text [At "c"] "c";
     Paths false "" ["root/bar/b"; "root/c"];
     Text [At "a"; At "f"] "f";
     Paths false "" ["root/bar/b"; "root/bar/f"; "root/c"]] = true.
Proof. vm_compute. reflexivity. Qed.
(** :851-865 *)
Example test_pmods_nonemptyroot_rootmapped :
  does
    [New (Some (lit "root")) (Some [(Some (lit "root"), Some (lit "ROOT")); (Some (lit "root/a"), Some (lit "bar"))]);
     Go [At "a"];
     Text [] "ROOT";
     Text [At "a"] "bar";
     Paths false "" ["ROOT/bar"];
     Text [At "a"; At "b"] "b";
     Paths false "" ["ROOT/bar/b"];
     Text [At "c"] "c";
     Paths false "" ["ROOT/bar/b"; "ROOT/c"];
     Text [At "a"; At "f"] "f";
     Paths false "" ["ROOT/bar/b"; "ROOT/bar/f"; "ROOT/c"]] = true.
Proof. vm_compute. reflexivity. Qed.
(** :914-926 *)
Example test_paths_pmods_mass :
  does
    [New (None) (Some [(Some (lit ""), Some (lit "root")); (Some (lit "/a"), Some (lit "b")); (Some (lit "/abc"), Some (lit "BAR")); (Some (lit "/abc/df"), Some (lit "DEF")); (Some (lit "/abc/df/a123"), Some (lit "234")); (Some (lit "/some"), Some (lit "/sub/path"))]);
     Go [At "a"];
     Go [At "abc"; At "df"; At "a123"];
     Paths false "" ["root/BAR/DEF/234"; "root/b"];
     New (None) (Some [(Some (lit ""), Some (lit "/root")); (Some (lit "/a"), Some (lit "b")); (Some (lit "/abc"), Some (lit "BAR")); (Some (lit "/abc/df"), Some (lit "DEF")); (Some (lit "/abc/df/a123"), Some (lit "234")); (Some (lit "/some"), Some (lit "/sub/path"))]);
     Go [At "a"];
     Go [At "abc"; At "df"];
     Go [At "abc"; At "df"; At "a123"];
     Paths false "" ["/root/BAR/DEF/234"; "/root/b"]] = true.
Proof. vm_compute. reflexivity. Qed.
(** :928-943 *)
Example test_paths_pmods_orig_mass :
  does
    [New (None) (Some [(Some (lit ""), Some (lit "root")); (Some (lit "/a"), Some (lit "b")); (Some (lit "/abc"), Some (lit "BAR")); (Some (lit "/abc/df"), Some (lit "DEF")); (Some (lit "/abc/df/a123"), Some (lit "234")); (Some (lit "/some"), Some (lit "/sub/path"))]);
     Go [At "a"];
     Go [At "abc"; At "df"; At "a123"];
     Paths true "" ["(-->root)/(a-->b)"; "(-->root)/(abc-->BAR)/(df-->DEF)/(a123-->234)"];
     New (None) (Some [(Some (lit ""), Some (lit "/root")); (Some (lit "/a"), Some (lit "b")); (Some (lit "/abc"), Some (lit "BAR")); (Some (lit "/abc/df"), Some (lit "DEF")); (Some (lit "/abc/df/a123"), Some (lit "234")); (Some (lit "/some"), Some (lit "/sub/path"))]);
     Go [At "a"];
     Go [At "abc"; At "df"; At "a123"];
     Paths true "" ["(-->/root)/(a-->b)"; "(-->/root)/(abc-->BAR)/(df-->DEF)/(a123-->234)"]] = true.
Proof. vm_compute. reflexivity. Qed.
(** :945-956 *)
Example test_pmods_lock_not_applying :
  does
    [New (Some (lit "not dot")) (Some [(Some (lit ""), Some (lit "root")); (Some (lit "/a"), Some (lit "b")); (Some (lit "/abc"), Some (lit "BAR")); (Some (lit "/abc/df"), Some (lit "DEF")); (Some (lit "/abc/df/a123"), Some (lit "234")); (Some (lit "/some"), Some (lit "/sub/path"))]);
     Go [At "nota"];
     New (Some (lit "not dot")) (Some [(Some (lit ""), Some (lit "/root")); (Some (lit "/a"), Some (lit "b")); (Some (lit "/abc"), Some (lit "BAR")); (Some (lit "/abc/df"), Some (lit "DEF")); (Some (lit "/abc/df/a123"), Some (lit "234")); (Some (lit "/some"), Some (lit "/sub/path"))]);
     Go [At "nota"];
     New (None) (Some [(Some (lit ""), Some (lit "root")); (Some (lit "/a"), Some (lit "b")); (Some (lit "/abc"), Some (lit "BAR")); (Some (lit "/abc/df"), Some (lit "DEF")); (Some (lit "/abc/df/a123"), Some (lit "234")); (Some (lit "/some"), Some (lit "/sub/path"))]);
     New (None) (Some [(Some (lit ""), Some (lit "/root")); (Some (lit "/a"), Some (lit "b")); (Some (lit "/abc"), Some (lit "BAR")); (Some (lit "/abc/df"), Some (lit "DEF")); (Some (lit "/abc/df/a123"), Some (lit "234")); (Some (lit "/some"), Some (lit "/sub/path"))])] = true.
Proof. vm_compute. reflexivity. Qed.
(** :958-969 *)
Example test_pmods_lock_CAN_RELOCATE_unmapped :
  does
    [New (None) None;
     Go [SetLocked CAN_RELOCATE];
     Go [Lock];
     Go [Fix];
     Go [At "abc"; Lock];
     Go [At "abc"; Fix]] = true.
Proof. vm_compute. reflexivity. Qed.
(** :971-979 *)
Example test_pmods_lock_CAN_RELOCATE_mapped :
  does
    [New (None) (Some [(Some (lit ""), Some (lit "root")); (Some (lit "/a"), Some (lit "b")); (Some (lit "/abc"), Some (lit "BAR")); (Some (lit "/abc/df"), Some (lit "DEF")); (Some (lit "/abc/df/a123"), Some (lit "234")); (Some (lit "/some"), Some (lit "/sub/path"))]);
     Go [SetLocked CAN_RELOCATE];
     Go [At "unmapped"; Lock];
     Go [At "unmapped"; Fix]] = true.
Proof. vm_compute. reflexivity. Qed.
(** :981-987 *)
Example test_pmods_lock_CAN_RENAME_root :
  does
    [New (None) (Some [(Some (lit ""), Some (lit "/root")); (Some (lit "/a"), Some (lit "b")); (Some (lit "/abc"), Some (lit "BAR")); (Some (lit "/abc/df"), Some (lit "DEF")); (Some (lit "/abc/df/a123"), Some (lit "234")); (Some (lit "/some"), Some (lit "/sub/path"))]);
     Fails [SetLocked CAN_RENAME];
     Fails [Lock]] = true.
Proof. vm_compute. reflexivity. Qed.
(** :989-996 *)
Example test_pmods_lock_CAN_RENAME_rest :
  does
    [New (None) (Some [(Some (lit ""), Some (lit "root")); (Some (lit "/a"), Some (lit "b")); (Some (lit "/abc"), Some (lit "BAR")); (Some (lit "/abc/df"), Some (lit "DEF")); (Some (lit "/abc/df/a123"), Some (lit "234")); (Some (lit "/some"), Some (lit "/sub/path"))]);
     Go [At "a"; Fix];
     Fails [At "some"; SetLocked CAN_RENAME];
     Fails [At "some"; Lock]] = true.
Proof. vm_compute. reflexivity. Qed.
(** :998-1003 *)
Example test_pmods_lock_LOCKED_root :
  does
    [New (None) (Some [(Some (lit ""), Some (lit "root")); (Some (lit "/a"), Some (lit "b")); (Some (lit "/abc"), Some (lit "BAR")); (Some (lit "/abc/df"), Some (lit "DEF")); (Some (lit "/abc/df/a123"), Some (lit "234")); (Some (lit "/some"), Some (lit "/sub/path"))]);
     Fails [SetLocked LOCKED];
     Fails [Lock]] = true.
Proof. vm_compute. reflexivity. Qed.
(** :1005-1016 *)
Example test_pmods_lock_LOCKED_rest :
  does
    [New (None) (Some [(Some (lit ""), Some (lit "root")); (Some (lit "/a"), Some (lit "b")); (Some (lit "/abc"), Some (lit "BAR")); (Some (lit "/abc/df"), Some (lit "DEF")); (Some (lit "/abc/df/a123"), Some (lit "234")); (Some (lit "/some"), Some (lit "/sub/path"))]);
     Fails [At "abc"; SetLocked LOCKED];
     Fails [At "abc"; Lock];
     Fails [At "some"; SetLocked LOCKED];
     Fails [At "some"; Lock]] = true.
Proof. vm_compute. reflexivity. Qed.
(** :1018-1036 *)
Example test_map_from_pstep :
  does
    [New (None) None;
     Go [At "abc"];
     Put [At "abc"] "ddd" "def";
     Put [At "abc"] "dfg" "defg";
     Go [At "n123"];
     Put [] "pp" "321";
     Put [] "_some_hidden" "x";
     Put [At "a"; At "b"; At "c"] "d" "123";
     Put [At "a"; At "b"; At "c"; At "d"] "e" "123";
     Derived [("", ""); ("/a", "a"); ("/a/b", "b"); ("/a/b/c", "c"); ("/a/b/c/d", "123"); ("/a/b/c/d/e", "123"); ("/abc", "abc"); ("/abc/ddd", "def"); ("/abc/dfg", "defg"); ("/n123", "n123"); ("/pp", "321")]] = true.
Proof. vm_compute. reflexivity. Qed.
(** :1063-1093 *)
Example test_tags_paths :
  does
    [New (None) None;
     Tags [] [];
     Paths false "BAD" [];
     Go [Tag "inp"];
     Tags [] ["inp"];
     Paths false "BAD" [];
     Tags [At "a"] [];
     Go [At "a"; Tag "t"];
     Paths false "t" ["/a"];
     Paths false "BAD" [];
     Go [At "b"];
     Paths false "t" ["/a"];
     Go [At "a"; At "aa"];
     Paths false "t" ["/a"];
     Go [At "b"; At "c"];
     Paths false "t" ["/a"];
     Go [At "b"; Tag "t"];
     Paths false "t" ["/a"; "/b"];
     Go [At "b"; At "c"; Tag "t"];
     Paths false "t" ["/a"; "/b"; "/b/c"];
     Go [At "a"; At "aa"; Tag "nt"];
     Paths false "t" ["/a"; "/b"; "/b/c"];
     Go [At "a"; At "aa"; Tag "t"];
     Paths false "t" ["/a"; "/a/aa"; "/b"; "/b/c"]] = true.
Proof. vm_compute. reflexivity. Qed.
(** :1095-1120 *)
Example test_tags_delete :
  does
    [New (None) None;
     Go [At "a"; Tag "u"; At "aa"; Tag "t"; At "aaa"];
     Go [At "b"; At "c"; Tag "u"];
     Paths false "" ["/a/aa/aaa"; "/b/c"];
     Paths false "t" ["/a/aa"];
     Paths false "u" ["/a"; "/b/c"];
     Paths false "BAD" [];
     Go [At "a"; Untag "u"; At "aa"; At "aaa"];
     Paths false "" ["/a/aa/aaa"; "/b/c"];
     Paths false "t" ["/a/aa"];
     Paths false "u" ["/b/c"];
     Go [At "a"; At "aa"; Untag "t"; At "aaa"];
     Go [At "a"; At "aa"; Untag "u"; At "aaa"];
     Go [At "b"; At "c"; Untag "u"];
     Paths false "" ["/a/aa/aaa"; "/b/c"];
     Paths false "t" [];
     Paths false "u" [];
     Go [At "a"; At "aa"; At "aaa"; Untag "u"];
     Go [At "a"; At "aa"; At "aaa"; Untag "t"];
     Paths false "" ["/a/aa/aaa"; "/b/c"];
     Paths false "t" [];
     Paths false "u" []] = true.
Proof. vm_compute. reflexivity. Qed.

(** :868-919: the paths of steps that are built with mappings are those the mappings send the plain ones to *)
Definition built (root : string) (m : option (list (option pystr * option pystr))) : res (list pystr) :=
  match fold_left (fun s c => match s with Some (h, p) => step_cmd h p c | None => None end)
          (New (Some (lit root)) m
           :: map (fun l => Go (map At l)) [["a"; "b"; "c"]; ["a"; "b"; "d"]; ["a"; "c"]; ["abc"; "df"]; ["n123"]; ["a"; "n123"];
                                            ["cc"; "a123"; "a123"]; ["cc"; "a123"; "abc"]; ["b321"]])
          (Some (empty_heap, 0%nat)) with
  | Some (h, p) => paths 100 h p false [] | None => Raise NameError
  end.
Definition agree (root from to : string) : bool :=
  let l := [(Some (lit from), Some (lit to))] in
  match built root None, pmods_from_tuples all_compile l, built root (Some l) with
  | Ok ps, Ok m, Ok rs =>
      match map_paths groups doc_fullmatch doc_expand m ps with
      | Ok qs => strs_eqb (sort_str (fun x => x) qs) rs && (length ps =? 9)%nat
      | Raise _ => false
      end
  | _, _, _ => false
  end.
Example test_pstep_vs_pmods :
  agree "R" "R" "AA" && agree "P" "/" "AA" && agree "P" "/a" "AA" && agree "" "" "AA" && agree "" "/" "AA" && agree "" "/a" "AA" = true.
Proof. vm_compute. reflexivity. Qed.
(** :626-645 and :1025-1035: anything but a text or a step is refused *)
Example test_invalid_ops :
  (let (h, p) := match doc_new empty_heap None NoMaps None [] with (h, Ok p) => (h, p) | (h, _) => (h, 0%nat) end in
   (snd (doc_set h p (lit "abc") AOther), snd (doc_set h p (lit "a") (AStr (lit "a"))), snd (doc_set h p (lit "a") (AStep p))))
  = (Raise AssertionError, Ok tt, Ok tt).
Proof. vm_compute. reflexivity. Qed.
