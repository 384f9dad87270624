(** * The project's own examples, run on the model: mappings of [/repo/pandalone/mappings.py]

    The tests are those of [/repo/tests/test_mappings.py]. *)
From Coq Require Import String.
From Verif Require Import PyBase Json Regex Paths_Model Pmod_Model Repr_Model.
Local Open Scope string_scope.
Local Open Scope list_scope.
Local Open Scope bool_scope.

(** The patterns used, as Python's [re] parses them; no other matches anything. *)
Definition word (c : pychar) : bool := is_alpha c || is_digit c || (c =? chr "_")%N.
Definition not_newline (c : pychar) : bool := negb (c =? 10)%N.
Definition patterns : list (pystr * re) :=
  [(lit "(c.*)", RSeqs [RGrp "1" (RSeqs [RChr (N.eqb 99%N); RStar not_newline])]);
   (lit ".*", RSeqs [RStar not_newline]);
   (lit "a", RSeqs [RChr (N.eqb 97%N)]);
   (lit "a(.*)", RSeqs [RChr (N.eqb 97%N); RGrp "1" (RSeqs [RStar not_newline])]);
   (lit "a(\d*)", RSeqs [RChr (N.eqb 97%N); RGrp "1" (RSeqs [RStar is_digit])]);
   (lit "a(\d+)", RSeqs [RChr (N.eqb 97%N); RGrp "1" (RSeqs [RPlus is_digit])]);
   (lit "a(\w*)", RSeqs [RChr (N.eqb 97%N); RGrp "1" (RSeqs [RStar word])]);
   (lit "a*", RSeqs [RStar (N.eqb 97%N)]);
   (lit "a\d*", RSeqs [RChr (N.eqb 97%N); RStar is_digit]);
   (lit "a\d+", RSeqs [RChr (N.eqb 97%N); RPlus is_digit]);
   (lit "a\w*", RSeqs [RChr (N.eqb 97%N); RStar word]);
   (lit "abc", RSeqs [RChr (N.eqb 97%N); RChr (N.eqb 98%N); RChr (N.eqb 99%N)]);
   (lit "b", RSeqs [RChr (N.eqb 98%N)]);
   (lit "b(.*)", RSeqs [RChr (N.eqb 98%N); RGrp "1" (RSeqs [RStar not_newline])]);
   (lit "b.*", RSeqs [RChr (N.eqb 98%N); RStar not_newline]);
   (lit "b?", RSeqs [ROpt (RChr (N.eqb 98%N))]);
   (lit "b[123]", RSeqs [RChr (N.eqb 98%N); RChr (fun c => (N.eqb 49%N) c || (N.eqb 50%N) c || (N.eqb 51%N) c)]);
   (lit "c", RSeqs [RChr (N.eqb 99%N)]);
   (lit "c(.*)", RSeqs [RChr (N.eqb 99%N); RGrp "1" (RSeqs [RStar not_newline])]);
   (lit "c.(.*)", RSeqs [RChr (N.eqb 99%N); RChr not_newline; RGrp "1" (RSeqs [RStar not_newline])]);
   (lit "d", RSeqs [RChr (N.eqb 100%N)]);
   (lit "d.*", RSeqs [RChr (N.eqb 100%N); RStar not_newline]);
   (lit "e", RSeqs [RChr (N.eqb 101%N)]);
   (lit "e.*", RSeqs [RChr (N.eqb 101%N); RStar not_newline]);
   (lit "r.*", RSeqs [RChr (N.eqb 114%N); RStar not_newline])].
Definition doc_fullmatch (p s : pystr) : option groups :=
  match dget str_eqb p patterns with Some r => re_match (RSeq (RGrp "0" r) REnd) s | None => None end.
(** Templates with [\g<0>] and one digit references; those to groups that are missing are errors. *)
Fixpoint doc_expand (m : groups) (t : pystr) : res pystr :=
  match t with
  | 92%N :: 103%N :: 60%N :: 48%N :: 62%N :: t' =>
      do r <- doc_expand m t';
      match group "0" m with Some g => Ok (g ++ r) | None => Raise ReError end
  | 92%N :: 49%N :: t' =>
      do r <- doc_expand m t';
      match group "1" m with Some g => Ok (g ++ r) | None => Raise ReError end
  | 92%N :: _ => Raise ReError
  | c :: t' => do r <- doc_expand m t'; Ok (c :: r)
  | [] => Ok []
  end.
Definition all_compile (p : pystr) : bool := true.
Definition mapped (l : list (option pystr * option pystr)) (path : string) : res pystr :=
  do p <- pmods_from_tuples all_compile l;
  map_path groups doc_fullmatch doc_expand p (lit path).
Definition shown (l : list (option pystr * option pystr)) : res pystr :=
  do p <- pmods_from_tuples all_compile l; Ok (pmod_repr (fun _ => true) (fun _ => []) p).

(** ** Paths *)
Definition S (l : list string) : list pystr := map (fun s => lit s) l.
(** mappings.py:704-756 and tests 56-77 *)
Example doc_append_step :
  append_step (S []) (lit "a") = S ["a"] /\ append_step (S ["a"; "b"]) (lit "..") = S ["a"] /\ append_step (S ["a"; "b"]) (lit ".") = S ["a"; "b"]
  /\ append_step (S ["a"; "b"]) (lit "") = S [""] /\ append_step (S [""]) (lit "") = S [""] /\ append_step (S []) (lit "") = S [""]
  /\ append_step (S [""]) (lit "..") = S [""] /\ append_step (S [""]) (lit ".") = S [""] /\ append_step (S ["a"]) (lit "..") = S []
  /\ append_step (S []) (lit "..") = S [".."] /\ append_step (S [".."]) (lit "..") = S [".."; ".."] /\ append_step (S []) (lit ".") = S []
  /\ append_step (S ["."]) (lit ".") = S [] /\ append_step (S ["."]) (lit "..") = S [".."].
Proof. repeat split; vm_compute; reflexivity. Qed.
(** mappings.py:811-857 and tests 79-90 *)
Example doc_join_paths :
  join_paths (S ["r"; "a"; "b"]) = lit "r/a/b" /\ join_paths (S [""; "a"; "b"; ".."; "bb"; "cc"]) = lit "/a/bb/cc"
  /\ join_paths (S ["a"; "b"; "."; "c"]) = lit "a/b/c" /\ join_paths (S ["a"; "b"; ""; "r"; "aa"; "bb"]) = lit "/r/aa/bb"
  /\ join_paths (S ["a"; "b"; "../bb"]) = lit "a/b/../bb" /\ join_paths (S [".."]) = lit ".." /\ join_paths (S ["a"; ".."]) = lit "."
  /\ join_paths (S ["a"; ".."; ".."; ".."]) = lit "../.." /\ join_paths (S [""; "a"; ".."; ".."]) = lit "" /\ join_paths (S [".."; "a"]) = lit "../a"
  /\ join_paths (S [""; "."; ".."; ".."]) = lit "" /\ join_paths (S ["."; ".."]) = lit ".."
  /\ join_paths (S ["a"; ".."; ".."]) = lit ".." /\ join_paths (S [""; ".."]) = lit "" /\ join_paths (S [""; "a"; ""]) = lit ""
  /\ join_paths (S [""; ""]) = lit "" /\ join_paths (S [""]) = lit "".
Proof. repeat split; vm_compute; reflexivity. Qed.

(** ** Merging and descending *)
Definition leaf (a : string) : pmod := Pmod (Some (lit a)) [] [].
Definition node (a : string) (steps regxs : list (string * pmod)) : pmod :=
  Pmod (match a with EmptyString => None | _ => Some (lit a) end) (map (fun kc => (lit (fst kc), snd kc)) steps) (map (fun kc => (lit (fst kc), snd kc)) regxs).
Definition keys {A : Type} (d : list (pystr * A)) : list pystr := map fst d.
(** mappings.py:309-327 *)
Example doc_merge :
  let pm1 := node "pm1" [] [("d", leaf "D"); ("a", leaf "A"); ("c", leaf "C")] in
  let pm2 := node "pm2" [] [("b", leaf "BB"); ("a", leaf "AA")] in
  merge pm1 pm2 = node "pm2" [] [("d", leaf "D"); ("c", leaf "C"); ("b", leaf "BB"); ("a", leaf "AA")]
  /\ merge pm2 pm1 = node "pm1" [] [("b", leaf "BB"); ("d", leaf "D"); ("a", leaf "A"); ("c", leaf "C")].
Proof. split; vm_compute; reflexivity. Qed.
(** tests 105-126, 190-223 *)
Example test_merge :
  p_alias (merge (leaf "pm1") (leaf "pm2")) = Some (lit "pm2") /\ p_alias (merge (leaf "pm2") (leaf "pm1")) = Some (lit "pm1")
  /\ p_alias (merge empty_pmod (leaf "pm2")) = Some (lit "pm2") /\ p_alias (merge (leaf "pm2") empty_pmod) = Some (lit "pm2")
  /\ let pm1 := node "pm1" [] [("e", leaf "E"); ("a", leaf "A"); ("c", leaf "C")] in
     let pm2 := node "pm2" [] [("b", leaf "B"); ("a", leaf "AA"); ("d", leaf "DD")] in
     keys (p_regxs (merge pm1 pm2)) = S ["e"; "c"; "b"; "a"; "d"] /\ dget str_eqb (lit "a") (p_regxs (merge pm1 pm2)) = Some (leaf "AA")
     /\ keys (p_regxs (merge pm2 pm1)) = S ["b"; "d"; "e"; "a"; "c"] /\ dget str_eqb (lit "a") (p_regxs (merge pm2 pm1)) = Some (leaf "A").
Proof. repeat split; vm_compute; reflexivity. Qed.
(** tests 226-253 *)
Example test_merge_all :
  let pm := merge (merge (node "" [("a", leaf "A")] []) (node "pm2" [] [("b", leaf "BB"); ("a", leaf "AA")]))
                  (node "PM3" [("c", leaf "CCC"); ("b", leaf "BBB")] [("b", leaf "AAA"); ("a", leaf "BBB"); ("c", leaf "CCC")]) in
  forallb (fun k => existsb (str_eqb k) (keys (p_steps pm))) (S ["a"; "b"; "c"]) = true /\ length (p_steps pm) = 3%nat
  /\ keys (p_regxs pm) = S ["b"; "a"; "c"].
Proof. repeat split; vm_compute; reflexivity. Qed.

Definition descended (p : pmod) (s : string) := descend groups doc_fullmatch doc_expand p (lit s).
Definition aliased (p : pmod) (s : string) := alias_ groups doc_fullmatch doc_expand p (lit s).
(** mappings.py:360-375 *)
Example doc_descend :
  let pm := node "" [("a", leaf "A")] [("a\w*", leaf "AWord"); ("a(\d*)", leaf "A_\1")] in
  (do x <- descended pm "a"; Ok (snd x)) = Ok (Some (lit "A")) /\ descended pm "abc" = Ok (Some (leaf "AWord"), Some (lit "AWord"))
  /\ (do x <- descended pm "a12"; Ok (snd x)) = Ok (Some (lit "A_12")) /\ descended pm "BAD" = Ok (None, None)
  /\ option_map p_alias (match descended pm "a" with Ok (p, _) => p | _ => None end) = Some (Some (lit "A"))
  /\ option_map p_alias (match descended pm "a12" with Ok (p, _) => p | _ => None end) = Some (Some (lit "A_\1")).
Proof. repeat split; vm_compute; reflexivity. Qed.
(** mappings.py:380-407; the numbers are written as texts *)
Example doc_descend_merged :
  let pm := node "" [("a", node "A" [("1", leaf "11")] [])]
                 [("a\w*", node "AWord" [("2", leaf "22")] []); ("a\d*", node "ADigit" [("3", leaf "33")] [])] in
  let steps s := match descended pm s with Ok (Some p, _) => keys (p_steps p) | _ => [] end in
  let below s k := match descended pm s with Ok (Some p, _) => aliased p k | _ => Raise KeyError end in
  forallb (fun k => existsb (str_eqb k) (steps "a"%string)) (S ["1"; "2"; "3"]) = true /\ length (steps "a"%string) = 3%nat
  /\ steps "aa"%string = S ["2"] /\ steps "a1"%string = S ["2"; "3"]
  /\ below "a1"%string "2"%string = Ok (Some (lit "22")) /\ below "a1"%string "3"%string = Ok (Some (lit "33"))
  /\ descended pm "a$" = Ok (None, None).
Proof. repeat split; vm_compute; reflexivity. Qed.
(** tests 284-343 *)
Example test_alias :
  let pm := node "" [("a", leaf "A")] [("a(\w*)", leaf "AWord"); ("a(\d*)", leaf "A_\1")] in
  descended pm "BAD" = Ok (None, None) /\ descended pm "a-" = Ok (None, None) /\ descended pm "a$" = Ok (None, None)
  /\ aliased pm "BAD" = Ok None /\ aliased pm "a-" = Ok None /\ aliased pm "a$" = Ok None
  /\ aliased pm "a" = Ok (Some (lit "A")) /\ aliased pm "abc" = Ok (Some (lit "AWord")) /\ aliased pm "a12" = Ok (Some (lit "A_12"))
  /\ aliased (node "" [] [("abc", leaf "A\g<0>")]) "abc" = Ok (Some (lit "Aabc"))
  /\ aliased (node "" [] [("a(.*)", leaf "A\g<0>")]) "abc" = Ok (Some (lit "Aabc"))
  /\ aliased (node "" [] [("a", leaf "A\1"); ("b(.*)", leaf "B\2")]) "a" = Raise ReError
  /\ aliased (node "" [] [("a", leaf "A\1"); ("b(.*)", leaf "B\2")]) "bach" = Raise ReError.
Proof. repeat split; vm_compute; reflexivity. Qed.

(** ** Mapping paths; the line numbers are of the tests *)
(** :345-347 *)
Example test_map_path_rootUnmapped_slashPath :
  mapped [] "/" = Ok (lit "").
Proof. repeat split; vm_compute; reflexivity. Qed.
(** :349-351 *)
Example test_map_path_rootUnmapped_emptyPath :
  mapped [] "" = Ok (lit "").
Proof. repeat split; vm_compute; reflexivity. Qed.
(** :353-356 *)
Example test_map_path_rootMapped :
  mapped [(Some (lit ""), Some (lit "New/Root")); (Some (lit "/a/b"), Some (lit "B"))] "/a/b" = Ok (lit "New/Root/a/B").
Proof. repeat split; vm_compute; reflexivity. Qed.
(** :363-372 *)
Example test_map_path_rootMapped_relative :
  mapped [(Some (lit ""), Some (lit "root"))] "" = Ok (lit "root")
  /\ mapped [(Some (lit ""), Some (lit "root"))] "/a" = Ok (lit "root/a")
  /\ mapped [(Some (lit ""), Some (lit "root")); (Some (lit "/"), Some (lit "root2"))] "" = Ok (lit "root")
  /\ mapped [(Some (lit ""), Some (lit "root")); (Some (lit "/"), Some (lit "root2"))] "/a" = Ok (lit "root/a")
  /\ mapped [(Some (lit ""), Some (lit "root")); (Some (lit "/"), Some (lit "root2"))] "/" = Ok (lit "root/root2").
Proof. repeat split; vm_compute; reflexivity. Qed.
(** :374-383 *)
Example test_map_path_rootMapped_absolute :
  mapped [(Some (lit ""), Some (lit "/root"))] "" = Ok (lit "/root")
  /\ mapped [(Some (lit ""), Some (lit "/root"))] "/a" = Ok (lit "/root/a")
  /\ mapped [(Some (lit ""), Some (lit "/root")); (Some (lit "/"), Some (lit "root2"))] "" = Ok (lit "/root")
  /\ mapped [(Some (lit ""), Some (lit "/root")); (Some (lit "/"), Some (lit "root2"))] "/a" = Ok (lit "/root/a")
  /\ mapped [(Some (lit ""), Some (lit "/root")); (Some (lit "/"), Some (lit "root2"))] "/" = Ok (lit "/root/root2").
Proof. repeat split; vm_compute; reflexivity. Qed.
(** :385-390 *)
Example test_map_path_missed :
  mapped [(Some (lit "/a"), Some (lit "A")); (Some (lit "/~a(\w*)"), Some (lit "AWord")); (Some (lit "/~a(\d*)"), Some (lit "A_\1"))] "/c" = Ok (lit "/c")
  /\ mapped [(Some (lit "/a"), Some (lit "A")); (Some (lit "/~a(\w*)"), Some (lit "AWord")); (Some (lit "/~a(\d*)"), Some (lit "A_\1"))] "/c/a" = Ok (lit "/c/a")
  /\ mapped [(Some (lit "/a"), Some (lit "A")); (Some (lit "/~a(\w*)"), Some (lit "AWord")); (Some (lit "/~a(\d*)"), Some (lit "A_\1"))] "/a$/a4" = Ok (lit "/a$/a4").
Proof. repeat split; vm_compute; reflexivity. Qed.
(** :392-396 *)
Example test_map_path_simple :
  mapped [(Some (lit "/a"), Some (lit "A")); (Some (lit "/~a(\w*)"), Some (lit "AWord")); (Some (lit "/~a(\d*)"), Some (lit "A_\1"))] "/a" = Ok (lit "/A")
  /\ mapped [(Some (lit "/a"), Some (lit "A")); (Some (lit "/~a(\w*)"), Some (lit "AWord")); (Some (lit "/~a(\d*)"), Some (lit "A_\1"))] "/a/b" = Ok (lit "/A/b").
Proof. repeat split; vm_compute; reflexivity. Qed.
(** :398-403 *)
Example test_map_path_regex :
  mapped [(Some (lit "/a"), Some (lit "A")); (Some (lit "/~a(\w*)"), Some (lit "AWord")); (Some (lit "/~a(\d*)"), Some (lit "A_\1"))] "/a" = Ok (lit "/A")
  /\ mapped [(Some (lit "/a"), Some (lit "A")); (Some (lit "/~a(\w*)"), Some (lit "AWord")); (Some (lit "/~a(\d*)"), Some (lit "A_\1"))] "/a_wo/b" = Ok (lit "/AWord/b")
  /\ mapped [(Some (lit "/a"), Some (lit "A")); (Some (lit "/~a(\w*)"), Some (lit "AWord")); (Some (lit "/~a(\d*)"), Some (lit "A_\1"))] "/a12/b" = Ok (lit "/A_12/b").
Proof. repeat split; vm_compute; reflexivity. Qed.
(** :405-410 *)
Example test_map_path_regex_2_dot_dotdot_root_abs :
  mapped [(Some (lit "/~b.*/~c(.*)"), Some (lit "../C/\1"))] "/" = Ok (lit "")
  /\ mapped [(Some (lit "/~b.*/~c(.*)"), Some (lit "../C/\1"))] "/a" = Ok (lit "/a")
  /\ mapped [(Some (lit "/~b.*/~c(.*)"), Some (lit "../C/\1"))] "/big/child" = Ok (lit "/big/C/hild")
  /\ mapped [(Some (lit "/~b.*/~c(.*)"), Some (lit "../C/\1"))] "" = Ok (lit "").
Proof. repeat split; vm_compute; reflexivity. Qed.
(** :451-461 *)
Example test_map_path_2_root :
  mapped [(Some (lit "/a"), Some (lit ""))] "/a" = Ok (lit "")
  /\ mapped [(Some (lit "/a"), Some (lit ""))] "/a/b" = Ok (lit "/b")
  /\ mapped [(Some (lit "/a"), Some (lit ""))] "/b" = Ok (lit "/b")
  /\ mapped [(Some (lit "/a/b"), Some (lit ""))] "/a" = Ok (lit "/a")
  /\ mapped [(Some (lit "/a/b"), Some (lit ""))] "/a/b" = Ok (lit "")
  /\ mapped [(Some (lit "/a/b"), Some (lit ""))] "/a/b/c" = Ok (lit "/c")
  /\ mapped [(Some (lit "/a/b"), Some (lit ""))] "/c" = Ok (lit "/c").
Proof. repeat split; vm_compute; reflexivity. Qed.
(** :463-473 *)
Example test_map_path_2_abs :
  mapped [(Some (lit "/a"), Some (lit "/A"))] "/a" = Ok (lit "/A")
  /\ mapped [(Some (lit "/a"), Some (lit "/A"))] "/a/b" = Ok (lit "/A/b")
  /\ mapped [(Some (lit "/a"), Some (lit "/A"))] "/A/b" = Ok (lit "/A/b")
  /\ mapped [(Some (lit "/a/b"), Some (lit "/A/AA"))] "/a" = Ok (lit "/a")
  /\ mapped [(Some (lit "/a/b"), Some (lit "/A/AA"))] "/a/b" = Ok (lit "/A/AA")
  /\ mapped [(Some (lit "/a/b"), Some (lit "/A/AA"))] "/a/b/c" = Ok (lit "/A/AA/c")
  /\ mapped [(Some (lit "/a/b"), Some (lit "/A/AA"))] "/A/AA/c" = Ok (lit "/A/AA/c").
Proof. repeat split; vm_compute; reflexivity. Qed.
(** :475-484 *)
Example test_map_path_2_dot :
  mapped [(Some (lit "/a"), Some (lit "."))] "/a" = Ok (lit "/a")
  /\ mapped [(Some (lit "/a"), Some (lit "."))] "/a/b" = Ok (lit "/a/b")
  /\ mapped [(Some (lit "/a"), Some (lit "."))] "/b" = Ok (lit "/b")
  /\ mapped [(Some (lit "/a"), Some (lit "./bb"))] "/a" = Ok (lit "/a/bb")
  /\ mapped [(Some (lit "/a"), Some (lit "./bb"))] "/a/b" = Ok (lit "/a/bb/b")
  /\ mapped [(Some (lit "/a"), Some (lit "./bb"))] "/b/c" = Ok (lit "/b/c").
Proof. repeat split; vm_compute; reflexivity. Qed.
(** :486-500 *)
Example test_map_path_2_dotdot :
  mapped [(Some (lit "/a"), Some (lit ".."))] "/a" = Ok (lit "")
  /\ mapped [(Some (lit "/a"), Some (lit ".."))] "/a/b" = Ok (lit "/b")
  /\ mapped [(Some (lit "/a"), Some (lit ".."))] "/b" = Ok (lit "/b")
  /\ mapped [(Some (lit "/a/b"), Some (lit ".."))] "/a" = Ok (lit "/a")
  /\ mapped [(Some (lit "/a/b"), Some (lit ".."))] "/a/b" = Ok (lit "/a")
  /\ mapped [(Some (lit "/a/b"), Some (lit ".."))] "/a/b/c" = Ok (lit "/a/c")
  /\ mapped [(Some (lit "/a/b"), Some (lit "../cc"))] "/a" = Ok (lit "/a")
  /\ mapped [(Some (lit "/a/b"), Some (lit "../cc"))] "/a/b" = Ok (lit "/a/cc")
  /\ mapped [(Some (lit "/a/b"), Some (lit "../cc"))] "/a/b/c" = Ok (lit "/a/cc/c").
Proof. repeat split; vm_compute; reflexivity. Qed.
(** :502-531 *)
Example test_map_path_slash_2_dot_dotdot_root_abs :
  mapped [(Some (lit "/"), Some (lit "."))] "/" = Ok (lit "")
  /\ mapped [(Some (lit "/"), Some (lit "."))] "/a" = Ok (lit "/a")
  /\ mapped [(Some (lit "/"), Some (lit "."))] "/a/b" = Ok (lit "/a/b")
  /\ mapped [(Some (lit "/"), Some (lit "."))] "" = Ok (lit "")
  /\ mapped [(Some (lit "/"), Some (lit ".."))] "/" = Ok (lit "")
  /\ mapped [(Some (lit "/"), Some (lit ".."))] "/a" = Ok (lit "/a")
  /\ mapped [(Some (lit "/"), Some (lit ".."))] "/a/b" = Ok (lit "/a/b")
  /\ mapped [(Some (lit "/"), Some (lit ".."))] "" = Ok (lit "")
  /\ mapped [(Some (lit "/"), Some (lit ""))] "/" = Ok (lit "")
  /\ mapped [(Some (lit "/"), Some (lit ""))] "/a" = Ok (lit "/a")
  /\ mapped [(Some (lit "/"), Some (lit ""))] "/a/b" = Ok (lit "/a/b")
  /\ mapped [(Some (lit "/"), Some (lit ""))] "" = Ok (lit "")
  /\ mapped [(Some (lit "/"), Some (lit "/"))] "/" = Ok (lit "")
  /\ mapped [(Some (lit "/"), Some (lit "/"))] "/a" = Ok (lit "/a")
  /\ mapped [(Some (lit "/"), Some (lit "/"))] "/a/b" = Ok (lit "/a/b")
  /\ mapped [(Some (lit "/"), Some (lit "/"))] "" = Ok (lit "")
  /\ mapped [(Some (lit "/"), Some (lit "/A/B"))] "/" = Ok (lit "/A/B")
  /\ mapped [(Some (lit "/"), Some (lit "/A/B"))] "/a" = Ok (lit "/a")
  /\ mapped [(Some (lit "/"), Some (lit "/A/B"))] "/a/b" = Ok (lit "/a/b")
  /\ mapped [(Some (lit "/"), Some (lit "/A/B"))] "" = Ok (lit "").
Proof. repeat split; vm_compute; reflexivity. Qed.
(** :533-556 *)
Example test_map_path_root_2_dot_dotdot_root_abs :
  mapped [(Some (lit ""), Some (lit "."))] "/" = Ok (lit "")
  /\ mapped [(Some (lit ""), Some (lit "."))] "/a" = Ok (lit "/a")
  /\ mapped [(Some (lit ""), Some (lit "."))] "/a/b" = Ok (lit "/a/b")
  /\ mapped [(Some (lit ""), Some (lit "."))] "" = Ok (lit "")
  /\ mapped [(Some (lit ""), Some (lit ".."))] "/" = Ok (lit "")
  /\ mapped [(Some (lit ""), Some (lit ".."))] "/a" = Ok (lit "/a")
  /\ mapped [(Some (lit ""), Some (lit ".."))] "/a/b" = Ok (lit "/a/b")
  /\ mapped [(Some (lit ""), Some (lit ".."))] "" = Ok (lit "")
  /\ mapped [(Some (lit ""), Some (lit "/"))] "/" = Ok (lit "")
  /\ mapped [(Some (lit ""), Some (lit "/"))] "/a" = Ok (lit "/a")
  /\ mapped [(Some (lit ""), Some (lit "/"))] "/a/b" = Ok (lit "/a/b")
  /\ mapped [(Some (lit ""), Some (lit "/"))] "" = Ok (lit "")
  /\ mapped [(Some (lit ""), Some (lit "/A/B"))] "/a" = Ok (lit "/A/B/a")
  /\ mapped [(Some (lit ""), Some (lit "/A/B"))] "/a/b" = Ok (lit "/A/B/a/b")
  /\ mapped [(Some (lit ""), Some (lit "/A/B"))] "" = Ok (lit "/A/B").
Proof. repeat split; vm_compute; reflexivity. Qed.
(** mappings.py:104-116 *)
Example doc_map_path_1 :
  let m := [(Some (lit "/a"), Some (lit "A")); (Some (lit "/~b.*"), Some (lit "BB\g<0>")); (Some (lit "/~b.*/~c.(.*)"), Some (lit "W\1ER"))] in
  mapped m "/a" = Ok (lit "/A")
  /\ mapped m "/a/foo" = Ok (lit "/A/foo")
  /\ mapped m "/big/stuff" = Ok (lit "/BBbig/stuff")
  /\ mapped m "/born/child" = Ok (lit "/BBborn/WildER").
Proof. cbv zeta. repeat split; vm_compute; reflexivity. Qed.
(** mappings.py:121-127 *)
Example doc_map_path_2 :
  let m := [(Some (lit "/a"), Some (lit "A/AA")); (Some (lit "/~b.*/~c(.*)"), Some (lit "../C/\1")); (Some (lit "/~b.*/~.*/~r.*"), Some (lit "/\g<0>"))] in
  mapped m "/a/foo" = Ok (lit "/A/AA/foo")
  /\ mapped m "/big/child" = Ok (lit "/big/C/hild")
  /\ mapped m "/begin/from/root" = Ok (lit "/root").
Proof. cbv zeta. repeat split; vm_compute; reflexivity. Qed.
(** mappings.py:133-135 *)
Example doc_map_path_3 :
  let m := [(Some (lit ""), Some (lit "/NEW/ROOT"))] in
  mapped m "/a/foo" = Ok (lit "/NEW/ROOT/a/foo")
  /\ mapped m "" = Ok (lit "/NEW/ROOT").
Proof. cbv zeta. repeat split; vm_compute; reflexivity. Qed.
(** mappings.py:459-485 *)
Example doc_map_path_4 :
  let m := [(Some (lit "/a"), Some (lit "A/AA")); (Some (lit "/~a(\w*)"), Some (lit "BB\1")); (Some (lit "/~a\w*/~d.*"), Some (lit "D \g<0>")); (Some (lit "/~a(\d+)"), Some (lit "C/\1")); (Some (lit "/~a(\d+)/~(c.*)"), Some (lit "CC-/\1")); (Some (lit "/~a\d+/~e.*"), Some (lit "/newroot/\g<0>"))] in
  mapped m "/a" = Ok (lit "/A/AA")
  /\ mapped m "/a_hi" = Ok (lit "/BB_hi")
  /\ mapped m "/a12" = Ok (lit "/C/12")
  /\ mapped m "/a12/etc" = Ok (lit "/newroot/etc")
  /\ mapped m "/a12/dow" = Ok (lit "/C/12/D dow")
  /\ mapped m "/a12/cow" = Ok (lit "/C/12/CC-/cow").
Proof. cbv zeta. repeat split; vm_compute; reflexivity. Qed.
(** mappings.py:490-495 *)
Example doc_map_path_5 :
  let m := [(Some (lit ""), Some (lit "New/Root"))] in
  mapped m "/for/plant" = Ok (lit "New/Root/for/plant").
Proof. cbv zeta. repeat split; vm_compute; reflexivity. Qed.
(** mappings.py:497-498 *)
Example doc_map_path_6 :
  let m := [(Some (lit ""), Some (lit "/New/Root"))] in
  mapped m "/for/plant" = Ok (lit "/New/Root/for/plant").
Proof. cbv zeta. repeat split; vm_compute; reflexivity. Qed.
(** mappings.py:503-518 *)
Example doc_map_path_7 :
  let m := [(Some (lit "/"), Some (lit "New/Root"))] in
  mapped m "/for/plant" = Ok (lit "/for/plant")
  /\ mapped m "//for/plant" = Ok (lit "/New/Root/for/plant")
  /\ mapped m "" = Ok (lit "").
Proof. cbv zeta. repeat split; vm_compute; reflexivity. Qed.
(** mappings.py:640-654 *)
Example doc_map_path_8 :
  let m := [(Some (lit ""), Some (lit "relative/Root")); (Some (lit "/a/b"), Some (lit "/Rooted/B"))] in
  mapped m "/a/c" = Ok (lit "relative/Root/a/c")
  /\ mapped m "/a/b" = Ok (lit "/Rooted/B").
Proof. cbv zeta. repeat split; vm_compute; reflexivity. Qed.
(** mappings.py:623-627, 629-635, 640-648, 659-662, 490-492, 430-440 of the tests *)
Example doc_repr :
  shown [(Some (lit "/a"), Some (lit "A1/A2")); (Some (lit "/a/b"), Some (lit "B"))] = Ok (lit "pmod({'': pmod({'a': pmod('A1/A2', {'b': pmod('B')})})})")
  /\ shown [(Some (lit "/~a*"), Some (lit "A1/A2")); (Some (lit "/a/~b[123]"), Some (lit "B"))] = Ok (lit "pmod({'': pmod({'a': pmod({re.compile('b[123]'): pmod('B')})}, {re.compile('a*'): pmod('A1/A2')})})")
  /\ shown [(Some (lit ""), Some (lit "relative/Root")); (Some (lit "/a/b"), Some (lit "/Rooted/B"))] = Ok (lit "pmod({'': pmod('relative/Root', {'a': pmod({'b': pmod('/Rooted/B')})})})")
  /\ shown [(Some (lit "/"), Some (lit "New/Root"))] = Ok (lit "pmod({'': pmod({'': pmod('New/Root')})})")
  /\ shown [(Some (lit ""), Some (lit "New/Root"))] = Ok (lit "pmod({'': pmod('New/Root')})")
  /\ shown [(Some (lit "/a"), Some (lit "A")); (Some (lit "/~a\w*"), Some (lit "A1/A2")); (Some (lit "/~a\d*/~b?"), Some (lit "D/D"))] = Ok (lit "pmod({'': pmod({'a': pmod('A')}, {re.compile('a\\w*'): pmod('A1/A2'), re.compile('a\\d*'): pmod({re.compile('b?'): pmod('D/D')})})})").
Proof. repeat split; vm_compute; reflexivity. Qed.
(** :442-449 and 558-565 *)
Example test_pmods_from_tuples :
  pmods_from_tuples all_compile [(Some [], Some (lit "A/B"))] = Ok (Pmod None [([], leaf "A/B")] [])
  /\ pmods_from_tuples all_compile [(Some (lit "/"), Some (lit "A/B"))] = Ok (Pmod None [([], Pmod None [([], leaf "A/B")] [])] [])
  /\ pmods_from_tuples all_compile [(Some [], Some [])] = Ok empty_pmod /\ pmods_from_tuples all_compile [(Some (lit "spam"), None)] = Ok empty_pmod
  /\ pmods_from_tuples all_compile [(None, Some (lit "spam"))] = Ok empty_pmod.
Proof. repeat split; vm_compute; reflexivity. Qed.
