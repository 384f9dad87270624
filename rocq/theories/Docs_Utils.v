(** * The project's own examples, run on the model: utilities, names with units and components

    They are of [/repo/pandalone/utils.py], [pandata.py], [components.py] and of the tests
    [test_utils.py] and [test_components.py]. *)
From Coq Require Import String.
From Verif Require Import PyBase Json Regex Paths_Model Pmod_Model Pstep_Model Comp_Model Utils_Model Env_Model FileUrl_Model Docs_Pmod.
Local Open Scope string_scope.
Local Open Scope list_scope.

(** utils.py:43-49, 81-82; texts that are no texts are not in the model of [str2bool] *)
Example doc_str2bool :
  str2bool (lit "ON") = true /\ str2bool (lit "on") = true /\ str2bool (lit "12") = true
  /\ str2bool [] = false /\ str2bool (lit "  ") = false /\ str2bool (lit "0") = false /\ str2bool (lit "no") = false /\ str2bool (lit "off") = false
  /\ obj2bool (AnObject false) = Ok false /\ obj2bool (AText []) = Ok false.
Proof. repeat split; vm_compute; reflexivity. Qed.
(** utils.py:280-311; the pattern of the last two is [\.xl\w{1,2}] *)
Definition xl_ext (e : pystr) : bool :=
  match re_match (RSeqs [RLit ".xl"; RChr Env_Model.is_word; ROpt (RChr Env_Model.is_word); REnd]) (lower e) with Some _ => true | None => false end.
Example doc_ensure_file_ext :
  ensure_file_ext (lit "foo") (lit ".bar") [] = Ok (lit "foo.bar") /\ ensure_file_ext (lit "foo.") (lit ".bar") [] = Ok (lit "foo.bar")
  /\ ensure_file_ext (lit "foo") (lit "bar") [] = Ok (lit "foo.bar") /\ ensure_file_ext (lit "foo.") (lit "bar") [] = Ok (lit "foo.bar")
  /\ ensure_file_ext (lit "foo.bar") (lit "bar") [] = Ok (lit "foo.bar") /\ ensure_file_ext (lit "foo.BAR") (lit ".bar") [] = Ok (lit "foo.BAR")
  /\ ensure_file_ext (lit "foo.DDD") (lit ".bar") [] = Ok (lit "foo.DDD.bar")
  /\ ensure_file_ext (lit "foo.xlt") (lit ".xlsx") [lit ".XLT"] = Ok (lit "foo.xlt")
  /\ ensure_file_ext (lit "foo.xlt") (lit ".xlsx") [lit ".xltx"] = Ok (lit "foo.xlt.xlsx")
  /\ ensure_file_ext_regex (lit "foo.xlt") (lit ".xlsx") [xl_ext] = Ok (lit "foo.xlt")
  /\ ensure_file_ext_regex (lit "foo.xl^") (lit ".xls") [xl_ext] = Ok (lit "foo.xl^.xls").
Proof. repeat split; vm_compute; reflexivity. Qed.
(** test_utils.py:31-43 *)
Example test_make_unique_filename :
  let there := fun f => existsb (str_eqb f) [lit "test_utils.py"; lit "../tests/test_utils.py"] in
  make_unique_filename there 9 (lit "/dir/_NOT_EXISTS_") filename_at = Ok (lit "/dir/_NOT_EXISTS_")
  /\ make_unique_filename there 9 (lit "test_utils.py") filename_at = Ok (lit "test_utils1.py")
  /\ make_unique_filename there 9 (lit "../tests/test_utils.py") filename_at = Ok (lit "../tests/test_utils1.py").
Proof. repeat split; vm_compute; reflexivity. Qed.

(** test_utils.py:58-110, 142-150: cases of [path2url] that the project runs on Windows only; they
    hold on POSIX too, with the current folder [/cwd]. *)
Definition url_case (c : string * string) : bool :=
  match path2url (fun _ => false) (fun s => s) (fun s => s) (lit "/cwd") (lit (fst c)) false false with
  | Ok u => str_eqb u (lit (snd c)) | Raise _ => false end.
Example test_path2url : forallb url_case
    [("foo", "file:///cwd/foo");
     ("foo/", "file:///cwd/foo/");
     ("foo/bar", "file:///cwd/foo/bar");
     ("foo\", "file:///cwd/foo/");
     ("foo\bar", "file:///cwd/foo/bar");
     ("./foo", "file:///cwd/foo");
     ("./foo/", "file:///cwd/foo/");
     ("./foo/bar", "file:///cwd/foo/bar");
     (".\foo", "file:///cwd/foo");
     (".\foo\", "file:///cwd/foo/");
     (".\foo/bar", "file:///cwd/foo/bar");
     ("/", "file:///");
     ("/foo", "file:///foo");
     ("/foo/", "file:///foo/");
     ("/foo/bar", "file:///foo/bar");
     ("\", "file:///");
     ("\foo", "file:///foo");
     ("\foo\", "file:///foo/");
     ("\foo\bar", "file:///foo/bar");
     ("D:\", "file:///D:/");
     ("d:\foo", "file:///d:/foo");
     ("C:\foo\", "file:///C:/foo/");
     ("c:\foo\bar", "file:///c:/foo/bar");
     ("D:", "file:///D:/");
     ("d:foo", "file:///d:/foo");
     ("C:foo\", "file:///C:/foo/");
     ("c:foo\bar", "file:///c:/foo/bar");
     ("d:../foo", "file:///foo"); ("D:../../foo", "file:///foo");
     ("http://ser/D:\", "http://ser/D:/");
     ("http://ser/d:\foo", "http://ser/d:/foo");
     ("http://ser/foo/", "http://ser/foo/")] = true.
Proof. vm_compute. reflexivity. Qed.
(** test_utils.py:112-130: variables, with the notations of POSIX *)
Example test_expansion_vars :
  let vars := expandvars (fun v => if str_eqb v (lit "REL") then Some (lit "RRR") else if str_eqb v (lit "ABS") then Some (lit "/AAA") else None) in
  forallb (fun c : string * string =>
             match path2url (fun _ => false) vars (fun s => s) (lit "/cwd") (lit (fst c)) true true with
             | Ok u => str_eqb u (lit (snd c)) | Raise _ => false end)
    [("/$REL", "file:///RRR"); ("/${REL}", "file:///RRR"); ("/$REL/", "file:///RRR/"); ("/${REL}/", "file:///RRR/");
     ("$ABS", "file:///AAA"); ("${ABS}", "file:///AAA"); ("$ABS/", "file:///AAA/"); ("${ABS}/", "file:///AAA/")] = true.
Proof. vm_compute. reflexivity. Qed.

(** pandata.py:69-86 *)
Example doc_units :
  parse_value_with_units (lit "value [units]") = Some (lit "value", Some (lit "units"))
  /\ parse_value_with_units (lit "foo   bar  <bar/krow>") = Some (lit "foo   bar", Some (lit "bar/krow"))
  /\ parse_value_with_units (lit "no units") = Some (lit "no units", None) /\ parse_value_with_units [] = Some ([], None)
  /\ parse_value_with_units (lit "ok but [bad units") = None
  /\ parse_value_with_units (lit "<only units>") = Some ([], Some (lit "only units")).
Proof. repeat split; vm_compute; reflexivity. Qed.

(** ** Components *)
Definition doc_build := build_component groups doc_fullmatch doc_expand all_compile (fun _ => false) 9.
Fixpoint does (cs : list cmd) : cprog :=
  match cs with [] => CEnd (Ok tt) | c :: cs => CDo c (fun _ => does cs) end.
Definition built (m : list (option pystr * option pystr)) (c : component) : res (list pystr * list pystr) :=
  match m with
  | [] => snd (doc_build NoMaps c empty_heap)
  | _ => do p <- pmods_from_tuples all_compile m;
         let (p, cells) := alloc_pmod p [] in snd (doc_build (MPmod p) c (set_cells empty_heap cells))
  end.
(** components.py:140-176; the paths are in the order of their texts *)
Definition foobar_rate : component :=
  Func (component_name (lit "cfunc_calc_foobar_rate") None)
       (does [CPinp None; CPout None; CGet 1 (lit "Acc"); CGet 0 (lit "V"); CGet 0 (lit "T")]).
Example doc_component :
  built [] foobar_rate = Ok (S ["calc_foobar_rate/T"; "calc_foobar_rate/V"], S ["calc_foobar_rate/Acc"])
  /\ built [(Some (lit "~.*"), Some (lit "/A/B"))] foobar_rate = Ok (S ["/A/B/T"; "/A/B/V"], S ["/A/B/Acc"]).
Proof. split; vm_compute; reflexivity. Qed.
(** components.py:236-257 and test_components.py:31-52 *)
Definition two : component :=
  Assembly [Func (component_name (lit "cfunc_f1") None) (does [CPinp None; CGet 0 (lit "A"); CPout None; CGet 2 (lit "B")]);
            Func (component_name (lit "cfunc_f2") None) (does [CPinp None; CGet 0 (lit "B"); CPout None; CGet 2 (lit "C")])].
Example test_assembly :
  built [] two = Ok (S ["f1/A"; "f2/B"], S ["f1/B"; "f2/C"])
  /\ built [(Some (lit "~.*"), Some (lit "/root"))] two = Ok (S ["/root/A"; "/root/B"], S ["/root/B"; "/root/C"])
  /\ built [(Some (lit "f1"), Some (lit "/root1")); (Some (lit "f2"), Some (lit "/root2"))] two
     = Ok (S ["/root1/A"; "/root2/B"], S ["/root1/B"; "/root2/C"]).
Proof. repeat split; vm_compute; reflexivity. Qed.
