(** * Excel and Windows: model of [/repo/pandalone/xlsutils.py] lines 23-90 and 242-246, and of
      [/repo/pandalone/winutils.py] *)
From Coq Require Import String.
From Verif Require Import PyBase Utils_Model OsPath_Model FileUrl_Model.

(** ** File names *)

(** The dollar of patterns: the end, or before a newline that ends the text *)
Definition at_end (s : pystr) : bool :=
  match s with [] => true | [c] => (c =? 10)%N | _ => false end.

(** xlsutils.py:23 [\.xl((s[xm]?|t[xm]?)|w|m)$], case ignored, at the front of a text *)
Definition xl_end_here (s : pystr) : bool :=
  match s with
  | dot :: x :: l :: k :: rest =>
      (dot =? chr ".")%N && (low x =? chr "x")%N && (low l =? chr "l")%N
      && (((is_s k || (low k =? chr "t")%N)
           && (at_end rest
               || match rest with
                  | m :: rest' => ((low m =? chr "x")%N || (low m =? chr "m")%N) && at_end rest'
                  | [] => false
                  end))
          || (((low k =? chr "w")%N || (low k =? chr "m")%N) && at_end rest))
  | _ => false
  end.

(** xlsutils.py:30-31 [is_excel_file], as a condition *)
Fixpoint is_excel_file (s : pystr) : bool :=
  xl_end_here s || match s with [] => false | _ :: s' => is_excel_file s' end.

(** ** Excel itself *)

(** xlsutils.py:34-46 [check_excell_installed].  The state: the global, and how often Excel was
    asked for; [found n] says whether that works the n-th time. *)
Definition check_installed (found : nat -> bool) (st : option bool * nat) : bool * (option bool * nat) :=
  match fst st with
  | Some b => (b, st)
  | None => let b := found (snd st) in (b, (Some b, S (snd st)))
  end.
Fixpoint checks (found : nat -> bool) (n : nat) (st : option bool * nat) : list bool * (option bool * nat) :=
  match n with
  | O => ([], st)
  | S n' =>
      let (b, st1) := check_installed found st in
      let (l, st2) := checks found n' st1 in (b :: l, st2)
  end.

(** What asking for the VBA project of a workbook, and then for its protection, gives: a value, an
    error of COM with its code, or any other error *)
Inductive com (A : Type) := Val (a : A) | ComError (code : Z) | Other (e : exn).
Arguments Val {A} a. Arguments ComError {A} code. Arguments Other {A} e.
(** How the function ends: with the project; with an exception after its text was shown; with the
    error of COM; with another error *)
Inductive vb_end (P : Type) := Project (p : P) | Shown (protected : bool) | Com (code : Z) | Error (e : exn).
Arguments Project {P} p. Arguments Shown {P} protected. Arguments Com {P} code. Arguments Error {P} e.

(** xlsutils.py:49-90 [_get_xl_vb_project] *)
Definition get_vb_project {P} (project : com P) (protection : P -> com Z) : vb_end P :=
  let caught code := if Z.eqb code (-2147352567) then Shown false else Com code in
  match project with
  | Val p =>
      match protection p with
      | Val z => if Z.eqb z 1 then Shown true else Project p
      | ComError code => caught code
      | Other e => Error e
      end
  | ComError code => caught code
  | Other e => Error e
  end.

(** ** Local URLs *)

(** xlsutils.py:242-246 [normalize_local_url], up to [geturl] *)
Definition normalize_parts (cwd : pystr) (r : split_result) : split_result :=
  if str_eqb (u_scheme r) (lit "file")
  then {| u_scheme := u_scheme r; u_netloc := u_netloc r; u_path := osp_abspath cwd (u_path r); u_query := u_query r; u_fragment := u_fragment r |}
  else r.
(** It has a parameter [self] but is no method; the call with so many arguments *)
Definition normalize_local_url (cwd : pystr) (args : list split_result) : res pystr :=
  match args with
  | [_; urlparts] => Ok (urlunsplit (normalize_parts cwd urlparts))
  | _ => Raise TypeError
  end.

(** ** Shortcuts *)

Inductive attr := Targetpath | IconLocation | Description | Arguments | WorkingDirectory.
(** What is asked of Windows *)
Inductive event := Create (path : pystr) | Assign (a : attr) (value : pystr) | Save.

Definition given (a : attr) (v : option pystr) : list (attr * pystr) :=
  match v with Some (c :: s) => [(a, c :: s)] | _ => [] end.

Section Shortcut.
  (** How Windows responds: with an error, or not *)
  Variable fails : event -> option exn.

  Fixpoint assign (l : list (attr * pystr)) : list event * option exn :=
    match l with
    | [] => ([], None)
    | (a, v) :: l' =>
        match fails (Assign a v) with
        | Some e => ([Assign a v], Some e)
        | None => let (ev, r) := assign l' in (Assign a v :: ev, r)
        end
    end.
  (** winutils.py:42-64 [win_create_shortcut]: what was asked, and the error if any *)
  Definition create_shortcut (path target : pystr) (wdir args icon desc : option pystr) : list event * option exn :=
    match fails (Create path) with
    | Some e => ([Create path], Some e)
    | None =>
        let (ev, r) := assign ((Targetpath, target) :: given IconLocation icon ++ given Description desc ++ given Arguments args ++ given WorkingDirectory wdir) in
        (Create path :: ev ++ [Save], match fails Save with Some e => Some e | None => r end)
    end.
End Shortcut.
