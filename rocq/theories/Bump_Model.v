(** * Model of [bin/bumpver.py]: bumping the version of the project.

    The script reads the version and the date out of [_version.py], replaces
    them in that file and in the README, launches the tests of the documents
    and, on demand, commits and tags with [git].  It is a generator whose
    effects happen between the lines that it yields: a run is here the list of
    its events, with the files and the memory of [read_txtfile] that it leaves
    behind and what it ended with.

    Simplified:
    - the files are texts, by normalized path: no links, no encoding errors;
      opening for reading translates the ends of lines, opening for writing writes
      them as they are (POSIX);
    - [lru_cache] never forgets: it holds 128 files and a run reads three;
    - the tests ([run_testcases], lines 99-111) and the commands
      ([sbp.call], line 117) are oracles that do not touch the two files;
    - [pathlib.Path(f).as_posix()] (line 128) is the identity: it is given
      normalized paths;
    - an ill-formed [<new-ver>] is no concern of the script: any text goes. *)
From Coq Require Import String.
From Verif Require Import PyBase OsPath_Model.

(** ** Texts *)

(** [s.replace(old, new)], with a non-empty [old] (those here come from groups
    of [+]): [skip] counts the rest of an occurrence just replaced. *)
Fixpoint replace_from (old new : pystr) (s : pystr) (skip : nat) : pystr :=
  match s with
  | [] => []
  | c :: s' =>
      match skip with
      | S k => replace_from old new s' k
      | O => if starts_with old s then new ++ replace_from old new s' (length old - 1)
             else c :: replace_from old new s' 0
      end
  end.
Definition replace (old new s : pystr) : pystr := replace_from old new s 0.

(** [s.count(old)], with a non-empty [old]. *)
Fixpoint count_from (old : pystr) (s : pystr) (skip : nat) : nat :=
  match s with
  | [] => 0
  | c :: s' =>
      match skip with
      | S k => count_from old s' k
      | O => if starts_with old s then S (count_from old s' (length old - 1))
             else count_from old s' 0
      end
  end.
Definition count (old s : pystr) : nat := count_from old s 0.

(** What reading a file in text mode (line 42) makes of the ends of lines. *)
Fixpoint universal_newlines (s : pystr) : pystr :=
  match s with
  | [] => []
  | c :: s' =>
      if (c =? 13)%N then
        match s' with
        | d :: s'' => if (d =? 10)%N then 10%N :: universal_newlines s''
                      else 10%N :: universal_newlines s'
        | [] => [10%N]
        end
      else c :: universal_newlines s'
  end.

(** The longest part of [s] without quotes at its beginning, and the rest. *)
Fixpoint span_unquoted (s : pystr) : pystr * pystr :=
  match s with
  | [] => ([], [])
  | c :: s' =>
      if (c =? 34)%N then ([], s)
      else let (a, b) := span_unquoted s' in (c :: a, b)
  end.

(** Lines 30-31: [re.search] of a label and a non-empty text between
    double quotes; the group is that text. *)
Definition quoted_here (label s : pystr) : option pystr :=
  if starts_with (label ++ lit """") s then
    match span_unquoted (skipn (length label + 1) s) with
    | (c :: a, _ :: _) => Some (c :: a)
    | _ => None
    end
  else None.
Fixpoint search_quoted (label s : pystr) : option pystr :=
  match quoted_here label s with
  | Some g => Some g
  | None => match s with [] => None | _ :: s' => search_quoted label s' end
  end.

Definition version_label : pystr := lit "__version__ = ".
Definition updated_label : pystr := lit "__updated__ = ".

(** Lines 77-83, [format_syscmd] of a list. *)
Definition has_blank (s : pystr) : bool := existsb (N.eqb 32) s.
Definition format_syscmd (cmd : list pystr) : pystr :=
  join (lit " ") (map (fun s => if has_blank s then lit """" ++ s ++ lit """" else s) cmd).

(** [osp.commonprefix] of two strings. *)
Fixpoint common_prefix (a b : pystr) : pystr :=
  match a, b with
  | x :: a', y :: b' => if (x =? y)%N then x :: common_prefix a' b' else []
  | _, _ => []
  end.
(** [s.rfind(".")]; [None] for -1. *)
Fixpoint rfind_dot (s : pystr) : option nat :=
  match s with
  | [] => None
  | c :: s' =>
      match rfind_dot s' with
      | Some i => Some (S i)
      | None => if (c =? chr ".")%N then Some 0 else None
      end
  end.
(** Lines 86-96. *)
Definition strip_ver2_commonprefix (ver1 ver2 : pystr) : pystr :=
  match common_prefix ver1 ver2 with
  | [] => ver2
  | c :: r =>
      let striplen := match rfind_dot (c :: r) with
                      | Some (S i) => S (S i)
                      | _ => length (c :: r)
                      end in
      skipn striplen ver2
  end.

(** [%24s] *)
Definition pad24 (s : pystr) : pystr := repeat 32%N (24 - length s) ++ s.

(** ** Runs *)

(** What the outside sees of a run: a line printed, a file written, the tests
    launched, a command executed. *)
Inductive event :=
| Line (s : pystr)
| Wrote (path txt : pystr)
| Tested
| Executed (cmd : list pystr).

(** The files by normalized path, and the memory of [read_txtfile] by the path
    it was given. *)
Record world := { files : list (pystr * pystr); memo : list (pystr * pystr) }.

(** How a run ends: normally, by [CmdException] (line 36), or by an error of
    the files. *)
Inductive ending := Done | Failed (why : nat) | Crashed (e : exn).

Definition run (A : Type) : Type := world -> list event * world * (A + ending).
Definition ret {A} (a : A) : run A := fun w => ([], w, inl a).
Definition stop {A} (e : ending) : run A := fun w => ([], w, inr e).
Definition emit (e : event) : run unit := fun w => ([e], w, inl tt).
Definition bind {A B} (m : run A) (f : A -> run B) : run B :=
  fun w =>
    match m w with
    | (es, w1, inl a) => let '(es', w2, r) := f a w1 in (es ++ es', w2, r)
    | (es, w1, inr e) => (es, w1, inr e)
    end.
Fixpoint each {A} (f : A -> run unit) (l : list A) : run unit :=
  match l with
  | [] => ret tt
  | a :: l' => bind (f a) (fun _ => each f l')
  end.

(** Lines 40-43, [read_txtfile] with its [lru_cache]. *)
Definition read_txtfile (fpath : pystr) : run pystr :=
  fun w =>
    match dget str_eqb fpath (memo w) with
    | Some txt => ([], w, inl txt)
    | None =>
        match dget str_eqb (osp_normpath fpath) (files w) with
        | Some raw =>
            let txt := universal_newlines raw in
            ([], {| files := files w; memo := dset str_eqb fpath txt (memo w) |}, inl txt)
        | None => ([], w, inr (Crashed IOError))
        end
    end.

(** Lines 182-183. *)
Definition write_txtfile (fpath txt : pystr) : run unit :=
  fun w => ([Wrote fpath txt],
            {| files := dset str_eqb (osp_normpath fpath) txt (files w); memo := memo w |},
            inl tt).

Section Script.
  (** [VFILE] and [RFILE] of lines 29 and 33; the clock of line 173. *)
  Variable vfile rfile : pystr.
  Variable now : pystr.
  (** Whether the tests pass, and the exit code of each command. *)
  Variable tests_pass : bool.
  Variable exit_code : list pystr -> nat.

  (** Lines 46-62, with the two patterns of [bumpver]. *)
  Definition extract_versions : run (pystr * pystr) :=
    bind (read_txtfile vfile) (fun txt =>
      match search_quoted version_label txt, search_quoted updated_label txt with
      | Some v, Some d => ret (v, d)
      | _, _ => stop (Failed 62)
      end).

  (** Lines 69-72. *)
  Fixpoint substitute (pairs : list (pystr * pystr)) (txt : pystr)
    : pystr * list (pystr * pystr * nat) :=
    match pairs with
    | [] => (txt, [])
    | (old, new) :: pairs' =>
        let (txt', reps) := substitute pairs' (replace old new txt) in
        (txt', (old, new, count old txt) :: reps)
    end.

  (** Line 187. *)
  Definition report (rep : pystr * pystr * nat) : pystr :=
    let '(old, new, n) := rep in
    lit "  " ++ str_of_N (N.of_nat n) ++ lit " x (" ++ pad24 old ++ lit " --> " ++ new ++ lit ")".

  (** Lines 66-74 and 178-187: a file of the loop. *)
  Definition bump_file (dry_run : bool) (pairs : list (pystr * pystr)) (fpath : pystr) : run unit :=
    bind (read_txtfile fpath) (fun txt =>
      let (new_txt, reps) := substitute pairs txt in
      bind (if dry_run then ret tt else write_txtfile fpath new_txt) (fun _ =>
      bind (emit (Line (fpath ++ lit ": "))) (fun _ =>
      each (fun r => emit (Line (report r))) reps))).

  (** Lines 99-111. *)
  Definition run_testcases : run unit :=
    bind (emit Tested) (fun _ => if tests_pass then ret tt else stop (Failed 111)).

  (** Lines 114-119. *)
  Definition exec_cmd (cmd : list pystr) : run unit :=
    bind (emit (Executed cmd)) (fun _ =>
      if (exit_code cmd =? 0)%nat then ret tt else stop (Failed 119)).

  (** Lines 132-137 and 142-147. *)
  Definition do_cmd (dry_run : bool) (cmd : list pystr) : run unit :=
    if dry_run then emit (Line (lit "DRYRUN: " ++ format_syscmd cmd))
    else bind (emit (Line (lit "EXEC: " ++ format_syscmd cmd))) (fun _ => exec_cmd cmd).

  (** Lines 122-137. *)
  Definition do_commit (new_ver old_ver : pystr) (dry_run : bool) (ver_files : list pystr)
    : run unit :=
    let new_ver := strip_ver2_commonprefix old_ver new_ver in
    let cmt_msg := lit "chore(ver): bump " ++ old_ver ++ lit "-->" ++ new_ver in
    each (do_cmd dry_run)
         [ [lit "git"; lit "add"] ++ ver_files;
           [lit "git"; lit "commit"; lit "-m"; cmt_msg] ].

  (** Lines 140-147. *)
  Definition do_tag (tag tag_msg : pystr) (dry_run : bool) : run unit :=
    do_cmd dry_run [lit "git"; lit "tag"; tag; lit "-s"; lit "-m"; tag_msg].

  (** [tag_after_commit]: [None], [True] or a message. *)
  Inductive after := Nothing | Commit | Tag (msg : pystr).

  (** Lines 150-197. *)
  Definition bumpver (new_ver : option pystr) (dry_run force : bool) (a : after) : run unit :=
    bind extract_versions (fun old : pystr * pystr =>
      let (old_ver, old_date) := old in
      match new_ver with
      | None | Some [] =>
          bind (emit (Line old_ver)) (fun _ => emit (Line old_date))
      | Some new_ver =>
          bind (if str_eqb new_ver old_ver then
                  if force then
                    emit (Line (lit "Version '" ++ new_ver ++
                                lit "'already bumped, but --force  effected."))
                  else stop (Failed 169)
                else ret tt) (fun _ =>
          let ver_files := map osp_normpath [vfile; rfile] in
          let subst_pairs := [(old_ver, new_ver); (old_date, now)] in
          bind (each (bump_file dry_run subst_pairs) ver_files) (fun _ =>
          bind (emit (Line (lit "...now launching DocTCs..."))) (fun _ =>
          bind run_testcases (fun _ =>
          match a with
          | Nothing => ret tt
          | Commit => do_commit new_ver old_ver dry_run ver_files
          | Tag msg =>
              bind (do_commit new_ver old_ver dry_run ver_files) (fun _ =>
              do_tag (lit "v" ++ new_ver) msg dry_run)
          end))))
      end).

  (** Lines 203-214: what [main] makes of its options. *)
  Definition tag_option (commit : bool) (tag : option pystr) : after :=
    match tag with
    | Some (c :: m) => Tag (c :: m)
    | _ => if commit then Commit else Nothing
    end.

  (** Lines 200-222, after [docopt]. *)
  Definition main (new_ver : option pystr) (dry_run force commit : bool) (tag : option pystr)
    : world -> list event * world * ending :=
    fun w =>
      let '(es, w', r) := bumpver new_ver dry_run force (tag_option commit tag) w in
      (es, w', match r with inl _ => Done | inr e => e end).
End Script.
