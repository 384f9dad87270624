(** * Model of [convpath], [py_where], [where], [which], [ensure_dir_exists],
    [format_pairs] and [obj2bool] of [pandalone/utils.py].

    The environment, the accounts of the system, the current folder and which
    files can be executed are oracles.  POSIX, unless said otherwise. *)
From Coq Require Import String.
From Verif Require Import PyBase OsPath_Model Utils_Model.
From Verif Require Bump_Model.

(** ** Python's [posixpath] (3.11) *)

(** The class [\w] of an ASCII pattern. *)
Definition is_word (c : pychar) : bool := is_alpha c || is_digit c || (c =? 95)%N.

Fixpoint span_word (s : pystr) : pystr * pystr :=
  match s with
  | [] => ([], [])
  | c :: s' => if is_word c then let (a, b) := span_word s' in (c :: a, b) else ([], s)
  end.

(** The text before the first closing brace, if there is one. *)
Fixpoint to_brace (s : pystr) : option pystr :=
  match s with
  | [] => None
  | c :: s' => if (c =? 125)%N then Some [] else option_map (cons c) (to_brace s')
  end.

(** What the pattern of [expandvars] matches after a dollar: the name, and the
    number of characters. *)
Definition var_here (s : pystr) : option (pystr * nat) :=
  match span_word s with
  | (c :: w, _) => Some (c :: w, length (c :: w))
  | ([], c :: r) =>
      if (c =? 123)%N then
        match to_brace r with
        | Some name => Some (name, length name + 2)
        | None => None
        end
      else None
  | ([], []) => None
  end.

Section Env.
  (** [os.environ] *)
  Variable env : pystr -> option pystr.

  (** [expandvars]: one pass, that goes on after what it has inserted. *)
  Fixpoint expandvars_from (s : pystr) (skip : nat) : pystr :=
    match s with
    | [] => []
    | c :: s' =>
        match skip with
        | S k => expandvars_from s' k
        | O =>
            if (c =? 36)%N then
              match var_here s' with
              | Some (name, n) =>
                  match env name with
                  | Some v => v ++ expandvars_from s' n
                  | None => 36%N :: firstn n s' ++ expandvars_from s' n
                  end
              | None => 36%N :: expandvars_from s' 0
              end
            else c :: expandvars_from s' 0
        end
    end.
  Definition expandvars (s : pystr) : pystr := expandvars_from s 0.

  (** The home of the current account, if known, and of others by name. *)
  Variable own_home : option pystr.
  Variable home_of : pystr -> option pystr.

  Fixpoint span_name (s : pystr) : pystr * pystr :=
    match s with
    | [] => ([], [])
    | c :: s' => if (c =? 47)%N then ([], s) else let (a, b) := span_name s' in (c :: a, b)
    end.

  Definition rstrip_slash (s : pystr) : pystr := rev (drop_while (N.eqb 47) (rev s)).

  (** [expanduser] *)
  Definition expanduser (path : pystr) : pystr :=
    match path with
    | c :: rest =>
        if (c =? chr "~")%N then
          let (name, tail) := span_name rest in
          let home := match name with
                      | [] => match env (lit "HOME") with Some h => Some h | None => own_home end
                      | _ => home_of name
                      end in
          match home with
          | None => path
          | Some h => match rstrip_slash h ++ tail with [] => lit "/" | p => p end
          end
        else path
    | [] => path
    end.

  (** ** utils.py *)

  (** utils.py:153-163; [cwd] is the current folder. *)
  Definition unc_mark : pystr := lit "_UNC_PATH_HERE_".
  Definition convpath (cwd fpath : pystr) (abs_path exp_user exp_vars : bool) : pystr :=
    let fpath := if exp_user then expanduser fpath else fpath in
    let fpath := if exp_vars then
                   let fpath := Bump_Model.replace (lit "$\") unc_mark fpath in
                   let fpath := expandvars fpath in
                   Bump_Model.replace unc_mark (lit "$\") fpath
                 else fpath in
    if abs_path then abspath cwd fpath else normpath fpath.
End Env.

(** *** Programs *)

Section Programs.
  (** Whether the system is Windows ([os.name == "nt"]), its separator of
      folders and its way to join paths; whether a path is a file that may be
      executed. *)
  Variable nt : bool.
  Variable pathsep : pychar.
  Variable joined : pystr -> pystr -> pystr.
  Variable runnable : pystr -> bool.

  (** utils.py:356 *)
  Definition winprog_exts : list pystr := map lit [".bat"; "com"; ".exe"]%string.

  (** utils.py:358-363; [s[-4:]] of a shorter text is all of it. *)
  Definition is_exec (fpath : pystr) : bool :=
    runnable fpath &&
    (negb nt || existsb (str_eqb (skipn (length fpath - 4) (lower fpath))) winprog_exts).

  (** [folder.strip] of double quotes *)
  Definition unquote_folder (s : pystr) : pystr :=
    rev (drop_while (N.eqb 34) (rev (drop_while (N.eqb 34) s))).

  (** utils.py:354-375; [var] is the variable [PATH], its lack a [KeyError]. *)
  Definition py_where (var : option pystr) (program : pystr) (path : option pystr) : res (list pystr) :=
    do path <- match path with
               | None | Some [] => match var with Some v => Ok v | None => Raise KeyError end
               | Some p => Ok p
               end;
    Ok (flat_map (fun folder =>
          match unquote_folder folder with
          | [] => []
          | folder =>
              let exe_path := joined folder program in
              filter is_exec (exe_path :: map (app exe_path) winprog_exts)
          end) (split_on pathsep path)).

  (** How the command "where" of Windows ends: with a text, with an exit code,
      or not at all (elsewhere). *)
  Inductive where_cmd := Printed (out : pystr) | ExitCode | NoCommand.

  (** utils.py:378-387; the empty text that may be returned is an empty list
      here, to [which] they are the same. *)
  Definition where_ (cmd : where_cmd) (var : option pystr) (program : pystr) : res (list pystr) :=
    match cmd with
    | Printed out =>
        Ok (map strip (filter (fun s => negb (str_eqb (strip s) [])) (split_on 10%N out)))
    | ExitCode => Ok []
    | NoCommand => py_where var program None
    end.

  (** utils.py:390-392 *)
  Definition which (cmd : where_cmd) (var : option pystr) (program : pystr) : res (option pystr) :=
    do found <- where_ cmd var program;
    Ok (match found with f :: _ => Some f | [] => None end).
End Programs.

(** *** Folders *)

(** A path is the names from the root down to it, the last one first; the
    paths given are absolute and without dots.  Folders have permissions. *)
Inductive node := Folder (mode : N) | AFile.
Definition tree := list (list pystr * node).

Definition path_eqb (a b : list pystr) : bool :=
  if list_eq_dec (list_eq_dec N.eq_dec) a b then true else false.

Definition at_path (t : tree) (p : list pystr) : option node :=
  match p with
  | [] => Some (Folder 493)
  | _ => dget path_eqb p t
  end.
(** [os.path.exists]: nothing is below a file. *)
Definition exists_at (t : tree) (p : list pystr) : bool :=
  match at_path t p with Some _ => true | None => false end.

(** Errors of the system *)
Inductive errno := EEXIST | ENOENT | ENOTDIR | EACCES.

Section Folders.
  Variable umask : N.
  (** Whether something may be created in a folder. *)
  Variable writable : list pystr -> bool.

  (** [os.mkdir] *)
  Definition mkdir (p : list pystr) (mode : N) (t : tree) : tree * option errno :=
    match p with
    | [] => (t, Some EEXIST)
    | _ :: parent =>
        match at_path t parent with
        | None => (t, Some ENOENT)
        | Some AFile => (t, Some ENOTDIR)
        | Some (Folder _) =>
            if exists_at t p then (t, Some EEXIST)
            else if writable parent then (dset path_eqb p (Folder (N.ldiff mode umask)) t, None)
            else (t, Some EACCES)
        end
    end.

  (** [os.makedirs] with [exist_ok=False]: the folders above get mode 0777. *)
  Fixpoint makedirs (p : list pystr) (mode : N) (t : tree) : tree * option errno :=
    match p with
    | [] => (t, Some EEXIST)
    | _ :: parent =>
        if exists_at t parent then mkdir p mode t
        else
          match makedirs parent 511 t with
          | (t', None) | (t', Some EEXIST) => mkdir p mode t'
          | (t', Some e) => (t', Some e)
          end
    end.

  (** utils.py:334-351; what others do between the check and the creation is
      [meanwhile]. *)
  Definition ensure_dir_exists (meanwhile : tree -> tree) (p : list pystr) (mode : N) (t : tree)
    : tree * res unit :=
    match at_path t p with
    | None =>
        match makedirs p mode (meanwhile t) with
        | (t', None) | (t', Some EEXIST) => (t', Ok tt)
        | (t', Some _) => (t', Raise IOError)
        end
    | Some (Folder _) => (t, Ok tt)
    | Some AFile => (t, Raise IOError)
    end.
End Folders.

(** *** Texts *)

(** utils.py:113-123, of pairs of texts; a zero [indent] divides by zero. *)
Definition format_item (indent : nat) (k v : pystr) : pystr :=
  let nk := length k in
  let ntabs := Nat.max 1 (nk / indent + (if nk mod indent =? 0 then 0 else 1)) in
  k ++ repeat 32%N (ntabs * indent - nk) ++ lit " = " ++ v.
Definition format_pairs (indent : nat) (items : list (pystr * pystr)) : pystr :=
  join [10%N] (map (fun i => format_item indent (fst i) (snd i)) items).

(** utils.py:71-84: of a text, and of other objects by their truth; those have
    no [strip], and [str2bool] turns that into [ValueError]. *)
Inductive anything := AText (s : pystr) | AnObject (truth : bool).
Definition obj2bool (v : anything) : res bool :=
  match v with
  | AText [] => Ok false
  | AText s => Ok (str2bool s)
  | AnObject false => Ok false
  | AnObject true => Raise ValueError
  end.
