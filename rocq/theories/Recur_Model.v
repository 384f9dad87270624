(** * Recursive lassos over files: the filters that run filters, tied to the ranger

    [/repo/pandalone/xleash/_filter.py] lines 34-45, 356-395 and 540-577.  A ranger has one
    table of filters, and those of this file call the ranger again.  Here the table is made
    for some number of nested calls: the one too many is Python's [RecursionError]. *)
From Coq Require Import String QArith.
From Verif Require Import PyBase Json Coords_Model Capture_Model Parse_Model Lasso_Model Sheets_Model.
From Verif Require Import OsPath_Model FileUrl_Model ReadRect_Model Dates_Model Whole_Model.

(** The parameters of [recursive_filter], _filter.py:373: positional ones first, then by name.
    [None] is the TypeError of the call. *)
Definition parameters : list pystr := [lit "filters"; lit "include"; lit "exclude"; lit "depth"].
Fixpoint bind_names (names : list pystr) (args : list json) (kwds : dict) : option dict :=
  match args, names with
  | [], _ => if forallb (fun kv => existsb (str_eqb (fst kv)) names) kwds then Some kwds else None
  | a :: args', n :: names' => match bind_names names' args' kwds with Some d => Some ((n, a) :: d) | None => None end
  | _ :: _, [] => None
  end.
Definition argument (name : string) (default : json) (d : dict) : json :=
  match sget (lit name) d with Some v => v | None => default end.

(** [for f in filters]: the characters of texts, the keys of dictionaries *)
Definition items_of (j : json) : option (list json) :=
  match j with
  | JList l => Some l
  | JStr s => Some (map (fun c => JStr [c]) s)
  | JDict d => Some (map (fun kv => JStr (fst kv)) d)
  | _ => None
  end.
(** [include and as_list(include)], _filter.py:269-270: a list of texts, or a text; other
    things, and lists with other items, are not modelled. *)
Definition texts_of (j : json) : option (option (list pystr)) :=
  match j with
  | JNull | JBool false | JNum 0 | JStr [] | JDict [] => Some None
  | JStr s => Some (Some [s])
  | JList l => (fix go (l : list json) : option (option (list pystr)) :=
                  match l with
                  | [] => Some (Some [])
                  | JStr s :: l' => match go l' with Some (Some r) => Some (Some (s :: r)) | _ => None end
                  | _ => None
                  end) l
  | _ => None
  end.
(** [cdepth != depth]: [True] is 1; what is no number differs from all. *)
Definition depth_of (j : json) : option Z :=
  match j with JNum z => Some z | JBool true => Some 1%Z | JBool false => Some 0%Z | _ => None end.

Section Recur.
  Variable lossy : list N -> pystr.
  Variable bad_host : pystr -> bool.
  Variable expandvars : pystr -> pystr.
  Variable expanduser_tilde : pystr -> pystr.
  Variable word_char : pychar -> bool.
  Variable set_list : list key -> list key.
  Variable disk : source -> option xbook.
  Variable to_json : xvalue -> json.
  Variable loads : pystr -> option json.
  Variable base_opts : dict.
  Variable cwd : pystr.
  Variable has_pandas : bool.
  (** The other filters *)
  Variable others : pystr -> option (Lasso_Model.filter xworld (nat * xl)).

  Notation filter := (Lasso_Model.filter xworld (nat * xl)).
  Definition recursion_error : exn := OtherError 9.

  (** _filter.py:373-395 [recursive_filter], of a ranger with these filters.  What it leaves in
      the values of the given lasso when it fails is not kept. *)
  Definition recurse_run (filters : pystr -> option filter) (l : lasso (nat * xl)) (args : list json) (kwds : dict)
    : M xworld (nat * xl) (fval (nat * xl)) := fun s =>
    match bind_names parameters args kwds with
    | None => (s, Raise TypeError)
    | Some d =>
        match items_of (argument "filters" (JList []) d), texts_of (argument "include" JNull d), texts_of (argument "exclude" JNull d) with
        | Some filts, Some include, Some exclude =>
            let '(s', _, r) := recursive_filter filters base_opts loads (urldefrag bad_host)
                (fetch lossy bad_host expandvars expanduser_tilde word_char set_list disk cwd) states_of margins_of (read_of to_json)
                has_pandas l filts include exclude (depth_of (argument "depth" (JNum (-1)) d)) s in
            (s', do l' <- r; Ok (inl l'))
        | _, _, _ => (s, Raise TypeError)
        end
    end.

  (** _filter.py:540-577 [install_default_filters]; both have a docstring. *)
  Fixpoint table (n : nat) : pystr -> option filter := fun name =>
    if str_eqb name (lit "recurse") then
      Some (Filter (match n with O => fun _ _ _ => raise recursion_error | S n' => recurse_run (table n') end) (Some (lit "doc")))
    else if str_eqb name (lit "pipe") then
      Some (Filter (match n with O => fun _ _ _ => raise recursion_error | S n' => fun l args _ => pipe_filter (table n') (inl l) args end) (Some (lit "doc")))
    else others name.

  Definition lasso_deep (n : nat) : bool -> pystr -> lasso (nat * xl) -> M xworld (nat * xl) json :=
    lasso_files lossy bad_host expandvars expanduser_tilde word_char set_list disk to_json loads base_opts (table n) cwd.

  (** Lassos one after the other, with the same factory: what they give *)
  Fixpoint lassos_deep (n : nat) (xlrefs : list pystr) (w : xworld) : list (res json) :=
    match xlrefs with
    | [] => []
    | x :: rest => let (s, r) := lasso_deep n false x no_context (State w None) in r :: lassos_deep n rest (world s)
    end.
End Recur.
