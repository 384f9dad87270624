(** * The long description of the package: model of [yield_rst_only_markup],
      [/repo/setup.py] lines 65-127 *)
From Coq Require Import String.
From Verif Require Import PyBase.

(** ** Regular expressions of Python, as far as they are used there *)

(** A character of a pattern, in lower case, against one of the text, with [re.IGNORECASE] (on texts):
    besides ASCII, the dotted and dotless i's, the long s and the sign of Kelvin match (re/_casefix.py). *)
Definition ci_char (p c : pychar) : bool :=
  (low c =? p)%N
  || ((p =? chr "i")%N && ((c =? 304)%N || (c =? 305)%N))
  || ((p =? chr "s")%N && (c =? 383)%N)
  || ((p =? chr "k")%N && (c =? 8490)%N).
(** What follows a literal, given in lower case *)
Fixpoint ci_lit (p s : pystr) : option pystr :=
  match p, s with
  | [], _ => Some s
  | x :: p', c :: s' => if ci_char x c then ci_lit p' s' else None
  | _ :: _, [] => None
  end.
(** What follows a character *)
Definition after (x : pychar) (s : pystr) : option pystr :=
  match s with c :: s' => if (c =? x)%N then Some s' else None | [] => None end.
(** What follows a colon and a backtick *)
Definition opened (s : pystr) : option pystr :=
  match after (chr ":") s with Some s' => after (chr "`") s' | None => None end.
(** The longest run of characters, and the rest *)
Fixpoint span (f : pychar -> bool) (s : pystr) : pystr * pystr :=
  match s with
  | c :: s' => if f c then let '(a, b) := span f s' in (c :: a, b) else ([], s)
  | [] => ([], [])
  end.

Section Oracle.
  (** [\w] beyond ASCII *)
  Variable word_char : pychar -> bool.
  Definition is_word (c : pychar) : bool :=
    if (c <? 128)%N then is_alpha c || is_digit c || (c =? 95)%N else word_char c.

  (** The names of a role: one or several literals, or any word *)
  Inductive names := These (ns : list pystr) | AnyWord.
  (** A match of the name followed by a colon and a backtick: the name, and what follows *)
  Fixpoint match_names (ns : list pystr) (s : pystr) : option (pystr * pystr) :=
    match ns with
    | [] => None
    | n :: ns' =>
        match ci_lit n s with
        | Some s' => match opened s' with Some rest => Some (firstn (length n) s, rest) | None => match_names ns' s end
        | None => match_names ns' s
        end
    end.
  Definition match_name (ns : names) (s : pystr) : option (pystr * pystr) :=
    match ns with
    | These ns => match_names ns s
    | AnyWord =>
        match span is_word s with
        | ([], _) => None
        | (w, s') => match opened s' with Some rest => Some (w, rest) | None => None end
        end
    end.

  (** A rule: a role, whether its text may be empty, and what becomes of its name and text; or a literal *)
  Inductive rule :=
  | RRole (ns : names) (may_be_empty : bool) (template : pystr -> pystr -> pystr)
  | RLit (pattern : pystr) (replacement : pystr).

  (** A match at the start of a text: its replacement, and what follows. Backtracking is of no use:
      words have no colons, and texts of roles no backticks. *)
  Definition match_rule (r : rule) (s : pystr) : option (pystr * pystr) :=
    match r with
    | RRole ns empty template =>
        match after (chr ":") s with
        | Some s' =>
            match match_name ns s' with
            | Some (w, rest) =>
                let '(t, s'') := span (fun c => negb (c =? chr "`")%N) rest in
                match after (chr "`") s'' with
                | Some rest' => if empty || negb (match t with [] => true | _ => false end) then Some (template w t, rest') else None
                | None => None
                end
            | None => None
            end
        | None => None
        end
    | RLit p new => match ci_lit p s with Some rest => Some (new, rest) | None => None end
    end.
  (** [regex.sub(sub, line)]: no pattern matches the empty text. *)
  Fixpoint sub_fuel (n : nat) (r : rule) (s : pystr) : pystr :=
    match n with
    | O => s
    | S n' =>
        match s with
        | [] => []
        | c :: s' =>
            match match_rule r s with
            | Some (new, rest) => new ++ sub_fuel n' r rest
            | None => c :: sub_fuel n' r s'
            end
        end
    end.
  Definition re_sub (r : rule) (s : pystr) : pystr := sub_fuel (length s) r s.

  (** ** setup.py:71-112 *)
  Definition in_call (w t : pystr) : pystr := w ++ lit "(`" ++ t ++ lit "`)".
  Definition strong (w t : pystr) : pystr := lit "**" ++ t ++ lit "**".
  Definition substs : list rule := [
    RRole (These [lit "abbr"]) false (fun _ t => t);
    RRole (These [lit "envvar"]) false (fun _ t => lit "``env[$" ++ t ++ lit "]``");
    RRole (These [lit "ref"]) false (fun _ t => lit "ref: *" ++ t ++ lit "*");
    RRole (These [lit "term"]) false strong;
    RRole (These [lit "dfn"]) false strong;
    RRole (These [lit "samp"; lit "guilabel"; lit "menuselection"; lit "doc"; lit "file"]) false in_call;
    RRole AnyWord true in_call;
    RLit (lit ".. doctest") (lit "code-block");
    RLit (lit ".. module") (lit "code-block");
    RLit (lit ".. currentmodule::") (lit "currentmodule:");
    RLit (lit ".. plot::") (lit ".. plot:");
    RLit (lit ".. seealso") (lit "info");
    RLit (lit ".. glossary") (lit "rubric");
    RLit (lit ".. figure::") (lit ".. ");
    RLit (lit ".. image::") (lit ".. ");
    RLit (lit ".. dispatcher") (lit "code-block");
    RLit (lit "|version|") (lit "x.x.x");
    RLit (lit "|today|") (lit "x.x.x");
    RLit (lit ".. include:: authors") (lit "see: AUTHORS")].

  (** setup.py:116-124 *)
  Definition clean_line (line : pystr) : pystr := fold_left (fun line r => re_sub r line) substs line.
  (** setup.py:126-127 and 135 *)
  Definition long_desc (lines : list pystr) : pystr := concat (map clean_line lines).
End Oracle.
