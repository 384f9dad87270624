(** * File paths on Windows: what they are *)
From Verif Require Import PyBase Url_Spec.

(** Where a path starts: at a drive, at a share of another host, at the root of the current drive,
    or at the current folder *)
Inductive start := Drive (letter : N) | Remote | Rooted | Here.
(** The names of a path, and whether it has a backslash at its end *)
Record wpath := WPath { w_start : start; w_names : list (list N); w_last : bool }.

(** Characters of names: neither slash, backslash, colon nor the newline, and no surrogates *)
Definition name_char (c : N) : Prop := scalar c /\ ~ In c [47; 92; 58; 10]%N.
Definition name (s : list N) : Prop := s <> [] /\ Forall name_char s.
Definition letter (c : N) : Prop := (65 <= c <= 90 \/ 97 <= c <= 122)%N.

(** Paths as one writes them: a lone drive is written with a backslash, as "C:" is something else;
    the root has just one; a host is not the question mark of the prefix of long paths. *)
Definition proper (w : wpath) : Prop :=
  Forall name (w_names w) /\
  match w_start w with
  | Drive c => letter c /\ (w_names w = [] -> w_last w = true)
  | Remote => exists host names, w_names w = host :: names /\ host <> [63]%N
  | Here => w_names w <> []
  | Rooted => w_names w = [] -> w_last w = false
  end.

(** All the names, with something before, between and after them *)
Fixpoint chained (sep : N) (names : list (list N)) : list N :=
  match names with
  | [] => []
  | n :: names' => sep :: n ++ chained sep names'
  end.
Definition last_sep (sep : N) (b : bool) : list N := if b then [sep] else [].
Definition text (w : wpath) : list N :=
  let names := chained 92 (w_names w) ++ last_sep 92 (w_last w) in
  match w_start w with
  | Drive c => c :: 58%N :: names
  | Remote => 92%N :: names
  | Rooted => match w_names w with [] => [92%N] | _ => names end
  | Here => tl names
  end.

Definition capital (c : N) : N := if (97 <=? c)%N then (c - 32)%N else c.
(** The same path, with a capital letter for the drive *)
Definition capitalised (w : wpath) : wpath :=
  WPath (match w_start w with Drive c => Drive (capital c) | s => s end) (w_names w) (w_last w).

(** The URL path of a path: that of each name after a slash, three of these before a drive, and
    four in front of a host *)
Definition url_names (w : wpath) (us : list (list N)) : Prop :=
  Forall2 (fun n u => reads u n /\ url_path u /\ ~ In 47%N u) (w_names w) us.
Definition url_text (w : wpath) (us : list (list N)) : list N :=
  let names := chained 47 us ++ last_sep 47 (w_last w) in
  match w_start w with
  | Drive c => [47; 47; 47]%N ++ capital c :: 58%N :: names
  | Remote => [47; 47; 47]%N ++ names
  | Rooted => match us with [] => [47%N] | _ => names end
  | Here => tl names
  end.
