(** * File paths: what they mean *)
From Verif Require Import PyBase.

(** Folders are the names passed from the root down to them, the last one first.  Following names
    from a folder: empty ones and "." stay, ".." goes up (at the root it stays), others go down. *)
Fixpoint walk (folder : list pystr) (names : list pystr) : list pystr :=
  match names with
  | [] => folder
  | n :: rest =>
      if str_eqb n [] then walk folder rest
      else if str_eqb n [46%N] then walk folder rest
      else if str_eqb n [46; 46]%N then walk (tl folder) rest
      else walk (n :: folder) rest
  end.

(** Where a path leads to from a folder (symbolic links apart): absolute ones start at the root. *)
Definition leads_to (folder : list pystr) (path : pystr) : list pystr :=
  walk (match path with 47%N :: _ => [] | _ => folder end) (split_on 47%N path).

(** The root of a path: none if relative, else "/", or "//" which POSIX tells apart. *)
Inductive root := Relative | Slash | TwoSlashes.

Definition root_of (path : pystr) : root :=
  match path with
  | 47%N :: 47%N :: 47%N :: _ => Slash
  | 47%N :: 47%N :: _ => TwoSlashes
  | 47%N :: _ => Slash
  | _ => Relative
  end.

Definition ends_slash (path : pystr) : Prop := exists p, path = p ++ [47%N].

(** Paths where a backslash or a line-end can not be mistaken *)
Definition plain (path : pystr) : Prop := ~ In 92%N path /\ ~ In 10%N path.
