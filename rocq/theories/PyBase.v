(** * Shared vocabulary: Python strings, ints, dicts and exceptions.

    Strings are lists of code points.  Everything about character classes is
    exact on the ASCII range; see DESIGN.md for the treatment of the others. *)
From Coq Require Import Ascii String.
From Coq Require Export List NArith ZArith Bool Lia Arith.
Export ListNotations.
Open Scope list_scope.

Notation pychar := N (only parsing).
Notation pystr := (list N) (only parsing).

(** String literals of the models: [lit "abc"]. *)
Definition lit (x : string) : pystr := map N_of_ascii (list_ascii_of_string x).
Definition chr (x : string) : pychar := hd 0%N (lit x).
(** Only for displaying computed results. *)
Definition show (x : pystr) : string := string_of_list_ascii (map ascii_of_N x).

(** ** Exceptions as values *)

(** The exception classes that the modelled code raises or lets through. *)
Inductive exn :=
| ValueError | SyntaxError | TypeError | KeyError | IndexError | AttributeError
| RefResolutionError | EmptyCapture | UnboundLocalError | AssertionError
| ValidationError | ReError | NameError | IOError | OutOfFuel
| OtherError (tag : nat).

Inductive res (A : Type) :=
| Ok (a : A)
| Raise (e : exn).
Arguments Ok {A} a.
Arguments Raise {A} e.

Definition rbind {A B} (x : res A) (f : A -> res B) : res B :=
  match x with Ok a => f a | Raise e => Raise e end.
Notation "'do' x <- e1 ; e2" := (rbind e1 (fun x => e2))
  (at level 200, x pattern, e1 at level 100, e2 at level 200, right associativity).

Fixpoint rmap {A B} (f : A -> res B) (l : list A) : res (list B) :=
  match l with
  | [] => Ok []
  | a :: l' => do b <- f a; do bs <- rmap f l'; Ok (b :: bs)
  end.

(** ** Characters *)

Definition is_digit (c : pychar) : bool := (48 <=? c)%N && (c <=? 57)%N.
Definition is_upper (c : pychar) : bool := (65 <=? c)%N && (c <=? 90)%N.
Definition is_lower (c : pychar) : bool := (97 <=? c)%N && (c <=? 122)%N.
Definition is_alpha (c : pychar) : bool := is_upper c || is_lower c.
(** [str.isspace], also the regex class [\s], on code points below 256. *)
Definition is_space (c : pychar) : bool :=
  ((9 <=? c)%N && (c <=? 13)%N) || ((28 <=? c)%N && (c <=? 32)%N)
  || (c =? 133)%N || (c =? 160)%N.
Definition up (c : pychar) : pychar := if is_lower c then (c - 32)%N else c.
Definition low (c : pychar) : pychar := if is_upper c then (c + 32)%N else c.
(** [str.upper] and [str.lower]. *)
Definition upper (x : pystr) : pystr := map up x.
Definition lower (x : pystr) : pystr := map low x.

(** ** Strings *)

Fixpoint str_eqb (a b : pystr) : bool :=
  match a, b with
  | [], [] => true
  | x :: a', y :: b' => (x =? y)%N && str_eqb a' b'
  | _, _ => false
  end.

(** [s.split(sep)] for a one-character separator. *)
Fixpoint split_on (sep : pychar) (s : pystr) : list pystr :=
  match s with
  | [] => [[]]
  | c :: s' =>
      if (c =? sep)%N then [] :: split_on sep s'
      else match split_on sep s' with
           | [] => [[c]]
           | w :: ws => (c :: w) :: ws
           end
  end.

(** [sep.join(parts)]. *)
Fixpoint join (sep : pystr) (parts : list pystr) : pystr :=
  match parts with
  | [] => []
  | [p] => p
  | p :: ps => p ++ sep ++ join sep ps
  end.

(** [s.replace(old, new)] with a one-character [old]. *)
Fixpoint replace1 (old : pychar) (new : pystr) (s : pystr) : pystr :=
  match s with
  | [] => []
  | c :: s' => if (c =? old)%N then new ++ replace1 old new s' else c :: replace1 old new s'
  end.

(** [s.replace(old, new)] with a two-character [old]: leftmost,
    non-overlapping. *)
Fixpoint replace2 (o1 o2 : pychar) (new : pystr) (s : pystr) : pystr :=
  match s with
  | [] => []
  | c :: s' =>
      match s' with
      | [] => [c]
      | d :: s'' =>
          if (c =? o1)%N && (d =? o2)%N then new ++ replace2 o1 o2 new s''
          else c :: replace2 o1 o2 new s'
      end
  end.

Definition starts_with (p s : pystr) : bool := str_eqb p (firstn (length p) s).
Definition ends_with (p s : pystr) : bool :=
  (length p <=? length s)%nat && str_eqb p (skipn (length s - length p) s).

Fixpoint drop_while (f : pychar -> bool) (s : pystr) : pystr :=
  match s with
  | [] => []
  | c :: s' => if f c then drop_while f s' else s
  end.
(** [s.strip()] *)
Definition strip (s : pystr) : pystr :=
  rev (drop_while is_space (rev (drop_while is_space s))).

(** ** Integers *)

Definition digit_val (c : pychar) : Z := Z.of_N c - 48.

(** Digits after a first digit, single underscores allowed between digits. *)
Fixpoint int_digits (acc : Z) (s : pystr) : option Z :=
  match s with
  | [] => Some acc
  | c :: s' =>
      if is_digit c then int_digits (acc * 10 + digit_val c) s'
      else if (c =? 95)%N then
        match s' with
        | d :: s'' => if is_digit d then int_digits (acc * 10 + digit_val d) s'' else None
        | [] => None
        end
      else None
  end.

Definition int_unsigned (s : pystr) : option Z :=
  match s with
  | c :: s' => if is_digit c then int_digits (digit_val c) s' else None
  | [] => None
  end.

(** [int(s)] of a string; [None] stands for the ValueError. *)
Definition py_int (s : pystr) : option Z :=
  match strip s with
  | [] => None
  | c :: s' =>
      if (c =? 45)%N then option_map Z.opp (int_unsigned s')
      else if (c =? 43)%N then int_unsigned s'
      else int_unsigned (c :: s')
  end.

Fixpoint dec_fuel (f : nat) (n : N) (acc : pystr) : pystr :=
  let acc' := (48 + n mod 10)%N :: acc in
  match f with
  | O => acc'
  | S f' => if (n / 10 =? 0)%N then acc' else dec_fuel f' (n / 10) acc'
  end.
(** [str(n)] of a non-negative integer, then of any integer. *)
Definition str_of_N (n : N) : pystr := dec_fuel (N.size_nat n) n [].
Definition str_of_Z (z : Z) : pystr :=
  if (z <? 0)%Z then 45%N :: str_of_N (Z.to_N (- z)) else str_of_N (Z.to_N z).

(** ** Dicts: insertion-ordered association lists *)

Section Dict.
  Context {K V : Type} (keqb : K -> K -> bool).

  Fixpoint dget (k : K) (d : list (K * V)) : option V :=
    match d with
    | [] => None
    | (k', v) :: d' => if keqb k k' then Some v else dget k d'
    end.

  (** [d[k] = v]: in place if present, else at the end. *)
  Fixpoint dset (k : K) (v : V) (d : list (K * V)) : list (K * V) :=
    match d with
    | [] => [(k, v)]
    | (k', v') :: d' => if keqb k k' then (k', v) :: d' else (k', v') :: dset k v d'
    end.

  (** [del d[k]] *)
  Fixpoint ddel (k : K) (d : list (K * V)) : list (K * V) :=
    match d with
    | [] => []
    | (k', v') :: d' => if keqb k k' then ddel k d' else (k', v') :: ddel k d'
    end.

  Definition dmem (k : K) (d : list (K * V)) : bool :=
    match dget k d with Some _ => true | None => false end.

  Definition dkeys (d : list (K * V)) : list K := map fst d.
End Dict.

(** [l[z]] on a Python list: negative indices count from the end. *)
Definition list_index {A} (l : list A) (z : Z) : option nat :=
  let n := Z.of_nat (length l) in
  if (0 <=? z)%Z then (if (z <? n)%Z then Some (Z.to_nat z) else None)
  else if (- n <=? z)%Z then Some (Z.to_nat (n + z)) else None.

Definition list_getitem {A} (l : list A) (z : Z) : option A :=
  match list_index l z with
  | Some i => nth_error l i
  | None => None
  end.

Fixpoint list_update {A} (l : list A) (i : nat) (v : A) : list A :=
  match l, i with
  | [], _ => []
  | _ :: l', O => v :: l'
  | x :: l', S i' => x :: list_update l' i' v
  end.

Definition list_setitem {A} (l : list A) (z : Z) (v : A) : option (list A) :=
  match list_index l z with
  | Some i => Some (list_update l i v)
  | None => None
  end.
