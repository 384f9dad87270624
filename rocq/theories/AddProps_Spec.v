(** * Additional properties: patterns and what they are found in *)
From Coq Require Import String.
From Verif Require Import PyBase.

(** A character of a pattern: a letter for itself, any character but a newline, or a quoted one *)
Inductive single := Letter (c : N) | AnyChar | Quoted (c : N).
Inductive times := Once | Many | Some1 | Maybe.

(** Patterns: alternatives of sequences, with groups *)
Inductive alts := One (t : seq) | Or (t : seq) (p : alts)
with seq :=
| Empty
| Char (u : single) (q : times) (t : seq)
| Start (t : seq)
| Finish (t : seq)
| Group (p : alts) (t : seq).

(** *** How they are written *)

Definition write_single (u : single) : list N :=
  match u with Letter c => [c] | AnyChar => lit "." | Quoted c => lit "\" ++ [c] end.
Definition write_times (q : times) : list N :=
  match q with Once => [] | Many => lit "*" | Some1 => lit "+" | Maybe => lit "?" end.
Fixpoint write (p : alts) : list N :=
  match p with One t => write_seq t | Or t p => write_seq t ++ lit "|" ++ write p end
with write_seq (t : seq) : list N :=
  match t with
  | Empty => []
  | Char u q t => write_single u ++ write_times q ++ write_seq t
  | Start t => lit "^" ++ write_seq t
  | Finish t => lit "$" ++ write_seq t
  | Group p t => lit "(" ++ write p ++ lit ")" ++ write_seq t
  end.

Definition meta : list N := lit "|().^$*+?\[]{}".
Definition single_ok (u : single) : Prop :=
  match u with Letter c => ~ In c meta | AnyChar => True | Quoted c => In c meta end.
(** Letters have no meaning, and quoted characters have one. *)
Fixpoint ok (p : alts) : Prop :=
  match p with One t => seq_ok t | Or t p => seq_ok t /\ ok p end
with seq_ok (t : seq) : Prop :=
  match t with
  | Empty => True
  | Char u q t => single_ok u /\ seq_ok t
  | Start t | Finish t => seq_ok t
  | Group p t => ok p /\ seq_ok t
  end.

(** *** What they match *)

Definition stands_for (u : single) (c : N) : Prop :=
  match u with Letter d | Quoted d => c = d | AnyChar => c <> 10%N end.
Definition so_often (q : times) (n : nat) : Prop :=
  match q with Once => n = 1 | Many => True | Some1 => 1 <= n | Maybe => n <= 1 end.

(** The word [w], with [before] before it and [after] after it *)
Fixpoint matches (p : alts) (before w after : list N) : Prop :=
  match p with
  | One t => seq_matches t before w after
  | Or t p => seq_matches t before w after \/ matches p before w after
  end
with seq_matches (t : seq) (before w after : list N) : Prop :=
  match t with
  | Empty => w = []
  | Char u q t => exists v w', w = v ++ w' /\ Forall (stands_for u) v /\ so_often q (length v) /\
      seq_matches t (before ++ v) w' after
  | Start t => before = [] /\ seq_matches t before w after
  | Finish t => (w ++ after = [] \/ w ++ after = [10%N]) /\ seq_matches t before w after
  | Group p t => exists v w', w = v ++ w' /\ matches p before v (w' ++ after) /\
      seq_matches t (before ++ v) w' after
  end.

(** Somewhere in [s] *)
Definition found (p : alts) (s : list N) : Prop :=
  exists before w after, s = before ++ w ++ after /\ matches p before w after.

(** A key that is not among the properties, nor matched by a pattern *)
Definition extra (props : list (list N)) (ps : list alts) (k : list N) : Prop :=
  ~ In k props /\ ~ Exists (fun p => found p k) ps.
