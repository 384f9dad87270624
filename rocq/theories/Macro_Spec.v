(** * Python from Excel's cells: specification *)
From Coq Require Import String.
From Verif Require Import PyBase.

(** Python's lines: they end at a CR, an LF, or both. *)
Fixpoint lines_from (cur : list N) (s : list N) : list (list N) :=
  match s with
  | [] => match cur with [] => [] | _ => [rev cur] end
  | 13%N :: 10%N :: s' => rev cur :: lines_from [] s'
  | 13%N :: s' | 10%N :: s' => rev cur :: lines_from [] s'
  | c :: s' => lines_from (c :: cur) s'
  end.
Definition lines (s : list N) : list (list N) := lines_from [] s.
Definition one_line (s : list N) : Prop := ~ In 13%N s /\ ~ In 10%N s.

(** Python's raw texts: what follows [r'], up to the quote that ends it.  A backslash is kept, but the
    character after it does not end the text. *)
Fixpoint raw_text (s : list N) : option (list N * list N) :=
  match s with
  | [] => None
  | c :: s' =>
      if (c =? 39)%N then Some ([], s')
      else if (c =? 10)%N || (c =? 13)%N then None
      else if (c =? 92)%N then
        match s' with
        | [] => None
        | d :: s2 => match raw_text s2 with Some (v, rest) => Some (c :: d :: v, rest) | None => None end
        end
      else match raw_text s' with Some (v, rest) => Some (c :: v, rest) | None => None end
  end.

(** Names of Python: ASCII letters, digits and underscores, no digit first *)
Definition letter (c : N) : Prop := (65 <= c <= 90 \/ 97 <= c <= 122 \/ c = 95)%N.
Definition identifier (s : list N) : Prop :=
  exists c r, s = c :: r /\ letter c /\ Forall (fun c => letter c \/ (48 <= c <= 57)%N) r.
