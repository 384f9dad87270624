(** * Vocabulary for properties C16-C18 *)
From Coq Require Import String.
From Verif Require Import PyBase Coords_Model.

(** The order of the columns of a spreadsheet: A, B, .. Z, AA, AB, .. ZZ, AAA. *)
Inductive next_name : pystr -> pystr -> Prop :=
| Next_last : forall p c, (65 <= c < 90)%N -> next_name (p ++ [c]) (p ++ [(c + 1)%N])
| Next_Z : next_name (lit "Z") (lit "AA")
| Next_carry : forall p p', next_name p p' -> next_name (p ++ lit "Z") (p' ++ lit "A").

(** [names n s]: the column number [n], from zero, is called [s]. *)
Inductive names : nat -> pystr -> Prop :=
| Names_A : names 0 (lit "A")
| Names_S : forall n s s', names n s -> next_name s s' -> names (S n) s'.

Definition letters (s : pystr) : Prop := s <> [] /\ forall c, In c s -> is_alpha c = true.

(** Same text up to the case of letters. *)
Definition same_letters (s t : pystr) : Prop := upper s = upper t.

(** What a coordinate text denotes, given the first and the last full row (or
    column) and the base; [py_int] is Python's [int]. *)
Inductive denotes (first last : Z) (base : option Z) : coord -> Z -> Prop :=
| Dn_first : denotes first last base (CStr (lit "^")) first
| Dn_last : denotes first last base (CStr (lit "_")) last
| Dn_base : forall b, base = Some b -> denotes first last base (CStr (lit ".")) b
| Dn_pos : forall s z, py_int s = Some z -> (0 < z)%Z -> denotes first last base (CStr s) (z - 1)
| Dn_neg : forall s z, py_int s = Some (- z)%Z -> (0 < z)%Z -> denotes first last base (CStr s) (last - (z - 1))
| Dn_ipos : forall z, (0 < z)%Z -> denotes first last base (CInt z) (z - 1)
| Dn_ineg : forall z, (0 < z)%Z -> denotes first last base (CInt (- z)) (last - (z - 1)).

Inductive denotes_col (first last : Z) (base : option Z) : coord -> Z -> Prop :=
| Dc_same : forall c z, denotes first last base c z -> denotes_col first last base c z
| Dc_name : forall s n, letters s -> names n (upper s) -> denotes_col first last base (CStr s) (Z.of_nat n).

(** The coordinate is written as [-z]: the [z]-th from the last. *)
Definition counts_back (c : coord) (z : Z) : Prop :=
  c = CInt (- z) \/ exists s, c = CStr s /\ py_int s = Some (- z)%Z.
