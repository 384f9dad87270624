(** * Reading sheets: what the properties mean *)
From Coq Require Import QArith.
From Verif Require Import PyBase Coords_Model Capture_Model Capture_Spec Sheets_Model ReadRect_Model.
Open Scope Z_scope.

(** [t] has the rows and columns from [st] to [nd] in order; [cell r c v] tells that [v]
    may be at row [r], column [c]. *)
Definition placed {V} (cell : Z -> Z -> V -> Prop) (st nd : coords) (t : list (list V)) : Prop :=
  length t = Z.to_nat (fst nd - fst st + 1)
  /\ forall i row, nth_error t i = Some row ->
       length row = Z.to_nat (snd nd - snd st + 1)
       /\ forall j v, nth_error row j = Some v -> cell (fst st + Z.of_nat i) (snd st + Z.of_nat j) v.

(** The cell of an array; empty beyond its limits. *)
Definition array_cell {V} (a : array V) (r c : Z) (v : option V) : Prop :=
  (0 <= r < Z.of_nat (a_rows a) /\ 0 <= c < Z.of_nat (a_cols a) /\ v = a_at a (Z.to_nat r) (Z.to_nat c))
  \/ (~ (0 <= r < Z.of_nat (a_rows a) /\ 0 <= c < Z.of_nat (a_cols a)) /\ v = None).
Definition in_array {V} (a : array V) (p : coords) : Prop := 0 <= fst p < Z.of_nat (a_rows a) /\ 0 <= snd p < Z.of_nat (a_cols a).

(** The cell of an Excel sheet *)
Definition in_xsheet (s : xsheet) (r c : Z) : Prop := 0 <= r < Z.of_nat (xs_rows s) /\ 0 <= c < Z.of_nat (xs_cols s).
Definition xcell_at (s : xsheet) (r c : Z) : xcell := xs_at s (Z.to_nat r) (Z.to_nat c).
Definition blank (x : xcell) : Prop := x_type x = XEmpty \/ x_type x = XBlank.
Definition xlrd_cell (value : xcell -> xvalue -> Prop) (s : xsheet) (r c : Z) (v : xvalue) : Prop :=
  (in_xsheet s r c /\ ~ blank (xcell_at s r c) /\ value (xcell_at s r c) v)
  \/ (~ (in_xsheet s r c /\ ~ blank (xcell_at s r c)) /\ v = VNone).

Definition sorted_rect (st nd : coords) : Prop := 0 <= fst st <= fst nd /\ 0 <= snd st <= snd nd.

(** The position that an index stands for; negative ones count from the end. *)
Definition position (n : nat) (z : Z) (i : nat) : Prop :=
  (i < n)%nat /\ (z = Z.of_nat i \/ z = Z.of_nat i - Z.of_nat n).
(** The first one so named *)
Definition first_named (names : list pystr) (n : pystr) (i : nat) : Prop :=
  nth_error names i = Some n /\ forall j, (j < i)%nat -> nth_error names j <> Some n.
