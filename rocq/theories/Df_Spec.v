(** * The "df" filter: what its tables should be *)
From Verif Require Import PyBase Df_Model.

(** The cell of a row and a column, counted from 0. *)
Definition cell_of (t : list (list cell)) (r c : nat) : option cell :=
  match nth_error t r with Some row => nth_error row c | None => None end.

(** All rows have [w] cells. *)
Definition rect (w : nat) (t : list (list cell)) : Prop := Forall (fun row => length row = w) t.

Definition empty_cell (c : cell) : Prop := c = CNone \/ c = CStr [].

(** What a parser is shown of a cell: empty cells are empty texts. *)
Definition shown (c v : cell) : Prop :=
  (empty_cell c /\ v = CStr []) \/ (~ empty_cell c /\ v = c).

(** What the cell of an index column stands for: the nearest cell that is not empty, at or above
    it in the same column, but no higher than row [from]; the empty text if there is none. *)
Inductive stands_for (t : list (list cell)) (from r c : nat) : cell -> Prop :=
| Nearest : forall r0 v, from <= r0 <= r -> cell_of t r0 c = Some v -> ~ empty_cell v ->
    (forall r', r0 < r' <= r -> exists e, cell_of t r' c = Some e /\ empty_cell e) ->
    stands_for t from r c v
| NoneAbove : (forall r', from <= r' <= r -> exists e, cell_of t r' c = Some e /\ empty_cell e) ->
    stands_for t from r c (CStr []).

(** Column [c] of rows with [w] cells is among [cols], where -1 is the last one. *)
Definition index_column (w : nat) (cols : list Z) (c : nat) : Prop :=
  In (Z.of_nat c) cols \/ In (Z.of_nat c - Z.of_nat w)%Z cols.

(** [cols] are columns of rows with [w] cells. *)
Definition columns_exist (w : nat) (cols : list Z) : Prop :=
  Forall (fun z => - Z.of_nat w <= z < Z.of_nat w)%Z cols.

(** [t'] is [t] for a parser, with the index columns filled from row [from] on. *)
Definition index_filled (w from : nat) (cols : list Z) (t t' : list (list cell)) : Prop :=
  length t' = length t /\ rect w t' /\
  forall r c, r < length t -> c < w ->
    exists v, cell_of t' r c = Some v /\
      ((from <= r /\ index_column w cols c -> stands_for t from r c v) /\
       (~ (from <= r /\ index_column w cols c) ->
        exists c0, cell_of t r c = Some c0 /\ shown c0 v)).

(** The same for the rows from [from] on only. *)
Definition data_filled (w from : nat) (cols : list Z) (t t' : list (list cell)) : Prop :=
  length t' = length t /\
  forall r c, from <= r < length t -> c < w ->
    exists v, cell_of t' r c = Some v /\
      (index_column w cols c -> stands_for t from r c v) /\
      (~ index_column w cols c -> exists c0, cell_of t r c = Some c0 /\ shown c0 v).

(** A column where a header of some of the [rows] starts: the first one, or one not empty *)
Definition header_starts (t : list (list cell)) (rows : list nat) (c : nat) : Prop :=
  c = 0 \/ exists r v, In r rows /\ cell_of t r c = Some v /\ ~ empty_cell v.
(** The nearest such column at or before [c] *)
Definition header_column (t : list (list cell)) (rows : list nat) (c c0 : nat) : Prop :=
  c0 <= c /\ header_starts t rows c0 /\ forall c', c0 < c' <= c -> ~ header_starts t rows c'.
