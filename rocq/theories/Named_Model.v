(** * The representations of cells, edges and sheets: model of [/repo/pandalone/xleash/_parse.py]
      lines 26-87 and [/repo/pandalone/xleash/io/backend.py] lines 430-432

    Fields are texts or [None]; other values have no [upper()].  [repr] of texts is that of [Repr_Model]. *)
From Coq Require Import String.
From Verif Require Import PyBase Coords_Model ReadRect_Model Dates_Model Whole_Model Repr_Model.

(** _parse.py:26 [Cell], all fields of it *)
Record full_cell := FullCell { f_row : option pystr; f_col : option pystr; f_brow : option pystr; f_bcol : option pystr }.
(** _parse.py:34-42 [Cell.__new__] *)
Definition full_cell_new (row col brow bcol : option pystr) : full_cell :=
  FullCell (option_map upper row) (option_map upper col) (option_map upper brow) (option_map upper bcol).

(** _parse.py:66 [Edge] *)
Record full_edge := FullEdge { f_land : full_cell; f_mov : option pystr; f_mod : option pystr }.
(** _parse.py:97-141 [Edge_new] *)
Definition full_edge_new (row col mov mod_ : option pystr) (default : option full_edge) : option full_edge :=
  match row, col, mov, mod_ with
  | None, None, None, None => default
  | _, _, _, _ => Some (FullEdge (full_cell_new row col None None) (option_map upper mov) mod_)
  end.

Section Named.
  Variable printable : pychar -> bool.

  (** ["%r" % field] *)
  Definition field_repr (o : option pystr) : pystr := match o with None => lit "None" | Some s => str_repr printable s end.
  Definition filled (o : option pystr) : bool := match o with None | Some [] => false | Some _ => true end.

  (** _parse.py:54-59 [Cell.__repr__]; the first case is that of [namedtuple] *)
  Definition cell_repr (c : full_cell) : pystr :=
    if filled (f_brow c) || filled (f_bcol c) then
      lit "Cell(row=" ++ field_repr (f_row c) ++ lit ", col=" ++ field_repr (f_col c) ++
      lit ", brow=" ++ field_repr (f_brow c) ++ lit ", bcol=" ++ field_repr (f_bcol c) ++ lit ")"
    else lit "Cell(row=" ++ field_repr (f_row c) ++ lit ", col=" ++ field_repr (f_col c) ++ lit ")".

  (** That of [namedtuple] *)
  Definition edge_repr (e : full_edge) : pystr :=
    lit "Edge(land=" ++ cell_repr (f_land e) ++ lit ", mov=" ++ field_repr (f_mov e) ++ lit ", mod=" ++ field_repr (f_mod e) ++ lit ")".

  (** backend.py:430-432 [ABCSheet.__repr__], of an [XlrdSheet] *)
  Definition sheet_repr (o : xl) : pystr :=
    lit "XlrdSheet(book=" ++ str_repr printable (o_url o) ++ lit ", sheet_ids=[" ++
    str_repr printable (nth (o_index o) (xb_names (o_book o)) []) ++ lit ", " ++ str_of_Z (Z.of_nat (o_index o)) ++ lit "])".
End Named.
