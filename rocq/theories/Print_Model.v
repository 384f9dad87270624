(** * Printing: model of the texts of [/repo/pandalone/xleash/_parse.py] lines 44-52, 82-87 and
    [/repo/pandalone/xleash/_lasso.py] lines 39-44 *)
From Coq Require Import String.
From Verif Require Import PyBase Coords_Model Capture_Model.

(** ["%s" % coord] *)
Definition coord_str (c : coord) : pystr :=
  match c with CStr s => s | CInt z => str_of_Z z | CNone => lit "None" end.
(** [int(c)], or [None] if that raises: the bare except of _parse.py:50 *)
Definition as_int (c : coord) : option Z :=
  match c with CStr s => py_int s | CInt z => Some z | CNone => None end.

(** _parse.py:44-52 [Cell.__str__] *)
Definition cell_str (c : cell) : pystr :=
  match as_int (c_col c) with
  | Some z => lit "R" ++ coord_str (c_row c) ++ lit "C" ++ str_of_Z z
  | None => coord_str (c_col c) ++ coord_str (c_row c)
  end.

(** _parse.py:82-87 [Edge.__str__] *)
Definition edge_str (e : edge) : pystr :=
  match mov e with
  | None | Some [] => cell_str (land e)
  | Some m => cell_str (land e) ++ lit "(" ++ m ++ match mod_ e with Some d => d | None => [] end ++ lit ")"
  end.

(** _lasso.py:39-44 [_Lasso_to_edges_str].  A lone 1st edge is not made a text, and adding one to
    it fails. *)
Definition edges_str (st nd : option edge) (exp : option pystr) : res pystr :=
  let text o := match o with Some e => edge_str e | None => [] end in
  match st, nd with
  | Some _, None => Raise TypeError
  | _, _ => Ok (text st ++ lit ":" ++ text nd ++ match exp with None | Some [] => [] | Some m => lit ":" ++ upper m end)
  end.
