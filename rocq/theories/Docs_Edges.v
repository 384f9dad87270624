(** * The project's own examples, run on the model: edges and moves of [/repo/pandalone/xleash/_parse.py] *)
From Coq Require Import String.
From Verif Require Import PyBase Coords_Model ExpMoves_Model Capture_Model Parse_Model Print_Model.
Local Open Scope string_scope.

Local Notation o x := (Some (lit x)).
Local Notation e r c := (Cell (CStr (lit r)) (CStr (lit c))).

(** _parse.py:112-124, and /repo/tests/test_xleash.py:117-143 *)
Example test_edge_new :
  edge_new (o "1") (o "a") (o "Rul") (o "-") None = Some (Edge (e "1" "A") (o "RUL") (o "-"))
  /\ edge_new (o "Any") (o "foo") (o "BaR") (o "+_&%") None = Some (Edge (e "ANY" "FOO") (o "BAR") (o "+_&%"))
  /\ edge_new None None None None None = None
  /\ edge_new (o "1") (o "a") (o "lu") None None = Some (Edge (e "1" "A") (o "LU") None)
  /\ edge_new (o "1") (o "A") (o "LUR") (o "+") None = Some (Edge (e "1" "A") (o "LUR") (o "+"))
  /\ edge_new (o "_") (o "^") (o "duL") None None = Some (Edge (e "_" "^") (o "DUL") None)
  /\ edge_new (o "1") (o "_") None None None = Some (Edge (e "1" "_") None None)
  /\ edge_new (o "^") (o "^") None None None = Some (Edge (e "^" "^") None None)
  /\ edge_new (o "1") (o "1") None None None = Some (Edge (e "1" "1") None None)
  /\ edge_new (o "_") (o "5") None None None = Some (Edge (e "_" "5") None None)
  /\ edge_new (o "1") (o "A") (o "U1") None None = Some (Edge (e "1" "A") (o "U1") None)
  /\ edge_new (o "1") (o "%") (o "U1") None None = Some (Edge (e "1" "%") (o "U1") None)
  /\ edge_new (o "1") (o "A") (o "D0L") None None = Some (Edge (e "1" "A") (o "D0L") None)
  /\ edge_new (o "1") (o "A") (o "@#") None None = Some (Edge (e "1" "A") (o "@#") None).
Proof. repeat split; vm_compute; reflexivity. Qed.

(** :152-154 *)
Example test_col2num : col2num (CStr (lit "D")) = Ok 3%Z /\ col2num (CStr (lit "aAa")) = Ok 702%Z.
Proof. split; vm_compute; reflexivity. Qed.

(** :156-169 *)
Example test_cell_str :
  cell_str (cell_new (o "1") (o "a")) = lit "A1" /\ cell_str (e "1" "1") = lit "R1C1" /\ cell_str (e "-1" "-1") = lit "R-1C-1"
  /\ cell_str (e "1" "-1") = lit "R1C-1" /\ cell_str (e "-1" "1") = lit "R-1C1" /\ cell_str (e "-1" "A") = lit "A-1".
Proof. repeat split; vm_compute; reflexivity. Qed.

(** :182-191 *)
Definition text_of (x : option edge) : option pystr := option_map edge_str x.
Example test_edge_str :
  text_of (edge_new (o "1") (o "a") None None None) = o "A1"
  /\ text_of (edge_new (o "1") (o "a") None (o "+") None) = o "A1"
  /\ text_of (edge_new (o "1") (o "a") (o "lu") None None) = o "A1(LU)"
  /\ text_of (edge_new (o "1") (o "4") (o "lu") (o "+") None) = o "R1C4(LU+)"
  /\ text_of (edge_new (o "-1") (o "-1") (o "dr") (o "-") None) = o "R-1C-1(DR-)"
  /\ text_of (edge_new (o "5") (o "5") None None None) = o "R5C5".
Proof. repeat split; vm_compute; reflexivity. Qed.

(** :193-205 *)
Example test_edges_str :
  edges_str (edge_new (o "1") (o "a") None None None) (edge_new (o "1") (o "-1") None None None) None = Ok (lit "A1:R1C-1")
  /\ edges_str (edge_new (o "1") (o "a") (o "L") (o "?") None) (edge_new (o "1") (o "-1") None None None) (o "lurd") = Ok (lit "A1(L?):R1C-1:LURD").
Proof. repeat split; vm_compute; reflexivity. Qed.

(** _parse.py:303-346 *)
Example doc_moves :
  repeat_moves (lit "LUR") (o "3") = Ok (lit "LUR", Some 3%Z) /\ repeat_moves (lit "ABC") (o "0") = Ok (lit "ABC", Some 0%Z)
  /\ repeat_moves (lit "ABC") None = Ok (lit "ABC", None)
  /\ parse_expansion_moves (lit "lu1urd?") = Ok [(lit "L", None); (lit "U", Some 1%Z); (lit "UR", None); (lit "D", Some 1%Z)]
  /\ parse_expansion_moves (lit "1LURD") = Raise ValueError.
Proof. repeat split; vm_compute; reflexivity. Qed.
