(** * The project's own examples, run on the model: [/repo/pandalone/xleash/_capture.py] and
      [/repo/pandalone/xleash/io/backend.py]

    The docstrings and tests of the project say what the code gives in particular cases.  Here the
    model gives the same. *)
From Coq Require Import String.
From Verif Require Import PyBase Coords_Model ExpMoves_Model Capture_Model.
Open Scope Z_scope.

Local Notation s x := (CStr (lit x)).
Local Notation i x := (CInt x).

(** _capture.py:58-67 *)
Example doc_coords2Cell :
  coords2Cell (i 0) (i 0) = Ok (Cell (s "1") (s "A")) /\ coords2Cell (i 0) (i 26) = Ok (Cell (s "1") (s "AA"))
  /\ coords2Cell (i 10) (s ".") = Ok (Cell (s "11") (s ".")) /\ coords2Cell (i (-3)) (i (-2)) = Raise AssertionError.
Proof. repeat split; vm_compute; reflexivity. Qed.

(** _capture.py:91-106 *)
Example doc_row2num : row2num (s "1") = Ok 0 /\ row2num (i 1) = Ok 0 /\ row2num (s "-1") = Ok (-1) /\ row2num (s ".") = Raise ValueError.
Proof. repeat split; vm_compute; reflexivity. Qed.

(** _capture.py:128-155 *)
Example doc_col2num :
  col2num (s "D") = Ok 3 /\ col2num (s "d") = Ok 3 /\ col2num (s "AaZ") = Ok 727 /\ col2num (s "10") = Ok 9 /\ col2num (i 9) = Ok 8
  /\ col2num (s "%$") = Raise ValueError.
Proof. repeat split; vm_compute; reflexivity. Qed.

(** _capture.py:194-262 *)
Example doc_resolve_row :
  resolve_coord row2num (s "1") 1 10 None = Ok 0 /\ resolve_coord row2num (i 1) 1 10 None = Ok 0
  /\ resolve_coord row2num (s "^") 1 10 None = Ok 1 /\ resolve_coord row2num (s "_") 1 10 None = Ok 10
  /\ resolve_coord row2num (s ".") 1 10 (Some 13) = Ok 13 /\ resolve_coord row2num (s "-3") 0 10 None = Ok 8
  /\ resolve_coord row2num (s ".") 0 10 None = Raise ValueError /\ resolve_coord row2num (s "0") 0 10 None = Raise ValueError
  /\ resolve_coord row2num (s "a") 0 10 None = Raise ValueError /\ resolve_coord row2num CNone 0 10 None = Raise ValueError.
Proof. repeat split; vm_compute; reflexivity. Qed.
Example doc_resolve_col :
  resolve_coord col2num (s "A") 1 10 None = Ok 0 /\ resolve_coord col2num (s "DADA") 1 10 None = Ok 71084
  /\ resolve_coord col2num (s ".") 1 10 (Some 13) = Ok 13 /\ resolve_coord col2num (s "-4") 0 10 None = Ok 7
  /\ resolve_coord col2num CNone 0 10 None = Raise ValueError /\ resolve_coord col2num (i 0) 0 10 None = Raise ValueError.
Proof. repeat split; vm_compute; reflexivity. Qed.

(** _capture.py:305-334 *)
Example doc_resolve_cell :
  resolve_cell (Cell (s "5") (s "B")) (1, 2) (10, 6) None = Ok (4, 1)
  /\ resolve_cell (Cell (s "^") (s "^")) (1, 2) (10, 6) None = Ok (1, 2)
  /\ resolve_cell (Cell (s "_") (s "_")) (1, 2) (10, 6) None = Ok (10, 6)
  /\ resolve_cell (Cell (s ".") (s ".")) (1, 2) (10, 6) (Some (40, 50)) = Ok (40, 50)
  /\ resolve_cell (Cell (s "-1") (s "-2")) (1, 2) (10, 6) None = Ok (10, 5)
  /\ resolve_cell (Cell (s "A") (s "B")) (1, 2) (10, 6) None = Raise ValueError
  /\ resolve_cell (Cell (s "1") (s ".")) (1, 2) (10, 6) None = Raise ValueError.
Proof. repeat split; vm_compute; reflexivity. Qed.

Definition doc_sheet : mat := mat_of
  [[0; 0; 0; 0; 0; 0];
   [0; 0; 0; 0; 0; 0];
   [0; 0; 0; 1; 1; 1];
   [0; 0; 1; 0; 0; 1];
   [0; 0; 1; 1; 1; 1]].

(** _capture.py:396-428 *)
Example doc_target_opposite :
  target_opposite doc_sheet (4, 5) (0, 0) [dD; dR] = Ok (3, 2) /\ target_opposite doc_sheet (4, 5) (0, 0) [dR; dD] = Ok (2, 3)
  /\ target_opposite doc_sheet (4, 5) (0, 0) [dD] = Raise EmptyCapture /\ target_opposite doc_sheet (4, 5) (0, 0) [dU; dR] = Raise EmptyCapture
  /\ target_opposite doc_sheet (4, 5) (3, 10) [dL] = Ok (3, 5).
Proof. repeat split; vm_compute; reflexivity. Qed.
(** _capture.py:515-545 *)
Example doc_target_same :
  target_same doc_sheet (4, 5) (4, 5) [dU] = Ok (2, 5) /\ target_same doc_sheet (4, 5) (4, 5) [dL] = Ok (4, 2)
  /\ target_same doc_sheet (4, 5) (4, 5) [dU; dL] = Ok (2, 2)
  /\ target_same doc_sheet (4, 5) (2, 2) [dD; dR] = Raise EmptyCapture /\ target_same doc_sheet (4, 5) (10, 3) [dU] = Raise EmptyCapture.
Proof. repeat split; vm_compute; reflexivity. Qed.
(** _capture.py:571-573 *)
Example doc_sort_rect : sort_rect (5, 3) (4, 6) = ((4, 3), (5, 6)).
Proof. reflexivity. Qed.

(** _capture.py:598-622 *)
Definition doc_expand : mat := mat_of
  [[0; 0; 0; 0; 0; 0];
   [0; 0; 1; 1; 1; 0];
   [0; 1; 0; 0; 1; 0];
   [0; 1; 1; 1; 1; 0];
   [0; 0; 0; 0; 0; 1]].
Example doc_expand_rect :
  expand_rect doc_expand (2, 1) (2, 1) (lit "U") = Ok ((2, 1), (2, 1))
  /\ expand_rect doc_expand (3, 1) (2, 1) (lit "R") = Ok ((2, 1), (3, 4))
  /\ expand_rect doc_expand (2, 1) (6, 1) (lit "r") = Ok ((2, 1), (6, 5))
  /\ expand_rect doc_expand (2, 3) (2, 3) (lit "LURD") = Ok ((1, 1), (3, 4)).
Proof. repeat split; vm_compute; reflexivity. Qed.

(** _capture.py:702-741 *)
Definition no_mod (r c : string) (m : option string) : edge := Edge (Cell (s r) (s c)) (option_map lit m) None.
Definition capture_doc (a b : edge) := resolve_capture_rect doc_sheet (margin_coords doc_sheet) a (Some b) None None.
Example doc_resolve_capture_rect :
  capture_doc (no_mod "1" "A" (Some "DR"%string)) (no_mod "." "." (Some "DR"%string)) = Ok ((3, 2), Some (4, 2))
  /\ capture_doc (no_mod "_" "_" None) (no_mod "." "." (Some "UL"%string)) = Ok ((2, 2), Some (4, 5))
  /\ capture_doc (no_mod "^" "_" None) (no_mod "_" "^" None) = Ok ((2, 2), Some (4, 5))
  /\ capture_doc (no_mod "^" "_" (Some "L"%string)) (Edge (Cell (s "_") (s "_")) (Some (lit "L")) (Some (lit "+"))) = Ok ((2, 2), Some (4, 5)).
Proof. repeat split; vm_compute; reflexivity. Qed.

(** ** The tests *)
Definition coords_eqb (a b : coords) : bool := (fst a =? fst b) && (snd a =? snd b).
Definition rect2_eqb (a b : coords * coords) : bool := coords_eqb (fst a) (fst b) && coords_eqb (snd a) (snd b).
Definition rect3_eqb (a : coords * option coords) (b : coords * coords) : bool :=
  coords_eqb (fst a) (fst b) && match snd a with Some c => coords_eqb c (snd b) | None => false end.
Definition ok_is {A B : Type} (eqb : A -> B -> bool) (x : res A) (y : B) : bool := match x with Ok z => eqb z y | Raise _ => false end.
Definition is_empty_capture (x : res coords) : bool := match x with Raise EmptyCapture => true | _ => false end.

(** tests/test_xleash.py:508-522 *)
Definition test_rows : list (list Z) :=
  [[0; 0; 0; 0; 0; 0];
   [0; 0; 0; 0; 0; 0];
   [0; 0; 0; 1; 1; 1];
   [0; 0; 1; 0; 0; 1];
   [0; 0; 1; 1; 0; 1]].
Definition test_sheet : mat := mat_of test_rows.
Definition test_sheet_inverse : mat := mat_of (List.map (List.map (fun z => 1 - z)) test_rows).
Definition plus_mod (r c : string) (m : option string) : edge := Edge (Cell (s r) (s c)) (option_map lit m) (Some (lit "+")).
Definition capture_test (a b : edge) (base : option coords) := resolve_capture_rect test_sheet (margin_coords test_sheet) a (Some b) None base.
(** /repo/tests/test_xleash.py:601-613 *)
Example test_target_opposite :
  forallb (fun '(l, mv, x) => ok_is coords_eqb (target_opposite test_sheet (4, 5) l mv) x)
  [((0, 0), [dD; dR], (3, 2));
   ((0, 0), [dR; dD], (2, 3));
   ((3, 0), [dU; dR], (3, 2));
   ((3, 0), [dR; dU], (3, 2));
   ((3, 0), [dD; dR], (3, 2));
   ((3, 0), [dR; dD], (3, 2));
   ((0, 3), [dD; dL], (2, 3));
   ((0, 3), [dL; dD], (2, 3));
   ((0, 3), [dD; dR], (2, 3));
   ((0, 3), [dR; dD], (2, 3))] = true.
Proof. vm_compute; reflexivity. Qed.
(** :616-620: a search which starts at a full cell stays *)
Example test_target_opposite_stays :
  forallb (fun mv => forallb (fun l => ok_is coords_eqb (target_opposite test_sheet (4, 5) l mv) l)
    [(2, 3); (3, 2); (2, 4); (2, 5); (3, 5); (4, 2); (4, 3); (4, 5)])
  [[dL]; [dU]; [dR]; [dD]; [dL; dU]; [dU; dL]; [dL; dD]; [dD; dL]; [dR; dU]; [dU; dR]; [dR; dD]; [dD; dR]] = true.
Proof. vm_compute; reflexivity. Qed.
(** :622-646: a search which starts beyond the sheet *)
Example test_target_opposite_beyond :
  forallb (fun '(l, mv, x) => ok_is coords_eqb (target_opposite test_sheet (4, 5) l mv) x)
  [((2, 10), [dL], (2, 5));
   ((3, 10), [dL], (3, 5));
   ((4, 10), [dL], (4, 5));
   ((2, 10), [dL; dU], (2, 5));
   ((3, 10), [dL; dU], (3, 5));
   ((4, 10), [dL; dU], (4, 5));
   ((2, 10), [dL; dD], (2, 5));
   ((3, 10), [dL; dD], (3, 5));
   ((4, 10), [dL; dD], (4, 5));
   ((0, 10), [dL; dD], (2, 5));
   ((2, 10), [dU; dL], (2, 5));
   ((3, 10), [dU; dL], (3, 5));
   ((4, 10), [dU; dL], (4, 5));
   ((2, 10), [dD; dL], (2, 5));
   ((3, 10), [dD; dL], (3, 5));
   ((4, 10), [dD; dL], (4, 5));
   ((0, 10), [dD; dL], (2, 5));
   ((10, 2), [dU], (4, 2));
   ((10, 3), [dU], (4, 3));
   ((10, 5), [dU], (4, 5));
   ((10, 4), [dU], (2, 4));
   ((10, 2), [dU; dL], (4, 2));
   ((10, 3), [dU; dL], (4, 3));
   ((10, 5), [dU; dL], (4, 5));
   ((10, 4), [dU; dL], (2, 4));
   ((10, 2), [dU; dR], (4, 2));
   ((10, 3), [dU; dR], (4, 3));
   ((10, 5), [dU; dR], (4, 5));
   ((10, 4), [dU; dR], (2, 4));
   ((10, 0), [dU; dR], (4, 2));
   ((10, 2), [dL; dU], (4, 2));
   ((10, 3), [dL; dU], (4, 3));
   ((10, 5), [dL; dU], (4, 5));
   ((10, 2), [dR; dU], (4, 2));
   ((10, 3), [dR; dU], (4, 3));
   ((10, 5), [dR; dU], (4, 5));
   ((10, 0), [dR; dU], (4, 2));
   ((10, 4), [dL; dU], (4, 3));
   ((10, 4), [dR; dU], (4, 5));
   ((10, 10), [dU; dL], (4, 5));
   ((10, 10), [dL; dU], (4, 5))] = true.
Proof. vm_compute; reflexivity. Qed.
(** :647-649: a search which finds nothing *)
Example test_target_opposite_empty :
  forallb (fun mv => is_empty_capture (target_opposite test_sheet (4, 5) (0, 0) mv))
  [[dU];
   [dD];
   [dL];
   [dR];
   [dU; dR];
   [dR; dU];
   [dU; dL];
   [dL; dU];
   [dD; dL];
   [dL; dD]] = true.
Proof. vm_compute; reflexivity. Qed.
(** :680-712; [true] when the sheet is taken with full and empty exchanged *)
Example test_target_same :
  forallb (fun '(inv, l, mv, x) => ok_is coords_eqb (target_same (if inv : bool then test_sheet_inverse else test_sheet) (4, 5) l mv) x)
  [(true, (0, 0), [dD; dR], (4, 5));
   (true, (0, 0), [dD; dR], (4, 5));
   (true, (1, 1), [dD; dR], (4, 5));
   (false, (2, 3), [dD; dR], (2, 5));
   (false, (2, 3), [dR; dD], (2, 5));
   (false, (2, 5), [dL; dD], (4, 3));
   (false, (2, 5), [dD; dL], (4, 3));
   (false, (2, 5), [dL], (2, 3));
   (false, (2, 5), [dU], (2, 5));
   (false, (2, 5), [dL; dU], (2, 3));
   (false, (2, 5), [dU; dL], (2, 3));
   (false, (4, 2), [dU], (3, 2));
   (false, (4, 2), [dR; dU], (3, 3));
   (false, (4, 2), [dU; dR], (3, 3));
   (false, (4, 5), [dL], (4, 5));
   (false, (4, 5), [dU], (2, 5));
   (false, (4, 5), [dL; dU], (2, 5));
   (false, (4, 5), [dU; dL], (2, 5));
   (true, (4, 4), [dU], (3, 4));
   (true, (4, 4), [dU; dR], (3, 4));
   (true, (4, 4), [dU; dL], (3, 4))] = true.
Proof. vm_compute; reflexivity. Qed.
(** :716-767, and the docstring at backend.py:254-290 *)
Example test_margins :
  forallb (fun '(m, x) => rect2_eqb (margin_coords (mat_of m)) x)
  [([[0; 1; 1; 0]], ((0, 1), (0, 2)));
   ([[0; 0; 0]; [0; 1; 0]; [0; 1; 1]; [0; 0; 1]], ((1, 1), (3, 2)));
   ([[1]], ((0, 0), (0, 0)));
   ([[0; 0; 1]], ((0, 2), (0, 2)));
   ([[0; 0]; [0; 1]], ((1, 1), (1, 1)));
   ([[0; 0]; [0; 0]; [0; 1]], ((2, 1), (2, 1)));
   ([[0; 0; 0; 0]; [0; 1; 0; 0]; [0; 1; 1; 0]; [0; 0; 1; 0]; [0; 0; 0; 0]], ((1, 1), (3, 2)));
   ([[1; 0]; [0; 0]; [0; 0]], ((0, 0), (0, 0)));
   ([[0; 0; 0; 0]; [0; 1; 0; 0]; [0; 0; 0; 0]], ((1, 1), (1, 1)));
   ([[]], ((0, 0), (0, 0)));
   ([[0]; [0]], ((0, 0), (0, 0)));
   ([[0; 0]], ((0, 0), (0, 0)));
   ([[0; 0]; [0; 0]], ((0, 0), (0, 0)))] = true.
Proof. vm_compute; reflexivity. Qed.
(** :801-866; each rectangle also with its corners exchanged *)
Example test_expand_rect :
  forallb (fun '((a, b), mv, x) => ok_is rect2_eqb (expand_rect doc_expand a b (lit mv)) x && ok_is rect2_eqb (expand_rect doc_expand b a (lit mv)) x)
  [(((2, 1), (2, 1)), "U"%string, ((2, 1), (2, 1)));
   (((3, 1), (3, 1)), "D"%string, ((3, 1), (3, 1)));
   (((2, 1), (3, 1)), "U"%string, ((2, 1), (3, 1)));
   (((2, 1), (3, 1)), "D"%string, ((2, 1), (3, 1)));
   (((2, 1), (2, 1)), "U1"%string, ((2, 1), (2, 1)));
   (((3, 1), (3, 1)), "D1"%string, ((3, 1), (3, 1)));
   (((2, 1), (3, 1)), "U1"%string, ((2, 1), (3, 1)));
   (((2, 1), (3, 1)), "D1"%string, ((2, 1), (3, 1)));
   (((2, 1), (2, 1)), "U?"%string, ((2, 1), (2, 1)));
   (((3, 1), (3, 1)), "D?"%string, ((3, 1), (3, 1)));
   (((2, 1), (3, 1)), "U?"%string, ((2, 1), (3, 1)));
   (((2, 1), (3, 1)), "D?"%string, ((2, 1), (3, 1)));
   (((1, 3), (1, 4)), "R"%string, ((1, 3), (1, 4)));
   (((1, 2), (1, 3)), "L"%string, ((1, 2), (1, 3)));
   (((1, 3), (1, 4)), "R1"%string, ((1, 3), (1, 4)));
   (((1, 2), (1, 3)), "L1"%string, ((1, 2), (1, 3)));
   (((1, 1), (3, 4)), "LURD"%string, ((1, 1), (3, 4)));
   (((2, 5), (2, 5)), "R"%string, ((2, 5), (2, 5)));
   (((4, 0), (4, 4)), "D"%string, ((4, 0), (4, 4)));
   (((4, 5), (4, 5)), "R"%string, ((4, 5), (4, 5)));
   (((4, 5), (4, 5)), "D"%string, ((4, 5), (4, 5)));
   (((0, 1), (0, 2)), "U"%string, ((0, 1), (0, 2)));
   (((1, 0), (3, 0)), "L"%string, ((1, 0), (3, 0)));
   (((0, 0), (0, 0)), "U"%string, ((0, 0), (0, 0)));
   (((0, 0), (0, 0)), "L"%string, ((0, 0), (0, 0)));
   (((3, 1), (3, 5)), "U"%string, ((1, 1), (3, 5)));
   (((2, 1), (3, 2)), "RU"%string, ((1, 1), (3, 4)));
   (((2, 3), (2, 3)), "LURD"%string, ((1, 1), (3, 4)));
   (((1, 1), (3, 2)), "LURD"%string, ((1, 1), (3, 4)));
   (((2, 1), (3, 2)), "LURD"%string, ((1, 1), (3, 4)));
   (((1, 2), (3, 2)), "LURD"%string, ((1, 1), (3, 4)));
   (((1, 1), (3, 2)), "DLRU"%string, ((1, 1), (3, 4)));
   (((2, 1), (3, 2)), "DLRU"%string, ((1, 1), (3, 4)));
   (((1, 2), (3, 2)), "DLRU"%string, ((1, 1), (3, 4)));
   (((3, 1), (3, 2)), "U1R1"%string, ((2, 1), (3, 3)));
   (((3, 1), (3, 2)), "R1U1"%string, ((2, 1), (3, 3)));
   (((3, 1), (3, 2)), "U?R?"%string, ((2, 1), (3, 3)));
   (((3, 1), (3, 2)), "R?U?"%string, ((2, 1), (3, 3)));
   (((2, 1), (3, 2)), "R1U1"%string, ((1, 1), (3, 3)));
   (((2, 1), (3, 2)), "U1R1"%string, ((1, 1), (3, 3)));
   (((3, 3), (4, 3)), "L1"%string, ((3, 2), (4, 3)));
   (((2, 1), (6, 1)), "R"%string, ((2, 1), (6, 5)))] = true.
Proof. vm_compute; reflexivity. Qed.
(** :868-899 *)
Example test_spiral :
  expand_rect (mat_of [[0; 1; 0; 0; 0; 0]; [0; 0; 1; 0; 1; 0]; [0; 0; 1; 1; 0; 0]; [0; 1; 0; 0; 1; 0]; [0; 0; 0; 0; 0; 1]]) (2, 2) (2, 2) (lit "LURD") = Ok ((0, 1), (3, 4)).
Proof. vm_compute; reflexivity. Qed.
Example test_spiral_broken :
  expand_rect (mat_of [[0; 1; 0; 0; 0; 0]; [0; 0; 1; 0; 0; 0]; [0; 0; 1; 1; 0; 0]; [0; 1; 0; 1; 1; 0]; [0; 0; 0; 0; 0; 1]]) (2, 2) (2, 2) (lit "LURD") = Ok ((0, 1), (3, 4)).
Proof. vm_compute; reflexivity. Qed.
(** :932-1008 *)
Example test_resolve_capture_rect :
  forallb (fun '((r1, c1, m1), (r2, c2, m2), x) => ok_is rect3_eqb (capture_test (plus_mod r1 c1 m1) (plus_mod r2 c2 m2) None) x)
  [(("1", "A", (Some "DR"%string)), (".", ".", (Some "DR"%string)), ((3, 2), (4, 2)));
   (("^", "^", (Some "RD"%string)), (".", ".", (Some "RD"%string)), ((2, 3), (2, 5)));
   (("^", "^", (Some "D"%string)), ("_", "_", None), ((3, 2), (4, 5)));
   (("^", "^", (Some "DR"%string)), ("_", "_", None), ((3, 2), (4, 5)));
   (("^", "^", (Some "R"%string)), ("_", "_", None), ((2, 3), (4, 5)));
   (("^", "^", (Some "RD"%string)), ("_", "_", None), ((2, 3), (4, 5)));
   (("4", "D", (Some "U"%string)), ("4", "E", (Some "R"%string)), ((2, 3), (3, 5)));
   (("4", "D", (Some "UL"%string)), ("4", "F", (Some "RD"%string)), ((2, 3), (4, 5)));
   (("4", "D", (Some "L"%string)), ("4", "F", (Some "RD"%string)), ((3, 2), (4, 5)));
   (("4", "D", (Some "LU"%string)), ("4", "F", (Some "RD"%string)), ((3, 2), (4, 5)));
   (("3", "D", (Some "R"%string)), ("_", "_", None), ((2, 5), (4, 5)));
   (("3", "D", (Some "UR"%string)), ("_", "_", None), ((2, 5), (4, 5)));
   (("3", "D", (Some "RU"%string)), ("_", "_", None), ((2, 5), (4, 5)));
   (("3", "D", (Some "DR"%string)), ("_", "_", None), ((2, 5), (4, 5)));
   (("3", "D", (Some "RD"%string)), ("_", "_", None), ((2, 5), (4, 5)));
   (("3", "D", (Some "L"%string)), ("_", "_", None), ((2, 3), (4, 5)));
   (("3", "D", (Some "UL"%string)), ("_", "_", None), ((2, 3), (4, 5)));
   (("3", "D", (Some "LU"%string)), ("_", "_", None), ((2, 3), (4, 5)));
   (("3", "D", (Some "DL"%string)), ("_", "_", None), ((2, 3), (4, 5)));
   (("3", "D", (Some "LD"%string)), ("_", "_", None), ((2, 3), (4, 5)));
   (("3", "E", (Some "R"%string)), ("_", "_", None), ((2, 5), (4, 5)));
   (("3", "E", (Some "UR"%string)), ("_", "_", None), ((2, 5), (4, 5)));
   (("3", "E", (Some "RU"%string)), ("_", "_", None), ((2, 5), (4, 5)));
   (("3", "E", (Some "DR"%string)), ("_", "_", None), ((2, 5), (4, 5)));
   (("3", "E", (Some "RD"%string)), ("_", "_", None), ((2, 5), (4, 5)));
   (("3", "E", (Some "L"%string)), ("_", "_", None), ((2, 3), (4, 5)));
   (("3", "E", (Some "UL"%string)), ("_", "_", None), ((2, 3), (4, 5)));
   (("3", "E", (Some "LU"%string)), ("_", "_", None), ((2, 3), (4, 5)));
   (("3", "E", (Some "DL"%string)), ("_", "_", None), ((2, 3), (4, 5)));
   (("3", "E", (Some "LD"%string)), ("_", "_", None), ((2, 3), (4, 5)));
   (("3", "E", (Some "L"%string)), ("_", "_", None), ((2, 3), (4, 5)));
   (("3", "D", None), ("4", "E", (Some "R"%string)), ((2, 3), (3, 5)));
   (("3", "D", None), ("4", "E", (Some "RD"%string)), ((2, 3), (3, 5)));
   (("3", "D", None), ("4", "E", (Some "RU"%string)), ((2, 3), (3, 5)));
   (("3", "D", None), ("4", "E", (Some "L"%string)), ((2, 2), (3, 3)));
   (("3", "D", None), ("4", "E", (Some "LD"%string)), ((2, 2), (3, 3)));
   (("3", "D", None), ("4", "E", (Some "LU"%string)), ((2, 2), (3, 3)));
   (("^", "_", None), (".", ".", (Some "L"%string)), ((2, 3), (2, 5)));
   (("_", "^", None), (".", ".", (Some "U"%string)), ((3, 2), (4, 2)));
   (("_", "_", None), (".", ".", (Some "UL"%string)), ((2, 5), (4, 5)));
   (("_", "_", None), (".", ".", (Some "LU"%string)), ((2, 5), (4, 5)));
   (("^", "_", None), (".", ".", (Some "LD"%string)), ((2, 3), (4, 5)));
   (("^", "_", None), (".", ".", (Some "DL"%string)), ((2, 3), (4, 5)));
   (("_", "^", None), (".", ".", (Some "UR"%string)), ((3, 2), (4, 3)));
   (("_", "^", None), (".", ".", (Some "RU"%string)), ((3, 2), (4, 3)));
   (("^", "^", None), ("_", "_", None), ((2, 2), (4, 5)));
   (("_", "_", None), ("^", "^", None), ((2, 2), (4, 5)));
   (("^", "_", None), ("_", "^", None), ((2, 2), (4, 5)));
   (("_", "^", None), ("^", "_", None), ((2, 2), (4, 5)))]%string = true.
Proof. vm_compute; reflexivity. Qed.
(** :1010-1029; the two cases with half a base are left out, as the model takes a base as a whole *)
Example test_capture_relative :
  capture_test (plus_mod "." "." None) (plus_mod "." "." None) None = Raise ValueError
  /\ capture_test (plus_mod "." "." None) (plus_mod "." "." None) (Some (0, 0)) = Ok ((0, 0), Some (0, 0))
  /\ capture_test (plus_mod "." "." None) (plus_mod "." "." None) (Some (1, 1)) = Ok ((1, 1), Some (1, 1)).
Proof. repeat split; vm_compute; reflexivity. Qed.
