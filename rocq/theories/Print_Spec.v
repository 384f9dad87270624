(** * Vocabulary for property C107 *)
From Coq Require Import String.
From Verif Require Import PyBase Coords_Model Coords_Spec Capture_Model Parse_Spec.

(** Columns that are numbers are printed in RC style. *)
Definition number_column (c : cell) : Prop :=
  exists s, c_col c = CStr s /\ (number_text s \/ exists t, s = lit "-" ++ t /\ number_text t).
(** What can be written in A1 style: no negative rows; no dots, unless [dot]. *)
Definition fits_a1 (dot : bool) (c : cell) : Prop :=
  (forall t, c_row c <> CStr (lit "-" ++ t)) /\ (dot = true \/ c_row c <> CStr (lit ".") /\ c_col c <> CStr (lit ".")).
Definition printable (dot : bool) (e : edge) : Prop := number_column (land e) \/ fits_a1 dot (land e).
