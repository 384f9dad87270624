(** * Properties C16-C18: coordinates *)
From Coq Require Import String.
From Verif Require Import PyBase PyBase_Proofs Coords_Model Coords_Spec Coords_Proofs.
Open Scope Z_scope.

(** ** C16 *)

Theorem C16_colname_inverse : forall n,
  names (N.to_nat n) (colname n) /\ col2num (CStr (colname n)) = Ok (Z.of_N n).
Proof. exact (fun n => conj (colname_names n) (col2num_colname n)). Qed.
Print Assumptions C16_colname_inverse.

Theorem C16_every_name_one_column : forall s, letters s ->
  exists n, col2num (CStr s) = Ok (Z.of_nat n) /\ names n (upper s)
            /\ forall n', names n' (upper s) -> n' = n.
Proof. exact letters_one_column. Qed.
Print Assumptions C16_every_name_one_column.

Theorem C16_case_irrelevant : forall s t, letters s -> same_letters s t ->
  col2num (CStr t) = col2num (CStr s).
Proof. exact col2num_case. Qed.
Print Assumptions C16_case_irrelevant.

Theorem C16_rows : forall n, 0 <= n -> row2num (CStr (str_of_Z (n + 1))) = Ok n.
Proof. exact row2num_name. Qed.
Print Assumptions C16_rows.

Theorem C16_coords2Cell_resolves : forall r k u d base, 0 <= r -> 0 <= k ->
  exists c, coords2Cell (CInt r) (CInt k) = Ok c /\ resolve_cell c u d base = Ok (r, k).
Proof. exact coords2Cell_resolves. Qed.
Print Assumptions C16_coords2Cell_resolves.

Example C16_example :
  map (fun n => show (colname n)) [0; 25; 26; 701; 702; 727]%N = ["A"; "Z"; "AA"; "ZZ"; "AAA"; "AAZ"]%string
  /\ col2num (CStr (lit "AaZ")) = Ok 727 /\ letters (lit "AaZ")
  /\ coords2Cell (CInt 10) (CStr (lit ".")) = Ok (Cell (CStr (lit "11")) (CStr (lit "."))).
Proof.
  repeat split; try reflexivity; try discriminate. intros c H. cbn in H. intuition subst; reflexivity.
Qed.

(** ** C17 *)

Theorem C17_row_resolves : forall c first last base r,
  resolve_coord row2num c first last base = Ok r <-> denotes first last base c r.
Proof. exact resolve_row_denotes. Qed.
Print Assumptions C17_row_resolves.

Theorem C17_col_resolves : forall c first last base r, c <> CStr [] ->
  (resolve_coord col2num c first last base = Ok r <-> denotes_col first last base c r).
Proof. exact resolve_col_denotes. Qed.
Print Assumptions C17_col_resolves.

Theorem C17_cell_resolves : forall c u d base r k, c_col c <> CStr [] ->
  (resolve_cell c u d base = Ok (r, k) <->
   denotes (fst u) (fst d) (option_map fst base) (c_row c) r
   /\ denotes_col (snd u) (snd d) (option_map snd base) (c_col c) k).
Proof. exact resolve_cell_spec. Qed.
Print Assumptions C17_cell_resolves.

Theorem C17_only_ValueError : forall cfunc c cl u d base u' d' base' e,
  (resolve_coord cfunc c u d base = Raise e -> e = ValueError)
  /\ (resolve_cell cl u' d' base' = Raise e -> e = ValueError).
Proof.
  exact (fun cfunc c cl u d base u' d' base' e =>
    conj (resolve_coord_raise cfunc c u d base e) (resolve_cell_raise cl u' d' base' e)).
Qed.
Print Assumptions C17_only_ValueError.

(** An empty column text is not rejected, it means the last column. *)
Theorem C17_empty_column_refuted : forall first last base,
  exists c, resolve_coord col2num c first last base = Ok last /\ c = CStr []
            /\ resolve_coord row2num c first last base = Raise ValueError.
Proof.
  intros. exists (CStr []). split; [|split; reflexivity].
  unfold resolve_coord. cbn. f_equal. lia.
Qed.
Print Assumptions C17_empty_column_refuted.

Example C17_example :
  resolve_coord row2num (CStr (lit "1")) 1 10 None = Ok 0
  /\ resolve_coord row2num (CStr (lit "^")) 1 10 None = Ok 1
  /\ resolve_coord row2num (CStr (lit "_")) 1 10 None = Ok 10
  /\ resolve_coord row2num (CStr (lit ".")) 1 10 (Some 13) = Ok 13
  /\ resolve_coord row2num (CStr (lit ".")) 1 10 None = Raise ValueError
  /\ resolve_coord row2num (CStr (lit "-3")) 0 10 None = Ok 8
  /\ resolve_coord row2num (CStr (lit "0")) 0 10 None = Raise ValueError
  /\ resolve_coord col2num (CStr (lit "DADA")) 1 10 None = Ok 71084
  /\ resolve_coord col2num CNone 1 10 None = Raise ValueError
  /\ resolve_coord col2num (CStr (lit "%$")) 1 10 None = Raise ValueError.
Proof. repeat split; reflexivity. Qed.

(** ** C18 *)

Theorem C18_never_negative_refuted : exists c u d r k,
  0 <= fst u /\ 0 <= snd u /\ 0 <= fst d /\ 0 <= snd d
  /\ resolve_cell c u d None = Ok (r, k) /\ r < 0 /\ k < 0
  /\ c = Cell (CStr (lit "-5")) (CStr (lit "-4")).
Proof.
  exists (Cell (CStr (lit "-5")) (CStr (lit "-4"))), (0, 0), (1, 1), (-3), (-2).
  cbn [fst snd]. repeat split; try lia; reflexivity.
Qed.
Print Assumptions C18_never_negative_refuted.

(** It only happens when counting back beyond the first row or column. *)
Theorem C18_nonneg : forall c u d base r k,
  0 <= fst u -> 0 <= snd u -> 0 <= fst d -> 0 <= snd d ->
  (forall b, base = Some b -> 0 <= fst b /\ 0 <= snd b) -> c_col c <> CStr [] ->
  resolve_cell c u d base = Ok (r, k) ->
  (0 <= r \/ exists z, counts_back (c_row c) z /\ fst d + 1 < z)
  /\ (0 <= k \/ exists z, counts_back (c_col c) z /\ snd d + 1 < z).
Proof. exact resolve_cell_nonneg. Qed.
Print Assumptions C18_nonneg.

Theorem C18_counting_back : forall c u d base r z, 0 < z -> counts_back c z ->
  resolve_coord row2num c u d base = Ok r -> r = d - (z - 1).
Proof. exact resolve_row_back. Qed.
Print Assumptions C18_counting_back.

Example C18_example :
  resolve_cell (Cell (CStr (lit "-2")) (CStr (lit "B"))) (0, 0) (1, 1) None = Ok (0, 1)
  /\ counts_back (CStr (lit "-5")) 5.
Proof. split; [reflexivity|right; eexists; split; reflexivity]. Qed.
