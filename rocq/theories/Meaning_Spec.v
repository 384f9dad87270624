(** * The cells that xl-refs stand for: what is meant

    The grammar of [Parse_Spec], the coordinates of [Coords_Spec], the moves and the expansions
    of [Capture_Spec], put together. *)
From Coq Require Import String.
From Verif Require Import PyBase Coords_Model Coords_Spec Capture_Model Capture_Spec Parse_Spec ExpMoves_Spec ReadRect_Model ReadRect_Spec Dates_Model Whole_Spec.
Open Scope Z_scope.

(** The landing cell; [up] and [dn] are what [^] and [_] stand for, [base] what [.] stands for. *)
Definition lands (up dn : coords) (base : option coords) (c : cell) (p : coords) : Prop :=
  denotes (fst up) (fst dn) (option_map fst base) (c_row c) (fst p)
  /\ denotes_col (snd up) (snd dn) (option_map snd base) (c_col c) (snd p).

(** The cell of an edge: its landing, or where the moves lead to *)
Inductive finds (m : mat) (up dn : coords) (base : option coords) (same : edge -> Prop) (e : edge) : res coords -> Prop :=
| Fi_nowhere : (forall p, ~ lands up dn base (land e) p) -> finds m up dn base same e (Raise ValueError)
| Fi_there : forall p, lands up dn base (land e) p -> mov e = None -> finds m up dn base same e (Ok p)
| Fi_moves : forall p ds r, lands up dn base (land e) p -> mov e = Some (moves_text ds) -> enacts m ds (same e) p r ->
    finds m up dn base same e r.
(** When the moves of the 1st edge, and of the 2nd, run from full cells to their end *)
Definition same1 (e : edge) : Prop := mod_ e = Some (lit "+").
Definition same2 (e : edge) : Prop := mod_ e = Some (lit "+") \/ (mod_ e = None /\ dependent (land e)).

(** The rect of two cells *)
Definition box (a b : coords) : rect := Rect (Z.min (fst a) (fst b)) (Z.max (fst a) (fst b)) (Z.min (snd a) (snd b)) (Z.max (snd a) (snd b)).
Definition corners_of (x : rect) : coords * option coords := ((r1 x, c1 x), Some (r2 x, c2 x)).

(** The 2nd edge counts its dots from the 1st one; without it they are the same. *)
Inductive finds2 (m : mat) (up dn : coords) (a : coords) : option edge -> res coords -> Prop :=
| F2_none : finds2 m up dn a None (Ok a)
| F2_some : forall e r, finds m up dn (Some a) same2 e r -> finds2 m up dn a (Some e) r.

(** What is captured: the corners of a rect, or a single cell, or the failure *)
Inductive means (m : mat) (up dn : coords) (base : option coords) (e1 : edge) (e2 : option edge) (em : option pystr)
    : res (coords * option coords) -> Prop :=
| Me_fail1 : forall x, finds m up dn base same1 e1 (Raise x) -> means m up dn base e1 e2 em (Raise x)
| Me_fail2 : forall a x, finds m up dn base same1 e1 (Ok a) -> finds2 m up dn a e2 (Raise x) -> means m up dn base e1 e2 em (Raise x)
| Me_cell : forall a, finds m up dn base same1 e1 (Ok a) -> e2 = None -> em = None -> means m up dn base e1 e2 em (Ok (a, None))
| Me_rect : forall a e b, finds m up dn base same1 e1 (Ok a) -> e2 = Some e -> finds2 m up dn a e2 (Ok b) -> em = None ->
    means m up dn base e1 e2 em (Ok (corners_of (box a b)))
| Me_grown : forall a b t gs x, finds m up dn base same1 e1 (Ok a) -> finds2 m up dn a e2 (Ok b) -> em = Some t ->
    spells (upper t) (groups_of gs) -> groups_expand m gs (box a b) x ->
    means m up dn base e1 e2 em (Ok (corners_of x))
| Me_misspelled : forall a b t, finds m up dn base same1 e1 (Ok a) -> finds2 m up dn a e2 (Ok b) -> em = Some t ->
    (forall gs, ~ spells (upper t) gs) -> means m up dn base e1 e2 em (Raise ValueError).

(** Coordinates do not count back beyond the first one. *)
Definition within (dn : coords) (e : edge) : Prop :=
  (forall z, counts_back (c_row (land e)) z -> z <= fst dn + 1) /\ (forall z, counts_back (c_col (land e)) z -> z <= snd dn + 1).

(** ** Sheets of files *)

(** The full cells of a sheet *)
Definition cells_of (s : xsheet) (m : mat) : Prop :=
  forall p, full m p <-> in_xsheet s (fst p) (snd p) /\ ~ blank (xcell_at s (fst p) (snd p)).
(** The first row and column with a full cell; then the last ones of the sheet *)
Definition first_of (m : mat) (up : coords) : Prop :=
  ((forall p, full m p -> fst up <= fst p /\ snd up <= snd p) /\ (exists p, full m p /\ fst p = fst up) /\ (exists p, full m p /\ snd p = snd up))
  \/ ((forall p, ~ full m p) /\ up = (0, 0)).
Definition last_of (s : xsheet) : coords := (Z.of_nat (xs_rows s) - 1, Z.of_nat (xs_cols s) - 1).

(** Texts that stay as they are written in URLs *)
Definition url_text (t : pystr) : Prop := t <> [] /\ no_quotes t /\ Forall (fun c => ~ In c [9; 10; 13]%N) t.
(** The sheet of a book by its name, or the first one *)
Definition sheet_number (b : xbook) (n : option pystr) (i : nat) : Prop :=
  match n with Some n => nth_error (xb_names b) i = Some n | None => i = 0%nat /\ xb_names b <> [] end.
