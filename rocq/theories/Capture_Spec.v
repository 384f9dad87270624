(** * Vocabulary for properties C19-C26 and C57 *)
From Coq Require Import String.
From Verif Require Import PyBase Coords_Model Coords_Spec Capture_Model.
Open Scope Z_scope.

(** A full cell of the sheet. *)
Definition full (m : mat) (p : coords) : Prop :=
  0 <= fst p < Z.of_nat (rows m) /\ 0 <= snd p < Z.of_nat (cols m)
  /\ at_ m (Z.to_nat (fst p)) (Z.to_nat (snd p)) = true.

(** [n] steps towards a direction. *)
Definition moved (d : dir) (n : nat) (p : coords) : coords :=
  match d with
  | dL => (fst p, snd p - Z.of_nat n)
  | dU => (fst p - Z.of_nat n, snd p)
  | dR => (fst p, snd p + Z.of_nat n)
  | dD => (fst p + Z.of_nat n, snd p)
  end.

Definition vertical (d : dir) : Prop := d = dU \/ d = dD.
Definition perpendicular (a b : dir) : Prop := (vertical a /\ ~ vertical b) \/ (~ vertical a /\ vertical b).

(** The twelve target-moves of the grammar. *)
Inductive good_moves : list dir -> Prop :=
| Gm_one : forall a, good_moves [a]
| Gm_two : forall a b, perpendicular a b -> good_moves [a; b].

(** The cells swept from [p], in order: [i] steps along the 1st move, on the
    [j]-th line along the 2nd. *)
Definition swept (moves : list dir) (p : coords) (j i : nat) : option coords :=
  match moves with
  | [a] => match j with O => Some (moved a i p) | S _ => None end
  | [a; b] => Some (moved a i (moved b j p))
  | _ => None
  end.

Definition first_full (m : mat) (moves : list dir) (p t : coords) : Prop :=
  exists j i, swept moves p j i = Some t /\ full m t
    /\ forall j' i' t', (j' < j \/ j' = j /\ i' < i)%nat -> swept moves p j' i' = Some t' -> ~ full m t'.

Definition none_full (m : mat) (moves : list dir) (p : coords) : Prop :=
  forall j i t, swept moves p j i = Some t -> ~ full m t.

(** [dn] is a bottom-right margin of the sheet: no full cell is beyond it and it
    lies in the sheet, unless all is empty. *)
Definition is_margin (m : mat) (dn : coords) : Prop :=
  0 <= fst dn /\ 0 <= snd dn
  /\ (forall p, full m p -> fst p <= fst dn /\ snd p <= snd dn)
  /\ ((fst dn < Z.of_nat (rows m) /\ snd dn < Z.of_nat (cols m)) \/ forall p, ~ full m p).

(** The last full cell of the run of full cells that starts on [p]. *)
Definition run_end (m : mat) (d : dir) (p q : coords) : Prop :=
  exists n, q = moved d n p /\ (forall i, (i <= n)%nat -> full m (moved d i p)) /\ ~ full m (moved d (S n) p).

(** The tight bounding box. *)
Definition bounding_box (m : mat) (up dn : coords) : Prop :=
  (forall p, full m p -> fst up <= fst p <= fst dn /\ snd up <= snd p <= snd dn)
  /\ (exists p, full m p /\ fst p = fst up) /\ (exists p, full m p /\ snd p = snd up)
  /\ (exists p, full m p /\ fst p = fst dn) /\ (exists p, full m p /\ snd p = snd dn).

(** ** Expansion *)

Definition inside (p : coords) (x : rect) : Prop := r1 x <= fst p <= r2 x /\ c1 x <= snd p <= c2 x.

(** The rect with one line more at the side [d], and the cells of that line. *)
Definition grown (d : dir) (x : rect) : rect :=
  match d with
  | dL => Rect (r1 x) (r2 x) (c1 x - 1) (c2 x)
  | dR => Rect (r1 x) (r2 x) (c1 x) (c2 x + 1)
  | dU => Rect (r1 x - 1) (r2 x) (c1 x) (c2 x)
  | dD => Rect (r1 x) (r2 x + 1) (c1 x) (c2 x)
  end.
Definition data_beside (m : mat) (d : dir) (x : rect) : Prop :=
  exists p, full m p /\ inside p (grown d x) /\ ~ inside p x.

(** One direction letter: grow if there is data beside. *)
Inductive letter (m : mat) (d : dir) (x : rect) : rect -> Prop :=
| Le_grow : data_beside m d x -> letter m d x (grown d x)
| Le_stay : ~ data_beside m d x -> letter m d x x.

(** One round over the letters of a group, then so many rounds. *)
Inductive one_round (m : mat) : list dir -> rect -> rect -> Prop :=
| Or_nil : forall x, one_round m [] x x
| Or_cons : forall d ds x y z, letter m d x y -> one_round m ds y z -> one_round m (d :: ds) x z.
Inductive n_rounds (m : mat) (ds : list dir) : nat -> rect -> rect -> Prop :=
| Nr_O : forall x, n_rounds m ds 0 x x
| Nr_S : forall n x y z, one_round m ds x y -> n_rounds m ds n y z -> n_rounds m ds (S n) x z.

(** A group: its letters and how many rounds; without number, until nothing changes. *)
Inductive group_expands (m : mat) : list dir * option Z -> rect -> rect -> Prop :=
| Ge_count : forall ds n x y, n_rounds m ds (Z.to_nat n) x y -> group_expands m (ds, Some n) x y
| Ge_ever : forall ds n x y, n_rounds m ds n x y -> one_round m ds y y -> group_expands m (ds, None) x y.
Inductive groups_expand (m : mat) : list (list dir * option Z) -> rect -> rect -> Prop :=
| Gs_nil : forall x, groups_expand m [] x x
| Gs_cons : forall g gs x y z, group_expands m g x y -> groups_expand m gs y z -> groups_expand m (g :: gs) x z.

(** Step by step growth, only towards the given directions and only onto data. *)
Inductive grows (m : mat) (ds : list dir) : rect -> rect -> Prop :=
| Gr_refl : forall x, grows m ds x x
| Gr_step : forall d x y, In d ds -> data_beside m d x -> grows m ds (grown d x) y -> grows m ds x y.

Definition sorted (x : rect) : Prop := r1 x <= r2 x /\ c1 x <= c2 x.
Definition positive (x : rect) : Prop := 0 <= r1 x /\ 0 <= c1 x.

(** Letters of expansion groups. *)
Definition dir_letter (d : dir) : pychar :=
  match d with dL => chr "L" | dU => chr "U" | dR => chr "R" | dD => chr "D" end.
Definition groups_of (gs : list (list dir * option Z)) : list (pystr * option Z) :=
  map (fun g => (map dir_letter (fst g), snd g)) gs.

(** Moves as text. *)
Definition moves_text (ds : list dir) : pystr := map dir_letter ds.

(** How many lines were added at a side. *)
Definition lines_added (d : dir) (x y : rect) : Z :=
  match d with
  | dL => c1 x - c1 y
  | dR => c2 y - c2 x
  | dU => r1 x - r1 y
  | dD => r2 y - r2 x
  end.
Definition dir_eq_dec (a b : dir) : {a = b} + {a <> b}.
Proof. decide equality. Defined.

(** ** Target-termination, as documented in [/repo/pandalone/xleash/__init__.py] lines 636-650 *)

(** The moves, from a full cell, to the end of the run(s): each on its own axis. *)
Inductive ends_same (m : mat) (p : coords) : list dir -> coords -> Prop :=
| Es_one : forall a t, run_end m a p t -> ends_same m p [a] t
| Es_vert : forall a b qa qb, vertical a -> ~ vertical b -> run_end m a p qa -> run_end m b p qb ->
    ends_same m p [a; b] (fst qa, snd qb)
| Es_horiz : forall a b qa qb, ~ vertical a -> vertical b -> run_end m a p qa -> run_end m b p qb ->
    ends_same m p [a; b] (fst qb, snd qa).

(** The outcome of moving from the landing [p]; [same] tells whether search-same applies. *)
Inductive enacts (m : mat) (ds : list dir) (same : Prop) (p : coords) : res coords -> Prop :=
| En_first : forall t, ~ full m p -> first_full m ds p t -> enacts m ds same p (Ok t)
| En_empty : ~ full m p -> none_full m ds p -> enacts m ds same p (Raise EmptyCapture)
| En_stay : full m p -> ~ same -> enacts m ds same p (Ok p)
| En_same : forall t, full m p -> same -> ends_same m p ds t -> enacts m ds same p (Ok t).

(** The modifiers of the grammar. *)
Definition good_mod (o : option pystr) : Prop := o = None \/ o = Some (lit "+") \/ o = Some (lit "?").
(** Moves of an edge of the grammar. *)
Definition good_edge (e : edge) : Prop := mov e = None \/ exists ds, mov e = Some (moves_text ds) /\ good_moves ds.
Definition dependent (c : cell) : Prop := c_row c = CStr (lit ".") /\ c_col c = CStr (lit ".").

(** A side of the rect lies in the sheet. *)
Definition side_inside (m : mat) (d : dir) (x : rect) : Prop :=
  match d with
  | dL => 0 <= c1 x
  | dU => 0 <= r1 x
  | dR => c2 x < Z.of_nat (cols m)
  | dD => r2 x < Z.of_nat (rows m)
  end.
