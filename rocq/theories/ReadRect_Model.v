(** * Reading sheets: model of [/repo/pandalone/xleash/io/backend.py] lines 365-375, 399-465
      and of [/repo/pandalone/xleash/io/_xlrd.py] lines 48-212 *)
From Coq Require Import String QArith.
From Verif Require Import PyBase Coords_Model Capture_Model Sheets_Model.
Open Scope Z_scope.

(** ** Margins *)

(** backend.py:411-428 [get_margin_coords], when not cached yet; coords are truthy. *)
Definition get_margin_coords (read_margins : res (option coords * option coords)) (states : res mat) : res (coords * coords) :=
  do (up, dn) <- read_margins;
  match up, dn with
  | Some u, Some d => Ok (u, d)
  | _, _ =>
      do m <- states;
      let (u1, d1) := margin_coords m in
      Ok (match up with Some u => u | None => u1 end, match dn with Some d => d | None => d1 end)
  end.

(** ** Array sheets *)

(** A 2-D numpy array: its shape and elements, [None] where empty. *)
Record array (V : Type) := Array { a_rows : nat; a_cols : nat; a_at : nat -> nat -> option V }.
Arguments Array {V}.
Arguments a_rows {V}.
Arguments a_cols {V}.
Arguments a_at {V}.
Inductive reading (V : Type) := Scalar (v : option V) | Table (t : list (list (option V))).
Arguments Scalar {V}.
Arguments Table {V}.

Section Array.
  Context {V : Type}.
  Definition has_size (a : array V) : bool := negb (Nat.eqb (a_rows a * a_cols a) 0).
  (** backend.py:451-454 *)
  Definition array_states (a : array V) : res mat :=
    if has_size a then Ok (Mat (a_rows a) (a_cols a) (fun r c => match a_at a r c with Some _ => true | None => false end))
    else Raise EmptyCapture.
  (** backend.py:411-428 with the [_read_margin_coords] of the base class *)
  Definition array_margins (a : array V) : res (coords * coords) := get_margin_coords (Ok (None, None)) (array_states a).
  (** backend.py:456-462 [ArraySheet.read_rect] *)
  Definition array_read_rect (a : array V) (st : coords) (nd : option coords) : res (reading V) :=
    if has_size a then
      match nd with
      | None =>
          match np_index (a_rows a) (fst st), np_index (a_cols a) (snd st) with
          | Some r, Some c => Ok (Scalar (a_at a r c))
          | _, _ => Raise IndexError
          end
      | Some nd =>
          Ok (Table (map (fun r => map (a_at a r) (slice (a_cols a) (Some (snd st)) (Some (snd nd + 1))))
                         (slice (a_rows a) (Some (fst st)) (Some (fst nd + 1)))))
      end
    else Raise EmptyCapture.
End Array.

(** ** Excel sheets *)

(** The cell types of xlrd *)
Inductive ctype := XEmpty | XText | XNumber | XDate | XBoolean | XError | XBlank | XOther.
(** [datetime.datetime] *)
Record datetime := Datetime { d_date : Z * Z * Z; d_time : Z * Z * Z * Z }.
(** Finite floats are fractions. *)
Inductive xvalue := VNone | VInt (z : Z) | VFloat (q : Q) | VText (s : pystr) | VBool (b : bool) | VNan | VDatetime (d : datetime) | VTime (t : Z * Z * Z * Z).
(** [xlrd.sheet.Cell]: its type and value, of which one is meaningful. *)
Record xcell := XCell { x_type : ctype; x_num : Q; x_text : pystr }.

(** [int(x)] of a float *)
Definition q_trunc (q : Q) : Z := Z.quot (Qnum q) (Zpos (Qden q)).

Section Xlrd.
  (** [xldate.xldate_as_datetime] of xlrd >= 0.9.3 *)
  Variable as_datetime : Q -> bool -> datetime.

  (** _xlrd.py:48-120 [_parse_cell] *)
  Definition parse_cell (epoch1904 : bool) (c : xcell) : res xvalue :=
    match x_type c with
    | XNumber => if Qeq_bool (inject_Z (q_trunc (x_num c))) (x_num c) then Ok (VInt (q_trunc (x_num c))) else Ok (VFloat (x_num c))
    | XEmpty | XBlank => Ok VNone
    | XText => Ok (VText (x_text c))
    | XBoolean => Ok (VBool (negb (Qeq_bool (x_num c) 0)))
    | XDate =>
        let d := as_datetime (x_num c) epoch1904 in
        let epoch := if epoch1904 then (1904, 1, 1) else (1899, 12, 31) in
        let '(y, m, dd) := d_date d in
        let '(y0, m0, dd0) := epoch in
        if (y =? y0) && (m =? m0) && (dd =? dd0) then Ok (VTime (d_time d)) else Ok (VDatetime d)
    | XError => Ok VNan
    | XOther => Raise ValueError
    end.

  (** An xlrd sheet with equally long rows *)
  Record xsheet := XSheet { xs_rows : nat; xs_cols : nat; xs_at : nat -> nat -> xcell }.

  Definition is_blank (c : xcell) : bool := match x_type c with XEmpty | XBlank => true | _ => false end.
  (** _xlrd.py:176-179; without rows it has no columns, and any index of it fails. *)
  Definition xlrd_states (s : xsheet) : mat := Mat (xs_rows s) (xs_cols s) (fun r c => negb (is_blank (xs_at s r c))).
  (** _xlrd.py:181-186 *)
  Definition xlrd_read_margins (s : xsheet) : res (option coords * option coords) :=
    let nrows := Z.of_nat (xs_rows s) - 1 in
    let ncols := Z.of_nat (xs_cols s) - 1 in
    if (nrows <? 0) || (ncols <? 0) then Raise EmptyCapture else Ok (None, Some (nrows, ncols)).
  Definition xlrd_margins (s : xsheet) : res (coords * coords) := get_margin_coords (xlrd_read_margins s) (Ok (xlrd_states s)).

  (** [sheet.cell(r, c)] *)
  Definition xl_cell (s : xsheet) (r c : Z) : res xcell :=
    match np_index (xs_rows s) r, np_index (xs_cols s) c with
    | Some r, Some c => Ok (xs_at s r c)
    | _, _ => Raise IndexError
    end.

  (** [range(a, b)] *)
  Definition zrange (a b : Z) : list Z := map (fun i => a + Z.of_nat i) (seq 0 (Z.to_nat (b - a))).

  (** _xlrd.py:203-210: the value put in the row *)
  Definition read_cell (epoch1904 : bool) (s : xsheet) (r c : Z) : res xvalue :=
    match (do full <- get (xlrd_states s) (r, c);
           if full then do x <- xl_cell s r c; do v <- parse_cell epoch1904 x; Ok (Some v) else Ok None) with
    | Ok (Some v) => Ok v
    | Ok None | Raise IndexError => Ok VNone
    | Raise e => Raise e
    end.
  Inductive xreading := XScalar (v : xvalue) | XTable (t : list (list xvalue)).
  (** _xlrd.py:188-212 [XlrdSheet.read_rect] *)
  Definition xlrd_read_rect (epoch1904 : bool) (s : xsheet) (st : coords) (nd : option coords) : res xreading :=
    match nd with
    | None => do x <- xl_cell s (fst st) (snd st); do v <- parse_cell epoch1904 x; Ok (XScalar v)
    | Some nd =>
        do t <- rmap (fun r => rmap (fun c => read_cell epoch1904 s r c) (zrange (snd st) (snd nd + 1))) (zrange (fst st) (fst nd + 1));
        Ok (XTable t)
    end.
End Xlrd.

(** [book.sheet_by_name], [book.sheet_by_index] of xlrd on the names of a book *)
Fixpoint find_name (n : pystr) (names : list pystr) (i : nat) : option nat :=
  match names with
  | [] => None
  | m :: names' => if str_eqb n m then Some i else find_name n names' (S i)
  end.
Definition sheet_by_name (names : list pystr) (n : pystr) : res nat :=
  match find_name n names 0 with Some i => Ok i | None => Raise (OtherError 1) end.
Definition sheet_by_index (names : list pystr) (z : Z) : res nat :=
  match np_index (length names) z with Some i => Ok i | None => Raise IndexError end.
(** _xlrd.py:123-142 [_open_sheet_by_name_or_index]: the position of the sheet opened *)
Definition open_by_name_or_index (names : list pystr) (id : sid) : res nat :=
  match id with
  | SNone => sheet_by_index names 0
  | SInt z => sheet_by_index names z
  | SStr n =>
      match sheet_by_name names n with
      | Ok i => Ok i
      | Raise e => match py_int n with None => Raise e | Some z => sheet_by_index names z end
      end
  end.
