(** * JSON types of pandas and numpy values: specification *)
From Coq Require Import String.
From Verif Require Import PyBase Json Pandel_Model Kinds_Model.

(** Arrays have as many elements as their shape says, tables as many cells as rows in each column. *)
Definition sound (v : pyval) : Prop :=
  match v with
  | VArray _ shape nans => length nans = fold_right Nat.mul 1 shape
  | VFrame rows cols => forall name k nans, In (name, (k, nans)) cols -> length nans = rows
  | _ => True
  end.

(** Kinds of data that have a not-a-number or a not-a-time *)
Definition has_nan (k : kind) : Prop := In k [KFloat; KComplex; KDatetime; KTimedelta].

(** What counts as nothing: [None], [np.nan] itself, and whatever has a single element that is
    not-a-number *)
Inductive nothing : pyval -> Prop :=
| n_none : nothing VNone
| n_nan : nothing VNpNan
| n_scalar : forall k, has_nan k -> nothing (VScalar k true)
| n_array : forall k shape, has_nan k -> nothing (VArray k shape [true])
| n_series : forall k, has_nan k -> nothing (VSeries k [true])
| n_frame : forall name k, has_nan k -> nothing (VFrame 1 [(name, (k, [true]))]).

(** The table in the documentation, pandata.py:348-370 *)
Inductive documented : pyval -> jtype -> Prop :=
| d_frame : forall rows cols, documented (VFrame rows cols) TObject
| d_series : forall k nans, documented (VSeries k nans) TObject
| d_series_array : forall k nans, documented (VSeries k nans) TArray
| d_array : forall k n nans, documented (VArray k [n] nans) TArray
| d_seq : forall l, documented (VSeq l) TArray
| d_bytes : forall s, documented (VBytes s) TArray
| d_npbytes : forall nan, documented (VScalar KBytes nan) TArray
| d_dict : forall d, documented (VDict d) TObject.

(** The types of numpy's scalars.  Durations are integers to numpy. *)
Definition scalar_types (k : kind) : list jtype :=
  match k with
  | KBool => [TBoolean]
  | KInt | KTimedelta => [TInteger; TNumber]
  | KFloat | KComplex => [TNumber]
  | KText => [TString]
  | KBytes => [TArray]
  | KDatetime | KObject => []
  end.

(** Python's values of JSON *)
Fixpoint of_json (v : json) : pyval :=
  match v with
  | JNull => VNone
  | JBool b => VBool b
  | JNum z => VInt z
  | JStr s => VStr s
  | JList l => VSeq (map of_json l)
  | JDict d => VDict (map (fun kv => (fst kv, of_json (snd kv))) d)
  end.

(** ** Tables *)

(** All columns have a cell for each row. *)
Definition rectangular (t : table) : Prop := forall name c, In (name, c) (t_cols t) -> length (c_cells c) = t_rows t.
(** What a default makes a new column of, in a table of so many rows *)
Definition fits (rows : nat) (d : dflt) : Prop := match d with DNum _ => True | DList l => length l = rows end.
Definition new_col (rows : nat) (d : dflt) : column :=
  mkCol false (match d with DNum z => repeat (Some z) rows | DList l => map Some l end).
(** A column of one row that is not-a-number *)
Definition blank (c : column) : Prop := c = mkCol false [None].
(** The columns that a table lacks and that have a default to be filled in *)
Definition additions (auto : bool) (rows : nat) (cols : list (pystr * column)) (props : list (pystr * prop)) : list (pystr * column) :=
  flat_map (fun np =>
    match p_default (snd np) with
    | Some d => if first_defined (p_auto (snd np)) auto && match sget (fst np) cols with None => true | Some _ => false end
                then [(fst np, new_col rows d)] else []
    | None => []
    end) props.
