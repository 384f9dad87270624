(** * JSON types of pandas and numpy values: model of [/repo/pandalone/pandata.py] lines 146-185
      and 263-303 for tables *)
From Coq Require Import String.
From Verif Require Import PyBase Json Pandel_Model.

(** The kinds of numpy's data types *)
Inductive kind := KBool | KInt | KFloat | KComplex | KDatetime | KTimedelta | KText | KBytes | KObject.

(** Python values, as far as the checks tell them apart.  Of the elements of arrays, series and
    tables it only matters which are not-a-number (or not-a-time): they are [true]. *)
Inductive pyval :=
| VNone
| VBool (b : bool)
| VInt (z : Z)
| VNpNan                                     (* the object [np.nan], a Python float *)
| VFloat (nan : bool)                        (* any other Python float *)
| VStr (s : pystr)
| VBytes (s : list N)
| VSeq (l : list pyval)                      (* lists, tuples *)
| VDict (d : list (pystr * pyval))
| VScalar (k : kind) (nan : bool)            (* scalars of numpy; never of kind [KObject] *)
| VArray (k : kind) (shape : list nat) (nans : list bool)
| VSeries (k : kind) (nans : list bool)
| VFrame (rows : nat) (cols : list (pystr * (kind * list bool))).

(** pandata.py:152-155 [_is_array], with 146: series are registered as sequences.  Byte strings are
    sequences; texts of numpy are texts of Python. *)
Definition is_array (v : pyval) : bool :=
  match v with
  | VBytes _ | VSeq _ | VScalar KBytes _ | VArray _ _ _ | VSeries _ _ => true
  | _ => false
  end.
(** pandata.py:158-159 [_is_object], with 147-148 *)
Definition is_object (v : pyval) : bool :=
  match v with VDict _ | VSeries _ _ | VFrame _ _ => true | _ => false end.
(** pandata.py:162-163 [_is_bool] *)
Definition is_bool (v : pyval) : bool :=
  match v with VBool _ | VScalar KBool _ => true | _ => false end.
(** pandata.py:166-170 [_is_integer]; numpy's durations are signed integers. *)
Definition is_integer (v : pyval) : bool :=
  match v with VInt _ | VScalar (KInt | KTimedelta) _ => true | _ => false end.

(** [instance.size], or no such attribute *)
Definition size_of (v : pyval) : option nat :=
  match v with
  | VScalar _ _ => Some 1
  | VArray _ shape _ => Some (fold_right Nat.mul 1 shape)
  | VSeries _ nans => Some (length nans)
  | VFrame rows cols => Some (rows * length cols)
  | _ => None
  end.
(** [np.isnan] of the elements, or [TypeError] *)
Definition isnan_of (k : kind) (nans : list bool) : option (list bool) :=
  match k with
  | KBool | KInt => Some (map (fun _ => false) nans)
  | KFloat | KComplex | KDatetime | KTimedelta => Some nans
  | KText | KBytes | KObject => None
  end.
Fixpoint isnan_cols (cols : list (pystr * (kind * list bool))) : option (list bool) :=
  match cols with
  | [] => Some []
  | (_, (k, nans)) :: cols' =>
      match isnan_of k nans, isnan_cols cols' with
      | Some a, Some b => Some (a ++ b)
      | _, _ => None
      end
  end.
Definition isnan (v : pyval) : option (list bool) :=
  match v with
  | VScalar k nan => isnan_of k [nan]
  | VArray k _ nans | VSeries k nans => isnan_of k nans
  | VFrame _ cols => isnan_cols cols
  | _ => None
  end.
(** pandata.py:173-185 [_is_null], as a condition.  [float("nan")] makes a new object, so that
    nothing is it. *)
Definition is_null (v : pyval) : bool :=
  match v with
  | VNone | VNpNan => true
  | _ =>
      match size_of v with
      | Some 1 => match isnan v with Some l => forallb (fun b => b) l | None => false end
      | _ => false
      end
  end.

(** The type checker of pandata.py:463-474; [string] and [number] are those of jsonschema:
    [isinstance(v, str)], and [isinstance(v, numbers.Number)] but no [bool]. *)
Definition is_type (v : pyval) (t : jtype) : bool :=
  match t with
  | TNull => is_null v
  | TBoolean => is_bool v
  | TInteger => is_integer v
  | TNumber =>
      match v with
      | VInt _ | VNpNan | VFloat _ | VScalar (KInt | KTimedelta | KFloat | KComplex) _ => true
      | _ => false
      end
  | TString => match v with VStr _ | VScalar KText _ => true | _ => false end
  | TArray => is_array v
  | TObject => is_object v
  end.

(** ** Tables in the rule of the properties *)

(** A column: whether it is of objects (else of numbers), and its cells; [None] is not-a-number. *)
Record column := mkCol { c_objects : bool; c_cells : list (option Z) }.
Record table := mkTable { t_rows : nat; t_cols : list (pystr * column) }.
Definition col_val (c : column) : pyval :=
  VSeries (if c_objects c then KObject else KFloat) (map (fun x => match x with None => true | Some _ => false end) (c_cells c)).

(** Defaults: a number, or a list of numbers *)
Inductive dflt := DNum (z : Z) | DList (l : list Z).
Record prop := mkProp { p_default : option dflt; p_type : option (list jtype);
                        p_auto : option json; p_auto_null : option json; p_remove_null : option json }.

(** [df[name] = default], of pandas: a number goes to each row; a list has to have as many elements
    as there are rows, unless there are none: then its elements become the rows. *)
Definition set_col (t : table) (name : pystr) (d : dflt) : res table :=
  match d with
  | DNum z => Ok (mkTable (t_rows t) (sset name (mkCol false (repeat (Some z) (t_rows t))) (t_cols t)))
  | DList l =>
      let new := mkCol false (map Some l) in
      if Nat.eqb (length l) (t_rows t) then Ok (mkTable (t_rows t) (sset name new (t_cols t)))
      else if Nat.eqb (t_rows t) 0 then
        Ok (mkTable (length l) (sset name new (map (fun kc => (fst kc, mkCol (c_objects (snd kc)) (repeat None (length l)))) (t_cols t))))
      else Raise ValueError
  end.

Section Rule.
  (** The arguments of the rule *)
  Variables ad adn arn : bool.

  (** pandata.py:279-299: one property *)
  Definition fill_col (name : pystr) (p : prop) (t : table) : res table :=
    let given := sget name (t_cols t) in
    let null := match given with Some c => is_null (col_val c) | None => false end in
    match
      match p_default p with
      | Some d =>
          if (first_defined (p_auto p) ad && match given with None => true | Some _ => false end)
             || (first_defined (p_auto_null p) adn && negb (null_in_type (p_type p)) && null)
          then Some d else None
      | None => None
      end
    with
    | Some d => set_col t name d
    | None =>
        if first_defined (p_remove_null p) arn && negb (null_in_type (p_type p)) && null
        then Ok (mkTable (t_rows t) (sdel name (t_cols t)))
        else Ok t
    end.
  (** pandata.py:277-299 *)
  Fixpoint fill_cols (props : list (pystr * prop)) (t : table) : res table :=
    match props with
    | [] => Ok t
    | (name, p) :: props' => do t' <- fill_col name p t; fill_cols props' t'
    end.
  (** pandata.py:301-302: jsonschema's rule checks the type of each property that is given; the names
      of those that fail *)
  Definition wrong_cols (props : list (pystr * prop)) (t : table) : list pystr :=
    map fst (filter (fun np =>
      match sget (fst np) (t_cols t), p_type (snd np) with
      | Some c, Some ts => negb (existsb (is_type (col_val c)) ts)
      | _, _ => false
      end) props).
  (** pandata.py:263-303 [_rule_auto_defaults_properties] of a table *)
  Definition props_rule (props : list (pystr * prop)) (t : table) : res (table * list pystr) :=
    do t' <- fill_cols props t; Ok (t', wrong_cols props t').
End Rule.
