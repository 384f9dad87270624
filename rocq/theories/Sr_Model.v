(** * The "sr" filter: model of [/repo/pandalone/xleash/_pandas_filters.py] lines 233-248 *)
From Coq Require Import String QArith.
From Verif Require Import PyBase Coords_Model Capture_Model Sheets_Model ReadRect_Model.
Open Scope Z_scope.

(** The values a lasso may have: those of cells, and lists of values *)
Inductive val := Cell (x : xvalue) | Seq (l : list val).

(** The equality of dictionary keys.  Ints, floats and bools are numbers; a NaN equals itself only
    (each error-cell has its own one, _xlrd.py:117), times and dates are compared by their fields. *)
Definition number (x : xvalue) : option Q :=
  match x with
  | VInt z => Some (inject_Z z)
  | VFloat q => Some q
  | VBool b => Some (if b then 1 else 0)%Q
  | _ => None
  end.
Definition date_eqb (a b : Z * Z * Z) : bool :=
  let '(y, m, d) := a in let '(y', m', d') := b in (y =? y') && (m =? m') && (d =? d').
Definition time_eqb (a b : Z * Z * Z * Z) : bool :=
  let '(h, m, s, u) := a in let '(h', m', s', u') := b in (h =? h') && (m =? m') && (s =? s') && (u =? u').
Definition key_eqb (a b : xvalue) : bool :=
  match a, b with
  | VNone, VNone => true
  | VText s, VText t => str_eqb s t
  | VDatetime d, VDatetime e => date_eqb (d_date d) (d_date e) && time_eqb (d_time d) (d_time e)
  | VTime t, VTime u => time_eqb t u
  | _, _ => match number a, number b with Some p, Some q => Qeq_bool p q | _, _ => false end
  end.

(** [iter(x)]: texts have their characters. *)
Definition items (v : val) : res (list val) :=
  match v with
  | Seq l => Ok l
  | Cell (VText s) => Ok (map (fun c => Cell (VText [c])) s)
  | Cell _ => Raise TypeError
  end.

(** [d[k] = v]: an equal key stays as it is, where it is. *)
Fixpoint put (k : xvalue) (v : val) (d : list (xvalue * val)) : list (xvalue * val) :=
  match d with
  | [] => [(k, v)]
  | (k', v') :: d' => if key_eqb k' k then (k', v) :: d' else (k', v') :: put k v d'
  end.

(** [dict(l)] (CPython's [PyDict_MergeFromSeq2]): each element has to have two items, the first of
    which is hashable. *)
Definition pair_of (v : val) : res (xvalue * val) :=
  do l <- items v;
  match l with
  | [k; x] => match k with Cell k => Ok (k, x) | Seq _ => Raise TypeError end
  | _ => Raise ValueError
  end.
Fixpoint fill (d : list (xvalue * val)) (l : list val) : res (list (xvalue * val)) :=
  match l with
  | [] => Ok d
  | v :: l' => do (k, x) <- pair_of v; fill (put k x d) l'
  end.
Definition dict_of (v : val) : res (list (xvalue * val)) := do l <- items v; fill [] l.

(** _pandas_filters.py:237-241: the labels and values of the series, in order (those of a dictionary
    are kept by pandas since 0.23; its dtypes are not modelled), without further arguments. *)
Definition sr_filter (v : val) : res (list (xvalue * val)) := dict_of v.
