(** * Enumerations of any values: model of [rule_enum], [/repo/pandalone/pandata.py] lines 306-314 *)
From Coq Require Import String.
From Verif Require Import PyBase Json.

(** [x == y] of Python on JSON values, also nested ones: booleans are numbers, the order of dicts
    does not matter.  No floats. *)
Fixpoint py_equal (x y : json) : bool :=
  match x, y with
  | JNull, JNull => true
  | JBool a, JBool b => Bool.eqb a b
  | JNum a, JNum b => (a =? b)%Z
  | JBool b, JNum z | JNum z, JBool b => (z =? (if b then 1 else 0))%Z
  | JStr a, JStr b => str_eqb a b
  | JList l, JList m =>
      (fix go (l m : list json) : bool :=
         match l, m with
         | [], [] => true
         | a :: l', b :: m' => py_equal a b && go l' m'
         | _, _ => false
         end) l m
  | JDict d, JDict e =>
      (length d =? length e)%nat &&
      (fix go (d : list (pystr * json)) : bool :=
         match d with
         | [] => true
         | (k, a) :: d' => match sget k e with Some b => py_equal a b | None => false end && go d'
         end) d
  | _, _ => false
  end.

(** [unbool] of jsonschema 3.0.2: [None] are the two objects booleans are replaced by, unequal to
    all else. *)
Definition unbool (v : json) : option json := match v with JBool _ => None | v => Some v end.

(** pandata.py:306-314 [rule_enum]: whether it yields no error.  The small integers are the same
    objects wherever they come from (CPython). *)
Definition rule_enum (enums : list json) (v : json) : bool :=
  match v with
  | JNum 0 | JNum 1 => existsb (fun e => match unbool e with Some e => py_equal v e | None => false end) enums
  | _ => existsb (py_equal v) enums
  end.
