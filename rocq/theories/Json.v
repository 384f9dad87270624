(** * JSON-like documents

    The values that the modelled functions of [pandata.py], [_parse.py] and
    [_filter.py] walk over.  Numbers are integers: no modelled function looks
    inside a number.  Documents are trees, i.e. without internal sharing. *)
From Verif Require Import PyBase.

Inductive json :=
| JNull
| JBool (b : bool)
| JNum (z : Z)
| JStr (s : pystr)
| JList (l : list json)
| JDict (d : list (pystr * json)).

Section JsonInd.
  Variable P : json -> Prop.
  Hypothesis Hnull : P JNull.
  Hypothesis Hbool : forall b, P (JBool b).
  Hypothesis Hnum : forall z, P (JNum z).
  Hypothesis Hstr : forall s, P (JStr s).
  Hypothesis Hlist : forall l, Forall P l -> P (JList l).
  Hypothesis Hdict : forall d, Forall (fun kv => P (snd kv)) d -> P (JDict d).

  Fixpoint json_ind' (j : json) : P j :=
    match j with
    | JNull => Hnull
    | JBool b => Hbool b
    | JNum z => Hnum z
    | JStr s => Hstr s
    | JList l =>
        Hlist l ((fix go l : Forall P l :=
                    match l with
                    | [] => Forall_nil _
                    | x :: l' => Forall_cons x (json_ind' x) (go l')
                    end) l)
    | JDict d =>
        Hdict d ((fix go d : Forall (fun kv => P (snd kv)) d :=
                    match d with
                    | [] => Forall_nil _
                    | x :: d' => Forall_cons x (json_ind' (snd x)) (go d')
                    end) d)
    end.
End JsonInd.

Definition sget {V} := @dget pystr V str_eqb.
Definition sset {V} := @dset pystr V str_eqb.
Definition sdel {V} := @ddel pystr V str_eqb.
Definition smem {V} := @dmem pystr V str_eqb.

Fixpoint json_eqb (a b : json) : bool :=
  match a, b with
  | JNull, JNull => true
  | JBool x, JBool y => Bool.eqb x y
  | JNum x, JNum y => Z.eqb x y
  | JStr x, JStr y => str_eqb x y
  | JList x, JList y =>
      (fix go x y := match x, y with
                     | [], [] => true
                     | a :: x', b :: y' => json_eqb a b && go x' y'
                     | _, _ => false
                     end) x y
  | JDict x, JDict y =>
      (fix go x y := match x, y with
                     | [], [] => true
                     | (k, a) :: x', (k', b) :: y' => str_eqb k k' && json_eqb a b && go x' y'
                     | _, _ => false
                     end) x y
  | _, _ => false
  end.

Definition is_mapping (j : json) : bool := match j with JDict _ => true | _ => false end.
(** [isinstance(j, Sequence)]: lists and strings. *)
Definition is_sequence (j : json) : bool :=
  match j with JList _ | JStr _ => true | _ => false end.
Definition is_strict_sequence (j : json) : bool :=
  match j with JList _ => true | _ => false end.
