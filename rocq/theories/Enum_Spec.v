(** * Enumerations: equal values *)
From Verif Require Import PyBase Json.

(** Equal JSON values, given which atoms are: lists element by element, dicts key by key *)
Inductive equal (atoms : json -> json -> Prop) : json -> json -> Prop :=
| equal_atoms x y : atoms x y -> equal atoms x y
| equal_lists l m : Forall2 (equal atoms) l m -> equal atoms (JList l) (JList m)
| equal_dicts d e :
    (forall k x, In (k, x) d -> exists y, In (k, y) e /\ equal atoms x y) ->
    (forall k y, In (k, y) e -> exists x, In (k, x) d) ->
    equal atoms (JDict d) (JDict e).

Definition atom (v : json) : Prop := match v with JList _ | JDict _ => False | _ => True end.
(** Of JSON, where booleans are no numbers *)
Definition same : json -> json -> Prop := equal (fun x y => atom x /\ x = y).
(** Of Python, where they are *)
Inductive loose_atoms : json -> json -> Prop :=
| loose_eq x : atom x -> loose_atoms x x
| loose_true1 : loose_atoms (JBool true) (JNum 1)
| loose_true2 : loose_atoms (JNum 1) (JBool true)
| loose_false1 : loose_atoms (JBool false) (JNum 0)
| loose_false2 : loose_atoms (JNum 0) (JBool false).
Definition loosely : json -> json -> Prop := equal loose_atoms.

(** The keys of dicts are unique, at all depths. *)
Inductive keyed : json -> Prop :=
| keyed_atom v : atom v -> keyed v
| keyed_list l : Forall keyed l -> keyed (JList l)
| keyed_dict d : NoDup (map fst d) -> (forall k v, In (k, v) d -> keyed v) -> keyed (JDict d).

(** Values inside a value, itself included *)
Inductive within (x : json) : json -> Prop :=
| within_self : within x x
| within_list l v : In v l -> within x v -> within x (JList l)
| within_dict d k v : In (k, v) d -> within x v -> within x (JDict d).
(** No booleans of one where the other has numbers *)
Definition bool_free (v : json) : Prop := forall b, ~ within (JBool b) v.
Definition number_free (v : json) : Prop := forall z, ~ within (JNum z) v.
