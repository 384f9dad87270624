(** * Visiting twice: schemas whose rules do not undo each other *)
From Coq Require Import String.
From Verif Require Import PyBase Json Pandel_Model Visit_Model Visit_Spec.

(** Values that are neither lists nor objects *)
Definition scalar (v : json) : Prop := (forall l, v <> JList l) /\ (forall d, v <> JDict d).

(** Keywords that look at types, bounds, lengths, or one property or item at a time.  Named properties do not
    ask for their own removal, and allowed values are no lists or objects. *)
Definition steady_keyword (k : keyword) : Prop :=
  match k with
  | VEnum l => forall x, In x l -> scalar x
  | VConst c => scalar c
  | VProps ps => NoDup (map fst ps) /\ forall p ks v, In (p, SObj ks) ps -> ~ In (VAutoRemoveNull v) ks
  | VPatterns _ | VNames _ | VItemsEach _ | VAddItems _ | VAnyOf _ | VAllOf _ | VOneOf _ | VNot _ => False
  | VMinProps _ | VMaxProps _ | VUnique _ | VNeeds _ | VContains _ | VDepends _ | VIf _ _ _ => False
  | _ => True
  end.
(** Schemas made of them, each at most once *)
Definition steady (s : vschema) : Prop :=
  forall kws, s = SObj kws -> NoDup (map name_of kws) /\ forall k, In k kws -> steady_keyword k.
