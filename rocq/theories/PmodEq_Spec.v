(** * When mappings are the same, independently of the code *)
From Coq Require Import String.
From Verif Require Import PyBase Json JsonPointer_Spec Paths_Spec Pmod_Model Pmod_Spec.

(** The same is declared along the same steps. *)
Definition same_nodes (a b : pmod) : Prop :=
  (forall ds, (exists q, node_at a ds q) <-> (exists q, node_at b ds q))
  /\ (forall ds q q', node_at a ds q -> node_at b ds q' -> p_alias q = p_alias q').

(** Their regexes come in the same order. *)
Definition same_order (a b : pmod) : Prop :=
  forall ds q q', node_at a ds q -> node_at b ds q' -> map fst (p_regxs q) = map fst (p_regxs q').
