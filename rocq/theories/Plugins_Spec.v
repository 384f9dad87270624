(** * Plugins: what is to happen *)
From Coq Require Import Sorted Permutation.
From Verif Require Import PyBase Plugins_Model.

Section Spec.
  Variable load : entry_point -> history -> res bool.
  Variable install : entry_point -> history -> res unit.

  (** The event of loading [e] after [before] *)
  Definition tells_load (e : entry_point) (before : history) (ev : event) : Prop :=
    (exists c, load e before = Ok c /\ ev = Loaded (ep_id e)) \/
    (exists x, load e before = Raise x /\ ev = LoadFailed (ep_id e)).

  Definition tells_install (e : entry_point) (before : history) (ev : event) : Prop :=
    (install e before = Ok tt /\ ev = Installed (ep_id e)) \/
    (exists x, install e before = Raise x /\ ev = InstallFailed (ep_id e)).

  (** One event for each of [es], in their order, where [tells] *)
  Definition told (tells : entry_point -> history -> event -> Prop) (h : history)
      (es : list entry_point) (evs : history) : Prop :=
    length evs = length es /\
    forall i e, nth_error es i = Some e ->
      exists ev, nth_error evs i = Some ev /\ tells e (h ++ firstn i evs) ev.

  (** Those of [es] that are functions when loaded *)
  Definition functions (h : history) (es : list entry_point) (evs : history) (fs : list entry_point) : Prop :=
    forall e, In e fs <-> exists i, nth_error es i = Some e /\ load e (h ++ firstn i evs) = Ok true.
End Spec.

(** [a] is [b] without some of its elements. *)
Inductive sub {A} : list A -> list A -> Prop :=
| SubNil : sub [] []
| SubSkip : forall x a b, sub a b -> sub a (x :: b)
| SubKeep : forall x a b, sub a b -> sub (x :: a) (x :: b).

(** Texts in order: one begins the other, or they differ first in a smaller character. *)
Definition text_le (a b : list N) : Prop :=
  (exists c, b = a ++ c) \/ (exists p x y a' b', a = p ++ x :: a' /\ b = p ++ y :: b' /\ (x < y)%N).
