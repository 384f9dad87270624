(** * What JSONCodec is meant to keep, independently of its model *)
From Verif Require Import PyBase.

(** A line end is a line feed (10), together with the carriage return (13) before it, if any. *)

(** [s] has a line feed with no carriage return before it. *)
Definition has_bare (s : list N) : Prop :=
  exists a b, s = a ++ 10%N :: b /\ forall a', a <> a' ++ [13%N].
(** [s] has a carriage return and a line feed. *)
Definition has_pair (s : list N) : Prop := exists a b, s = a ++ 13%N :: 10%N :: b.

(** The line ends of [s] are all of one kind. *)
Definition one_kind (s : list N) : Prop := ~ (has_bare s /\ has_pair s).

(** [t] is [s] with [nl] for every line end. *)
Inductive retold (nl : list N) : list N -> list N -> Prop :=
| R_end : retold nl [] []
| R_bare : forall s t, retold nl s t -> retold nl (10%N :: s) (nl ++ t)
| R_pair : forall s t, retold nl s t -> retold nl (13%N :: 10%N :: s) (nl ++ t)
| R_other : forall c s t, c <> 10%N -> (c = 13%N -> forall s', s <> 10%N :: s') ->
    retold nl s t -> retold nl (c :: s) (c :: t).

(** The kind of the first line end of [s]: [a] has no line feed *)
Inductive first_end : list N -> list N -> Prop :=
| F_pair : forall a b, ~ In 10%N a -> first_end (a ++ 13%N :: 10%N :: b) [13%N; 10%N]
| F_bare : forall a b, ~ In 10%N a -> (forall a', a <> a' ++ [13%N]) -> first_end (a ++ 10%N :: b) [10%N]
| F_none : forall s, ~ In 10%N s -> first_end s [10%N].
