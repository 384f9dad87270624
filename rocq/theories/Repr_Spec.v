(** * The texts of mappings: specification *)
From Verif Require Import PyBase Json Pmod_Model Repr_Model.

(** Strings have characters that Python knows. *)
Definition is_text (s : pystr) : Prop := Forall (fun c => c < 1114112)%N s.

(** Every pattern is written in full: with its quotes and escapes it has at most 200 characters. *)
Inductive in_full (printable : pychar -> bool) : pmod -> Prop :=
| In_full : forall a s r, (forall t, a = Some t -> is_text t) ->
    (forall k c, In (k, c) s -> is_text k /\ in_full printable c) ->
    (forall k c, In (k, c) r -> is_text k /\ length (str_repr printable k) <= 200 /\ in_full printable c) ->
    in_full printable (Pmod a s r).
