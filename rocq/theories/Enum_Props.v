(** * Enumerations of any values: theorems *)
From Coq Require Import String.
From Verif Require Import PyBase Json Enum_Model Enum_Spec Enum_Proofs.

Local Notation obj := JDict.
Local Notation "k ↦ v" := (lit k, v) (at level 60).

(** Values that are listed are accepted, whatever their dicts' order. *)
Theorem C115_listed : forall enums v e, keyed v -> Forall keyed enums -> In e enums -> same v e -> rule_enum enums v = true.
Proof.
  intros enums v e Kv Ke I S. apply (rule_is enums v Kv Ke). exists e. split; [exact I|]. split; [now apply same_loosely|].
  intros [->| ->] b ->; inversion S as [? ? (_ & E)| |]; discriminate.
Qed.
Example C115_listed_example : rule_enum [JNum 1; obj ["a" ↦ JNum 1; "b" ↦ JList [JBool true]]] (obj ["b" ↦ JList [JBool true]; "a" ↦ JNum 1]) = true.
Proof. reflexivity. Qed.

(** Others are refused, if booleans are never where numbers are. *)
Theorem C115_only : forall enums v, keyed v -> Forall keyed enums ->
  (bool_free v /\ Forall bool_free enums) \/ (number_free v /\ Forall number_free enums) \/ (bool_free v /\ number_free v) ->
  (rule_enum enums v = true <-> exists e, In e enums /\ same v e).
Proof.
  intros enums v Kv Ke H. split.
  - intros R. apply (rule_is enums v Kv Ke) in R. destruct R as (e & I & L & _). exists e. split; [exact I|]. apply loosely_same; [|exact L].
    destruct H as [(A & B)|[(A & B)|(A & B)]]; try (rewrite Forall_forall in B; specialize (B e I)); split; intros b z U V;
      first [exact (A b U)|exact (B b V)|exact (B z V)|exact (A z U)|exact (B z U)].
  - intros (e & I & S). exact (C115_listed enums v e Kv Ke I S).
Qed.
Example C115_only_example :
  rule_enum [JList [JNum 1; JNum 2]; obj []] (JList [JNum 2; JNum 1]) = false /\ rule_enum [obj ["a" ↦ JNull]] (obj ["a" ↦ JNull; "b" ↦ JNull]) = false /\
  rule_enum [obj ["a" ↦ JNull]] (obj []) = false.
Proof. repeat split. Qed.

(** Atoms that are no booleans: among all values *)
Theorem C115_atoms : forall enums v, atom v -> (forall b, v <> JBool b) -> Forall keyed enums -> (rule_enum enums v = true <-> In v enums).
Proof.
  intros enums v A N Ke. assert (Kv : keyed v) by (now constructor). split.
  - intros R. apply (rule_is enums v Kv Ke) in R. destruct R as (e & I & L & X). inversion L as [? ? E| |]; subst; try destruct A.
    inversion E; subst; try exact I; try (destruct (N _ eq_refl)).
    + destruct (X (or_intror eq_refl) true eq_refl).
    + destruct (X (or_introl eq_refl) false eq_refl).
  - intros I. apply (C115_listed enums v v Kv Ke I). constructor. auto.
Qed.
Example C115_atoms_example : rule_enum [JBool true; obj []; JList [JNum 1]] (JNum 1) = false /\ rule_enum [JBool true; JNum 1] (JNum 1) = true.
Proof. repeat split. Qed.

(** Exactly: what equals a listed value in Python, save that numbers are no booleans at the top *)
Theorem C115_exact : forall enums v, keyed v -> Forall keyed enums ->
  (rule_enum enums v = true <-> exists e, In e enums /\ loosely v e /\ ((v = JNum 0 \/ v = JNum 1) -> forall b, e <> JBool b)).
Proof. exact rule_is. Qed.
Example C115_exact_example : rule_enum [JNum 1] (JBool true) = true /\ rule_enum [JBool true] (JNum 1) = false /\ rule_enum [JList [JBool true]] (JList [JNum 1]) = true.
Proof. repeat split. Qed.

(** Inside lists and dicts, booleans are numbers. *)
Theorem C115_nested_refuted :
  rule_enum [JList [JNum 1]] (JList [JBool true]) = true /\ rule_enum [JList [JBool false]] (JList [JNum 0]) = true /\
  rule_enum [obj ["a" ↦ JBool true]] (obj ["a" ↦ JNum 1]) = true /\
  ~ same (JList [JBool true]) (JList [JNum 1]) /\ ~ same (JList [JNum 0]) (JList [JBool false]) /\ ~ same (obj ["a" ↦ JNum 1]) (obj ["a" ↦ JBool true]).
Proof.
  split; [reflexivity|]. split; [reflexivity|]. split; [reflexivity|].
  assert (X : forall x y, atom x -> x <> y -> ~ same x y) by (intros x y A N S; inversion S as [? ? (_ & E)| |]; subst; auto).
  assert (L : forall x y, atom x -> x <> y -> ~ same (JList [x]) (JList [y])).
  { intros x y A N S. inversion S as [? ? P|? ? F|]; subst; [destruct P as ([] & _)|]. inversion F; subst. exact (X x y A N H2). }
  split; [apply L; [exact I|discriminate]|]. split; [apply L; [exact I|discriminate]|].
  intros S. inversion S as [? ? P| |? ? A B]; subst; [destruct P as ([] & _)|]. destruct (A (lit "a") (JNum 1) (or_introl eq_refl)) as (y & [E|[]] & E'). injection E as <-.
  exact (X (JNum 1) (JBool true) I ltac:(discriminate) E').
Qed.

Print Assumptions C115_listed.
Print Assumptions C115_only.
Print Assumptions C115_atoms.
Print Assumptions C115_exact.
Print Assumptions C115_nested_refuted.
