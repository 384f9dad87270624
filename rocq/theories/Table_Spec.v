(** * Which tables make steps, independently of the code *)
From Coq Require Import String.
From Verif Require Import PyBase Pstep_Model Pstep_Spec Table_Model.

Section Table.
  Variable class_attr : pystr -> bool.
  Variable V : Type.

  (** The path of a row is a slash and a name that can be an attribute of a step. *)
  Definition child_name (n : pystr) : Prop :=
    n <> [] /\ ~ In 47%N n /\ ~ In 126%N n /\ class_attr n = false /\ (forall y, n <> 95%N :: y)
    /\ n <> lit "get_values" /\ n <> lit "Series".

  (** A column that can be a private attribute *)
  Definition free_column (c : pystr) : Prop :=
    (forall y, c <> 95%N :: y) /\
    ~ In c [lit "fix"; lit "lock"; lit "schema"; lit "locked"; lit "orig"; lit "pmod"; lit "csteps"; lit "tags"].

  Definition flat_table (cols : list pystr) (rows : list (row V)) : Prop :=
    NoDup cols /\ Forall free_column cols /\ NoDup (map r_path rows) /\
    forall r, In r rows -> length (r_values r) = length cols /\
      exists n, r_path r = 47%N :: n /\ child_name n.
End Table.
