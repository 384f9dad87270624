(** * Listing the children of a step: what the properties talk about *)
From Coq Require Import String.
From Verif Require Import PyBase Json Pstep_Model Pstep_Spec.

(** The states of locks, by their names: mappings.py:1004-1006 *)
Inductive lock_name : Z -> pystr -> Prop :=
| name_relocate : lock_name 3 (lit "CAN_RELOCATE")
| name_rename : lock_name 1 (lit "CAN_RENAME")
| name_locked : lock_name 0 (lit "LOCKED").
