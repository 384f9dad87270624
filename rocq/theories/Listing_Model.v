(** * Listing the children of a step: model of [/repo/pandalone/mappings.py] lines 1008-1014,
    1123-1134, 1150-1157 and 1201-1207 *)
From Coq Require Import String.
From Verif Require Import PyBase Json JsonPointer_Model Paths_Model Pmod_Model Pstep_Model.

(** mappings.py:1008-1014 [_lockstr] *)
Definition lockstr (lock : Z) : pystr :=
  if (CAN_RELOCATE <=? lock)%Z then lit "CAN_RELOCATE"
  else if (LOCKED <=? lock)%Z && (lock <? CAN_RELOCATE)%Z then lit "LOCKED"
  else lit "LOCKED".

(** mappings.py:1152-1156: the message of the exception that [set_locked] raises *)
Definition locked_msg (h : heap) (self : nat) (state : Z) : pystr :=
  lit "Cannot rename/relocate '" ++ orig_of h self ++ lit "'-->'" ++ text_of h self
  ++ lit "' due to " ++ lockstr state ++ lit "!".

(** mappings.py:1133-1134 [__repr__] *)
Definition repr (h : heap) (self : nat) : pystr := lit "`" ++ text_of h self ++ lit "`".

(** mappings.py:1201-1207 [_steps]; the tag is not looked at. *)
Definition steps_keys (h : heap) (self : nat) (tag : option pystr) : list pystr := map fst (children h self).
Definition steps (h : heap) (self : nat) (tag : option pystr) : list nat := map snd (children h self).

(** mappings.py:1123-1127 [__dir__]; [own] is what [object.__dir__] lists. *)
Definition dir_names (own : list pystr) (h : heap) (self : nat) : list pystr :=
  match children h self with
  | [] => own
  | csteps => sort_str (fun x => x) (own ++ map fst csteps)
  end.
