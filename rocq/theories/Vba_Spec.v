(** * Names of files and modules, said without the functions of the model. *)
From Coq Require Import String.
From Verif Require Import PyBase Utils_Spec Vba_Model.

(** The name of a file without folders and extension *)
Definition stem (f b : pystr) : Prop :=
  exists folder name e, f = folder ++ name /\ (folder = [] \/ exists d, folder = d ++ lit "/") /\
    ~ In (chr "/") name /\ extension name b e.

Definition has_name (n : pystr) (c : comp) : Prop := same_nocase (c_name c) n.

(** The extension of a path ends with this letter, in some case. *)
Definition ext_ends (path : pystr) (x : pychar) : Prop :=
  exists st e c, extension path st (e ++ [c]) /\ lower [c] = [x].
