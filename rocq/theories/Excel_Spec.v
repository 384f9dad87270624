(** * Excel and Windows: specification *)
From Coq Require Import String.
From Verif Require Import PyBase FileUrl_Spec Excel_Model.

(** Texts that end with an extension of Excel *)
Definition ends_excel (s : list N) : Prop :=
  exists a e x, s = a ++ 46%N :: x /\ In e extensions /\ Forall2 same_letter e x.

(** What a shortcut is wanted to have, in order: those given and not empty *)
Inductive wants (target : pystr) (wdir args icon desc : option pystr) : attr -> pystr -> Prop :=
| w_target : wants target wdir args icon desc Targetpath target
| w_icon : forall s, icon = Some s -> s <> [] -> wants target wdir args icon desc IconLocation s
| w_desc : forall s, desc = Some s -> s <> [] -> wants target wdir args icon desc Description s
| w_args : forall s, args = Some s -> s <> [] -> wants target wdir args icon desc Arguments s
| w_wdir : forall s, wdir = Some s -> s <> [] -> wants target wdir args icon desc WorkingDirectory s.
