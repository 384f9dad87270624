(** * What a path means: walking over folders *)
From Coq Require Import String.
From Verif Require Import PyBase.

(** A folder is the list of names from the root.  One step of a walk. *)
Inductive walk1 : list pystr -> pystr -> list pystr -> Prop :=
| W_root : forall f, walk1 f (lit "") []
| W_stay : forall f, walk1 f (lit ".") f
| W_up : forall f n, walk1 (f ++ [n]) (lit "..") f
| W_up_root : walk1 [] (lit "..") []
| W_down : forall f n, n <> lit "" -> n <> lit "." -> n <> lit ".." -> walk1 f n (f ++ [n]).

(** A walk along a list of steps. *)
Inductive walks : list pystr -> list pystr -> list pystr -> Prop :=
| Ws_nil : forall f, walks f [] f
| Ws_cons : forall f s f1 ss f2, walk1 f s f1 -> walks f1 ss f2 -> walks f (s :: ss) f2.

(** The text of a path is read as its steps separated by slashes. *)
Definition text_walks (f : list pystr) (p : pystr) (g : list pystr) : Prop :=
  exists steps, steps <> [] /\ (forall s, In s steps -> ~ In 47%N s)
    /\ p = join [47%N] steps /\ walks f steps g.

Definition plain (n : pystr) : Prop := n <> lit "" /\ n <> lit "." /\ n <> lit "..".

(** Normal forms: ["."], an absolute path of plain names, or a relative path
    made of a run of [".."] followed by plain names. *)
Inductive normal : list pystr -> Prop :=
| N_dot : normal [lit "."]
| N_abs : forall names, Forall plain names -> normal (lit "" :: names)
| N_rel : forall k names, Forall plain names -> (k + length names > 0)%nat ->
    normal (repeat (lit "..") k ++ names).
