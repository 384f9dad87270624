(** * Vocabulary for property C31 *)
From Verif Require Import PyBase Json.

Definition a_list (j : json) : Prop := exists l, j = JList l.

(** Nested lists of the same lengths. *)
Inductive rectangular : json -> list nat -> Prop :=
| Rc_cell : forall j, ~ a_list j -> rectangular j []
| Rc_none : rectangular (JList []) [0%nat]
| Rc_rows : forall l s, l <> [] -> (forall x, In x l -> rectangular x s) -> rectangular (JList l) (length l :: s).

(** The cells in reading order. *)
Inductive reads : json -> list json -> Prop :=
| Rd_cell : forall j, ~ a_list j -> reads j [j]
| Rd_none : reads (JList []) []
| Rd_cons : forall x l cs cs', reads x cs -> reads (JList l) cs' -> reads (JList (x :: l)) (cs ++ cs').

(** The cell found by following indices. *)
Inductive found : json -> list nat -> json -> Prop :=
| Fd_here : forall j, ~ a_list j -> found j [] j
| Fd_item : forall l i idx x c, nth_error l i = Some x -> found x idx c -> found (JList l) (i :: idx) c.

(** Cells of one kind, or with an empty cell or dict among them. *)
Definition uniform (cs : list json) : Prop :=
  In JNull cs \/ (exists d, In (JDict d) cs)
  \/ (forall c, In c cs -> exists s, c = JStr s) \/ (forall c, In c cs -> exists z, c = JNum z) \/ (forall c, In c cs -> exists b, c = JBool b).

(** Equal in Python, where True is 1. *)
Definition py_equal (a b : json) : Prop :=
  a = b \/ (a = JBool true /\ b = JNum 1) \/ (a = JBool false /\ b = JNum 0).

(** Leaving out some axes of length 1. *)
Inductive without_ones : list nat -> list nat -> Prop :=
| Wo_nil : without_ones [] []
| Wo_keep : forall d s s', without_ones s s' -> without_ones (d :: s) (d :: s')
| Wo_drop : forall s s', without_ones s s' -> without_ones (1%nat :: s) s'.

Fixpoint ones (s : list nat) : nat :=
  match s with [] => 0 | d :: s' => (if Nat.eqb d 1 then 1 else 0) + ones s' end.
