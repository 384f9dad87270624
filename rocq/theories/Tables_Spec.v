(** * Merging tables: what is said of it (C110) *)
From Coq Require Import Permutation.
From Verif Require Import PyBase Json Tables_Model.

(** The table has value [v] in row [r] of column [c]. *)
Definition tells (t : table) (r : Z) (c : pystr) (v : Z) : Prop :=
  exists i col, nth_error (t_rows t) i = Some r /\ In (c, col) (t_cols t) /\ nth_error col i = Some (Some v).
Definition labelled (s : series) (c : pystr) (v : Z) : Prop := In (c, Some v) s.

(** Labels are distinct, and columns are as long as the rows. *)
Definition sound (t : table) : Prop :=
  NoDup (t_rows t) /\ NoDup (map fst (t_cols t)) /\ forall c col, In (c, col) (t_cols t) -> length col = length (t_rows t).

(** [v] is what the top-most of the things says that says anything; the
    top-most is the last. *)
Definition wins {A} (says : A -> Z -> Prop) (l : list A) (v : Z) : Prop :=
  exists lower t upper, l = lower ++ t :: upper /\ says t v /\ forall u w, In u upper -> ~ says u w.

(** The manager [m] is somewhere in the value. *)
Inductive holds : value -> nat -> Prop :=
| H_frame m : holds (VFrame m) m
| H_list l v m : In v l -> holds v m -> holds (VList l) m
| H_dict d k v m : In (k, v) d -> holds v m -> holds (VDict d) m.

(** The manager [m] is of a table in [a] where [b] has something, too. *)
Inductive met : value -> value -> nat -> Prop :=
| M_here m b : b <> VNull -> met (VFrame m) b m
| M_key da db k av bv m : In (k, av) da -> In (k, bv) db -> met av bv m -> met (VDict da) (VDict db) m.

(** The managers in the value exist. *)
Definition within (n : nat) (v : value) : Prop := forall m, holds v m -> (m < n)%nat.

(** The oracles of pandas *)
Definition orders (set_order : list pystr -> list pystr) : Prop := forall l, Permutation (set_order l) l.
Definition unites (union : list pystr -> list pystr -> list pystr) : Prop :=
  forall a b, NoDup a -> NoDup b -> NoDup (union a b) /\ forall x, In x (union a b) <-> In x a \/ In x b.

(** Keys of dictionaries are distinct. *)
Inductive proper : value -> Prop :=
| P_null : proper VNull
| P_bool b : proper (VBool b)
| P_num z : proper (VNum z)
| P_str s : proper (VStr s)
| P_series s : proper (VSeries s)
| P_frame m : proper (VFrame m)
| P_list l : (forall v, In v l -> proper v) -> proper (VList l)
| P_dict d : NoDup (map fst d) -> (forall k v, In (k, v) d -> proper v) -> proper (VDict d).

(** JSON trees are values. *)
Fixpoint plain (j : json) : value :=
  match j with
  | JNull => VNull
  | JBool b => VBool b
  | JNum z => VNum z
  | JStr s => VStr s
  | JList l => VList (map plain l)
  | JDict d => VDict (map (fun kv => (fst kv, plain (snd kv))) d)
  end.
Definition plainly (r : res json) : res value := match r with Ok j => Ok (plain j) | Raise e => Raise e end.
