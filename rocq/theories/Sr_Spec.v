(** * The "sr" filter: what is to hold *)
From Coq Require Import QArith.
From Verif Require Import PyBase ReadRect_Model Sr_Model.
Open Scope Z_scope.

(** Two cells are the same label. *)
Inductive same : xvalue -> xvalue -> Prop :=
| same_none : same VNone VNone
| same_text s : same (VText s) (VText s)
| same_date d : same (VDatetime d) (VDatetime d)
| same_time t : same (VTime t) (VTime t)
| same_num a b p q : counts a p -> counts b q -> (p == q)%Q -> same a b
with counts : xvalue -> Q -> Prop :=
| counts_int z : counts (VInt z) (inject_Z z)
| counts_float q : counts (VFloat q) q
| counts_true : counts (VBool true) 1
| counts_false : counts (VBool false) 0.

(** A table of two columns: its rows *)
Notation row := (xvalue * val)%type.
Definition table (t : list row) : val := Seq (map (fun r => Seq [Cell (fst r); snd r]) t).

(** The last row with a label *)
Definition last_with (t : list row) (k : xvalue) (v : val) : Prop :=
  exists t1 k' t2, t = t1 ++ (k', v) :: t2 /\ same k' k /\ forall r, In r t2 -> ~ same (fst r) k.
(** The first row with its label, among those up to it *)
Definition first_with (t : list row) (k : xvalue) : Prop :=
  exists t1 v t2, t = t1 ++ (k, v) :: t2 /\ forall r, In r t1 -> ~ same (fst r) k.

(** What stands for a row: a list of two, the first being a cell; or a text of two characters *)
Inductive paired : val -> Prop :=
| paired_list k v : paired (Seq [Cell k; v])
| paired_text a b : paired (Cell (VText [a; b])).

(** [l] is [m] with some elements left out. *)
Inductive sub {A} : list A -> list A -> Prop :=
| sub_nil : sub [] []
| sub_skip x l m : sub l m -> sub l (x :: m)
| sub_take x l m : sub l m -> sub (x :: l) (x :: m).
(** No two elements are related. *)
Inductive apart {A} (R : A -> A -> Prop) : list A -> Prop :=
| apart_nil : apart R []
| apart_cons x l : (forall y, In y l -> ~ R x y) -> apart R l -> apart R (x :: l).
