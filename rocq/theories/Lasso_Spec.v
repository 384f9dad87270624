(** * Vocabulary for properties C32, C33, C37, C49-C51, C64-C66 *)
From Verif Require Import PyBase Json Lasso_Model.

(** ** Places in nested values *)

Inductive step := Key (k : pystr) | Idx (i : nat).
Inductive at_path : json -> list step -> json -> Prop :=
| At_here : forall v, at_path v [] v
| At_key : forall d k x p y, In (k, x) d -> at_path x p y -> at_path (JDict d) (Key k :: p) y
| At_idx : forall l i x p y, nth_error l i = Some x -> at_path x p y -> at_path (JList l) (Idx i :: p) y.

(** Dicts have every key once. *)
Inductive proper : json -> Prop :=
| Pr_cell : forall v, (forall d, v <> JDict d) -> (forall l, v <> JList l) -> proper v
| Pr_dict : forall d, NoDup (map fst d) -> (forall k x, In (k, x) d -> proper x) -> proper (JDict d)
| Pr_list : forall l, (forall x, In x l -> proper x) -> proper (JList l).

Definition is_a_dict (v : json) : Prop := exists d, v = JDict d.
Definition is_a_list (v : json) : Prop := exists l, v = JList l.

(** Same keys, or same length. *)
Definition same_form (v r : json) : Prop :=
  (exists d e, v = JDict d /\ r = JDict e /\ map fst d = map fst e) \/ (exists l m, v = JList l /\ r = JList m /\ length l = length m).

(** Keys selected by the include and exclude arguments. *)
Definition selected (include exclude : option (list pystr)) (k : pystr) : Prop :=
  (forall l, include = Some l -> l <> [] -> In k l) /\ (forall l, exclude = Some l -> ~ In k l).

(** The places visited by a function that processes some values (so these are
    not dived in) and leaves others: those less deep than [depth], through lists
    it left alone and through selected keys of dicts. *)
Inductive visited (include exclude : option (list pystr)) (depth : option Z) (left_alone : json -> Prop)
  : Z -> json -> list step -> Prop :=
| Vs_here : forall n v, depth <> Some n -> visited include exclude depth left_alone n v []
| Vs_key : forall n d k x p, depth <> Some n -> In (k, x) d -> selected include exclude k ->
    visited include exclude depth left_alone (n + 1) x p -> visited include exclude depth left_alone n (JDict d) (Key k :: p)
| Vs_idx : forall n l i x p, depth <> Some n -> left_alone (JList l) -> nth_error l i = Some x ->
    visited include exclude depth left_alone (n + 1) x p -> visited include exclude depth left_alone n (JList l) (Idx i :: p).

(** ** Running steps one after the other: every step finds the state and value
       left by the one before. *)
Section Steps.
  Context {F S V E : Type}.
  (** [does f s v s' r]: from state [s] and value [v], step [f] ends in [s'] with [r]. *)
  Variable does : F -> S -> V -> S -> V + E -> Prop.
  Inductive all_done : list F -> S -> V -> S -> V -> Prop :=
  | Ad_nil : forall s v, all_done [] s v s v
  | Ad_cons : forall f fs s v s1 v1 s2 v2, does f s v s1 (inl v1) -> all_done fs s1 v1 s2 v2 -> all_done (f :: fs) s v s2 v2.
End Steps.

(** ** Whether errors are tolerated: the argument of the call if there, else the option. *)
Definition setting (name : pystr) (d : list (pystr * json)) (v : json) : Prop := sget name d = Some v.
Definition unset (name : pystr) (d : list (pystr * json)) : Prop := forall v, ~ setting name d v.
Definition yes (v : json) : Prop := v <> JNull /\ v <> JBool false /\ v <> JNum 0 /\ v <> JStr [] /\ v <> JList [] /\ v <> JDict [].
Definition on (name : pystr) (d : list (pystr * json)) : Prop := exists v, setting name d v /\ yes v.
Definition tolerated (lax : pystr) (opts kwds : list (pystr * json)) : Prop := on lax kwds \/ (unset lax kwds /\ on lax opts).

(** ** Items of a list with their positions *)
Definition numbered {A} (l : list A) : list (Z * A) := combine (map Z.of_nat (seq 0 (length l))) l.

(** Texts anywhere in a value *)
Definition text_in (v : json) (t : pystr) : Prop := exists p, at_path v p (JStr t).

(** Lassos with the same fields, but for the values and the corners and sheet *)
Definition same_request {SH} (l r : lasso SH) : Prop :=
  l_ref r = l_ref l /\ l_url r = l_url l /\ l_sheet_name r = l_sheet_name l /\ l_st_edge r = l_st_edge l /\ l_nd_edge r = l_nd_edge l
  /\ l_exp r = l_exp l /\ l_call r = l_call l /\ l_base r = l_base l /\ l_opts r = l_opts l.
(** [r] is [l] with the values [v]. *)
Definition given_values {SH} (v : json) (l r : lasso SH) : Prop :=
  l_values r = v /\ same_request l r /\ l_sheet r = l_sheet l /\ l_st r = l_st l /\ l_nd r = l_nd l.
