(** * The "sr" filter: the theorems *)
From Coq Require Import String QArith.
From Verif Require Import PyBase PyBase_Proofs ReadRect_Model Sr_Model Sr_Spec Sr_Proofs.
Open Scope Z_scope.

(** Every table of two columns becomes a series: its labels are the first cells, each the first of
    its kind, in order, and no two are the same. *)
Theorem C112_labels : forall t, exists d, sr_filter (table t) = Ok d /\
  sub (map fst d) (map fst t) /\ apart same (map fst d) /\ forall k, In k (map fst d) <-> first_with t k.
Proof.
  intros t. exists (puts [] t). refine (conj (fill_table t []) (conj (puts_sub t) (conj (puts_apart t) (puts_first t)))).
Qed.

(** The value of a label is that of the last row with it; error-cells are each a label of its own. *)
Theorem C112_values : forall t d, sr_filter (table t) = Ok d ->
  (forall k v, (exists k', In (k', v) d /\ same k' k) <-> last_with t k v) /\
  (forall v, In (VNan, v) d <-> In (VNan, v) t).
Proof.
  intros t d H. pose proof (eq_trans (eq_sym H) (fill_table t [])) as E. injection E as ->.
  exact (conj (puts_last t) (puts_nan t)).
Qed.

(** Without repeated labels it is the table, row by row. *)
Theorem C112_whole : forall t, apart same (map fst t) -> sr_filter (table t) = Ok t.
Proof. intros t H. rewrite <- (puts_all t H) at 2. exact (fill_table t []). Qed.

(** Lists are accepted just when all their elements are lists of two, the first of which is a cell,
    or texts of two characters; nothing else than a TypeError or a ValueError is raised. *)
Theorem C112_accepted : forall l,
  ((exists d, sr_filter (Seq l) = Ok d) <-> Forall paired l) /\
  (forall e, sr_filter (Seq l) = Raise e -> e = TypeError \/ e = ValueError).
Proof. intros l. exact (conj (fill_paired l []) (fill_raises l [])). Qed.

(** Single cells are not, but for the empty text. *)
Theorem C112_cells : forall x d, sr_filter (Cell x) = Ok d <-> x = VText [] /\ d = [].
Proof.
  intros x d. split.
  - destruct x as [|z|q|s|b| |dt|t]; try discriminate. destruct s as [|a s]; [|discriminate]. intros H. injection H as <-. auto.
  - intros (-> & ->). reflexivity.
Qed.

Example C112_example :
  sr_filter (table [(VText (lit "a"), Cell (VInt 1)); (VText (lit "b"), Cell (VInt 2)); (VInt 3, Cell VNone)]) =
    Ok [(VText (lit "a"), Cell (VInt 1)); (VText (lit "b"), Cell (VInt 2)); (VInt 3, Cell VNone)] /\
  apart same [VText (lit "a"); VInt 3] /\
  sr_filter (table [(VNan, Cell (VInt 1)); (VNan, Cell (VInt 2))]) = Ok [(VNan, Cell (VInt 1)); (VNan, Cell (VInt 2))] /\
  last_with [(VInt 1, Cell VNone); (VBool true, Cell VNan)] (VInt 1) (Cell VNan) /\
  sr_filter (Seq [Seq [Cell (VInt 1)]]) = Raise ValueError /\ sr_filter (Seq [Cell (VInt 1)]) = Raise TypeError /\
  sr_filter (Seq [Seq [Seq []; Cell VNone]]) = Raise TypeError.
Proof.
  refine (conj eq_refl (conj _ (conj eq_refl (conj _ (conj eq_refl (conj eq_refl eq_refl)))))).
  - constructor; [|constructor; [intros ? []|constructor]]. intros y [<-|[]] X. apply key_eqb_same in X. discriminate.
  - exists [(VInt 1, Cell VNone)], (VBool true), []. split; [reflexivity|]. split; [|intros ? []]. apply key_eqb_same. reflexivity.
Qed.

(** Rows are lost, without notice, when labels repeat: so are those with empty first cells but one. *)
Theorem C112_lost_refuted : exists t d, sr_filter (table t) = Ok d /\ (length d < length t)%nat /\
  exists r, In r t /\ ~ In r d /\ fst r = VNone.
Proof.
  exists [(VNone, Cell (VInt 1)); (VNone, Cell (VInt 2))], [(VNone, Cell (VInt 2))].
  refine (conj eq_refl (conj (le_n 2) (ex_intro _ (VNone, Cell (VInt 1)) (conj (or_introl eq_refl) (conj _ eq_refl))))).
  intros [X|[]]. discriminate.
Qed.

(** Labels of different kinds may be the same: the label is the first, the value the last. *)
Theorem C112_kinds_refuted : exists a b c, a <> b /\ b <> c /\ a <> c /\
  sr_filter (table [(a, Cell (VText (lit "x"))); (b, Cell (VText (lit "y"))); (c, Cell (VText (lit "z")))]) = Ok [(a, Cell (VText (lit "z")))].
Proof. exists (VBool true), (VInt 1), (VFloat 1). repeat split; try discriminate. Qed.

(** One row made one-dimensional by the redim-filter (C31) is refused or, with texts of two
    characters, taken for as many rows. *)
Theorem C112_single_refuted :
  sr_filter (Seq [Cell (VText (lit "key")); Cell (VText (lit "value"))]) = Raise ValueError /\
  sr_filter (Seq [Cell (VText (lit "ab")); Cell (VText (lit "cd"))]) =
    Ok [(VText (lit "a"), Cell (VText (lit "b"))); (VText (lit "c"), Cell (VText (lit "d")))].
Proof. split; reflexivity. Qed.

Print Assumptions C112_labels.
Print Assumptions C112_values.
Print Assumptions C112_whole.
Print Assumptions C112_accepted.
Print Assumptions C112_cells.
Print Assumptions C112_lost_refuted.
Print Assumptions C112_kinds_refuted.
Print Assumptions C112_single_refuted.
