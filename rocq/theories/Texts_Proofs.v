(** Lemmas for C60-C63. *)
From Coq Require Import String.
From Verif Require Import PyBase PyBase_Proofs Regex Regex_Proofs Utils_Model Utils_Spec Utils_Proofs Units_Proofs.

(** ** Stripping *)

Lemma strip_padded : forall n s, trimmed n -> padded n s -> strip s = n.
Proof.
  intros n s Ht (a & b & -> & Ha & Hb). unfold strip.
  destruct Ht as [->|[(c & t & -> & Hc) (d & t' & E & Hd)]].
  - cbn [app]. replace (a ++ b) with ((a ++ b) ++ []) by apply app_nil_r.
    rewrite (proj2 (take_drop_app is_space (a ++ b) [] ltac:(intros x Hx; apply in_app_or in Hx; destruct Hx; auto) ltac:(discriminate))). reflexivity.
  - rewrite (proj2 (take_drop_app is_space a ((c :: t) ++ b) Ha ltac:(intros x y Hx; injection Hx as <- _; exact Hc))).
    rewrite rev_app_distr.
    rewrite (proj2 (take_drop_app is_space (rev b) (rev (c :: t)) ltac:(intros x Hx; apply in_rev in Hx; auto) ltac:(intros x y Hx; rewrite E, rev_app_distr in Hx; injection Hx as <- _; exact Hd))).
    apply rev_involutive.
Qed.
Lemma strip_spec : forall s, trimmed (strip s) /\ padded (strip s) s.
Proof.
  intros s. destruct (trim_exists s) as (a & n & b & -> & Ha & Hb & Hn).
  assert (padded n (a ++ n ++ b)) as Hp by (exists a, b; auto). rewrite (strip_padded n _ Hn Hp). auto.
Qed.
Lemma strip_blank : forall s, strip s = [] <-> all_space s.
Proof.
  intros s. split.
  - intros E. destruct (strip_spec s) as [_ (a & b & H & Ha & Hb)]. rewrite E in H. rewrite H. intros c Hc. apply in_app_or in Hc. destruct Hc as [Hc|Hc]; auto.
  - intros H. apply strip_padded; [left; reflexivity|]. exists s, []. repeat split; [rewrite app_nil_r; reflexivity|exact H|intros c []].
Qed.

Lemma str2bool_iff : forall s, str2bool s = false <-> exists w, trimmed w /\ padded w s /\ false_word w.
Proof.
  intros s. unfold str2bool.
  assert (forall l w, existsb (str_eqb w) l = true <-> In w l) as X.
  { intros l w. rewrite existsb_exists. split; [intros (x & Hx & E); apply str_eqb_eq in E; congruence|intros H; exists w; split; [exact H|apply str_eqb_refl]]. }
  split.
  - intros H. exists (strip s). destruct (strip_spec s) as [H1 H2]. split; [exact H1|]. split; [exact H2|]. unfold false_word.
    destruct (existsb (str_eqb (lower (strip s))) [lit "yes"; lit "true"; lit "on"]) eqn:E1; [discriminate H|].
    destruct (existsb (str_eqb (lower (strip s))) [lit "no"; lit "false"; lit "off"; lit "0"]) eqn:E2.
    + right. apply X. exact E2.
    + destruct (lower (strip s)); [left; reflexivity|discriminate H].
  - intros (w & H1 & H2 & H3). rewrite (strip_padded w s H1 H2). unfold false_word in H3.
    destruct H3 as [H3|[H3|[H3|[H3|[H3|[]]]]]]; rewrite <- H3; reflexivity.
Qed.

(** ** Snake-case *)

Definition lastb (p : bool) (s : pystr) : bool := fold_left (fun _ c => is_lower c || is_digit c) s p.
Lemma snake_app : forall a p b, snake_sub p (a ++ b) = snake_sub p a ++ snake_sub (lastb p a) b.
Proof.
  induction a as [|c a IH]; intros p b; [reflexivity|]. cbn [app snake_sub lastb fold_left]. rewrite IH. fold (lastb (is_lower c || is_digit c) a).
  destruct (p && is_upper c); reflexivity.
Qed.
Lemma lastb_snoc : forall a x p, lastb p (a ++ [x]) = is_lower x || is_digit x.
Proof. intros a x p. unfold lastb. rewrite fold_left_app. reflexivity. Qed.
Lemma low_not_upper : forall c, is_upper (low c) = false.
Proof.
  intros c. unfold low. destruct (is_upper c) eqn:E; [|exact E]. unfold is_upper in *. apply andb_true_iff in E. destruct E as [E1 E2].
  apply N.leb_le in E1, E2. apply andb_false_iff. right. apply N.leb_gt. lia.
Qed.
Lemma snake_no_upper : forall s p, (forall c, In c s -> is_upper c = false) -> snake_sub p s = s.
Proof.
  induction s as [|c s IH]; intros p H; [reflexivity|]. cbn [snake_sub]. rewrite (H c (or_introl eq_refl)), andb_false_r. f_equal.
  apply IH. intros d Hd. apply H. right. exact Hd.
Qed.
Lemma low_low : forall c, low (low c) = low c.
Proof. intros c. unfold low at 1. rewrite low_not_upper. reflexivity. Qed.
Lemma lower_lower : forall s, lower (lower s) = lower s.
Proof. intros s. unfold lower. rewrite map_map. apply map_ext. intros c. apply low_low. Qed.

(** ** Lines *)

Lemma drop_end_app : forall le m, drop_end le (m ++ le) = m.
Proof.
  intros le m. unfold drop_end. rewrite (proj2 (ends_with_spec le (m ++ le)) (ex_intro _ m eq_refl)).
  rewrite app_length, Nat.add_sub, firstn_app, Nat.sub_diag, firstn_all, firstn_O, app_nil_r. reflexivity.
Qed.
Lemma drop_end_no : forall le m, (forall a, m <> a ++ le) -> drop_end le m = m.
Proof.
  intros le m H. unfold drop_end. destruct (ends_with le m) eqn:E; [|reflexivity]. apply ends_with_spec in E. destruct E as (a & E). destruct (H a E).
Qed.
