(** Lemmas for C19-C21: margins and targeting. *)
From Coq Require Import String.
From Verif Require Import PyBase PyBase_Proofs Coords_Model Coords_Spec Capture_Model Capture_Spec.
Open Scope Z_scope.

(** ** Vectors of states *)

Lemma nth_error_seq : forall n a i, nth_error (seq a n) i = if (i <? n)%nat then Some (a + i)%nat else None.
Proof.
  induction n as [|n IH]; intros a i; [destruct i; reflexivity|].
  destruct i as [|i]; [cbn; f_equal; lia|]. cbn [seq nth_error]. rewrite IH.
  change (S i <? S n)%nat with (i <? n)%nat. destruct (i <? n)%nat; [f_equal; lia|reflexivity].
Qed.

Lemma nth_error_map' : forall A B (f : A -> B) l i, nth_error (map f l) i = option_map f (nth_error l i).
Proof. induction l as [|a l IH]; intros [|i]; cbn; auto. Qed.

Lemma nth_rev_seq : forall A (f : nat -> A) n i,
  nth_error (rev (map f (seq 0 (S n)))) i = if (i <=? n)%nat then Some (f (n - i)%nat) else None.
Proof.
  induction n as [|n IH]; intro i.
  - destruct i as [|[|i]]; reflexivity.
  - rewrite seq_S, map_app, rev_app_distr. cbn [map rev app]. destruct i as [|i].
    + reflexivity.
    + cbn [nth_error]. rewrite IH. change (S i <=? S n)%nat with (i <=? n)%nat.
      destruct (i <=? n)%nat; reflexivity.
Qed.

(** The vector shows the states of the cells along a direction. *)
Definition shows (m : mat) (d : dir) (p : coords) (v : list bool) : Prop :=
  forall i, nth_error v i = Some true <-> full m (moved d i p).

Lemma np_index_pos : forall n z, 0 <= z ->
  np_index n z = if z <? Z.of_nat n then Some (Z.to_nat z) else None.
Proof. intros n z H. unfold np_index. destruct (Z.leb_spec 0 z); [reflexivity|lia]. Qed.

Lemma slice_pos_pos : forall n z, 0 <= z -> slice_pos n z = Nat.min (Z.to_nat z) n.
Proof. intros n z H. unfold slice_pos. destruct (Z.ltb_spec z 0); [lia|reflexivity]. Qed.

Lemma slice_pos_le : forall n z, (slice_pos n z <= n)%nat \/ z < 0.
Proof. intros n z. unfold slice_pos. destruct (Z.ltb_spec z 0); [right; lia|left; lia]. Qed.

Lemma extract_shows : forall m p d, 0 <= fst p -> 0 <= snd p ->
  (d = dL -> snd p < Z.of_nat (cols m)) -> (d = dU -> fst p < Z.of_nat (rows m)) ->
  match extract_states_vector m p d with
  | Ok v => shows m d p v
  | Raise e => e = IndexError /\ forall i, ~ full m (moved d i p)
  end.
Proof.
  intros m [r c] d Hr Hc HL HU. cbn [fst snd] in *. unfold extract_states_vector.
  destruct d; rewrite np_index_pos by assumption.
  - (* L *)
    specialize (HL eq_refl). destruct (Z.ltb_spec r (Z.of_nat (rows m))).
    + unfold slice. rewrite slice_pos_pos by lia. rewrite Nat.min_l by lia.
      replace (Z.to_nat (c + 1) - 0)%nat with (S (Z.to_nat c)) by lia.
      intro i. rewrite nth_rev_seq. unfold full. cbn [moved fst snd].
      destruct (Nat.leb_spec i (Z.to_nat c)).
      * replace (Z.to_nat (c - Z.of_nat i)) with (Z.to_nat c - i)%nat by lia.
        split; [intro E; injection E as E; repeat split; try lia; exact E|intros (_ & _ & E); rewrite E; reflexivity].
      * split; [discriminate|lia].
    + split; [reflexivity|]. intros i (H1 & _). cbn [moved fst snd] in H1. lia.
  - (* U *)
    specialize (HU eq_refl). destruct (Z.ltb_spec c (Z.of_nat (cols m))).
    + unfold slice. rewrite slice_pos_pos by lia. rewrite Nat.min_l by lia.
      replace (Z.to_nat (r + 1) - 0)%nat with (S (Z.to_nat r)) by lia.
      intro i. rewrite (nth_rev_seq _ (fun i => at_ m i (Z.to_nat c))). unfold full. cbn [moved fst snd].
      destruct (Nat.leb_spec i (Z.to_nat r)).
      * replace (Z.to_nat (r - Z.of_nat i)) with (Z.to_nat r - i)%nat by lia.
        split; [intro E; injection E as E; repeat split; try lia; exact E|intros (_ & _ & E); rewrite E; reflexivity].
      * split; [discriminate|lia].
    + split; [reflexivity|]. intros i (_ & H1 & _). cbn [moved fst snd] in H1. lia.
  - (* R *)
    destruct (Z.ltb_spec r (Z.of_nat (rows m))).
    + unfold slice. rewrite slice_pos_pos by lia.
      intro i. rewrite nth_error_map', nth_error_seq. unfold full. cbn [moved fst snd].
      destruct (Nat.ltb_spec i (cols m - Nat.min (Z.to_nat c) (cols m))); cbn [option_map].
      * replace (Z.to_nat (c + Z.of_nat i)) with (Nat.min (Z.to_nat c) (cols m) + i)%nat by lia.
        split; [intro E; injection E as E; repeat split; try lia; exact E|intros (_ & _ & E); rewrite E; reflexivity].
      * split; [discriminate|lia].
    + split; [reflexivity|]. intros i (H1 & _). cbn [moved fst snd] in H1. lia.
  - (* D *)
    destruct (Z.ltb_spec c (Z.of_nat (cols m))).
    + unfold slice. rewrite slice_pos_pos by lia.
      intro i. rewrite nth_error_map', nth_error_seq. unfold full. cbn [moved fst snd].
      destruct (Nat.ltb_spec i (rows m - Nat.min (Z.to_nat r) (rows m))); cbn [option_map].
      * replace (Z.to_nat (r + Z.of_nat i)) with (Nat.min (Z.to_nat r) (rows m) + i)%nat by lia.
        split; [intro E; injection E as E; repeat split; try lia; exact E|intros (_ & _ & E); rewrite E; reflexivity].
      * split; [discriminate|lia].
    + split; [reflexivity|]. intros i (_ & H1 & _). cbn [moved fst snd] in H1. lia.
Qed.

Lemma np_index_bound : forall n z i, np_index n z = Some i -> (i < n)%nat.
Proof.
  intros n z i H. unfold np_index in H. destruct (Z.leb_spec 0 z).
  - destruct (Z.ltb_spec z (Z.of_nat n)); inversion H; subst. lia.
  - destruct (Z.leb_spec (- Z.of_nat n) z); inversion H; subst. lia.
Qed.

Lemma slice_bound : forall n a b i, In i (slice n a b) -> (i < n)%nat.
Proof.
  intros n a b i H. unfold slice in H. apply in_seq in H. destruct H as [H1 H2].
  set (lo := match a with Some z => slice_pos n z | None => 0%nat end) in *.
  destruct b as [z|]; [|lia]. unfold slice_pos in H2. destruct (Z.ltb_spec z 0); lia.
Qed.

(** A full state in a vector is a full cell of the sheet. *)
Lemma at_full : forall m i j, (i < rows m)%nat -> (j < cols m)%nat -> at_ m i j = true ->
  full m (Z.of_nat i, Z.of_nat j).
Proof. intros m i j H1 H2 H. repeat split; cbn [fst snd]; try lia. rewrite !Nat2Z.id. exact H. Qed.

Lemma extract_true : forall m p d v, extract_states_vector m p d = Ok v -> In true v -> exists q, full m q.
Proof.
  intros m [r c] d v H Hin. unfold extract_states_vector in H.
  destruct d;
    match goal with H : match ?x with _ => _ end = _ |- _ => destruct x as [i|] eqn:E; [|discriminate] end;
    apply np_index_bound in E; injection H as <-; try rewrite <- in_rev in Hin;
    apply in_map_iff in Hin; destruct Hin as (j & Hj & Hin); apply slice_bound in Hin.
  - exists (Z.of_nat i, Z.of_nat j). apply at_full; assumption.
  - exists (Z.of_nat j, Z.of_nat i). apply at_full; assumption.
  - exists (Z.of_nat i, Z.of_nat j). apply at_full; assumption.
  - exists (Z.of_nat j, Z.of_nat i). apply at_full; assumption.
Qed.

Lemma extract_raise : forall m p d e, extract_states_vector m p d = Raise e -> e = IndexError.
Proof.
  intros m [r c] d e H. unfold extract_states_vector in H.
  destruct d; match goal with H : match ?x with _ => _ end = _ |- _ => destruct x end; congruence.
Qed.

Lemma first_true_None : forall v, first_true v = None <-> ~ In true v.
Proof.
  induction v as [|b v IH]; [split; [intros _ []|reflexivity]|]. cbn. destruct b.
  - split; [discriminate|]. intro H. exfalso. apply H. left. reflexivity.
  - destruct (first_true v); cbn.
    + split; [discriminate|]. intro H. exfalso. assert (~ In true v) by tauto. apply IH in H0. discriminate.
    + split; [|reflexivity]. intros _ [H|H]; [discriminate|]. apply IH in H; [exact H|reflexivity].
Qed.

Lemma first_true_Some : forall v n, first_true v = Some n <->
  nth_error v n = Some true /\ forall i, (i < n)%nat -> nth_error v i <> Some true.
Proof.
  induction v as [|b v IH]; intro n; cbn.
  - split; [discriminate|]. intros [H _]. destruct n; discriminate.
  - destruct b.
    + split.
      * intro H. inversion H; subst. split; [reflexivity|]. intros i Hi. lia.
      * intros [_ H]. destruct n as [|n]; [reflexivity|]. exfalso. apply (H O); [lia|reflexivity].
    + destruct n as [|n].
      * split; [destruct (first_true v); discriminate|]. intros [H _]. discriminate.
      * split.
        -- intro H. destruct (first_true v) as [k|] eqn:E; inversion H; subst.
           destruct (proj1 (IH n) eq_refl) as [H1 H2]. split; [exact H1|].
           intros [|i] Hi; [discriminate|]. apply H2. lia.
        -- intros [H1 H2]. rewrite (proj2 (IH n)); [reflexivity|]. split; [exact H1|].
           intros i Hi. apply (H2 (S i)). lia.
Qed.

Lemma shows_first : forall m d p v n, shows m d p v ->
  (first_true v = Some n <-> full m (moved d n p) /\ forall i, (i < n)%nat -> ~ full m (moved d i p)).
Proof.
  intros m d p v n H. rewrite first_true_Some. split; intros [H1 H2]; (split; [apply H; exact H1|]);
    intros i Hi F; apply (H2 i Hi), H; exact F.
Qed.

Lemma shows_none : forall m d p v, shows m d p v ->
  (first_true v = None <-> forall i, ~ full m (moved d i p)).
Proof.
  intros m d p v H. rewrite first_true_None. split.
  - intros Hn i Hf. apply H in Hf. apply Hn. eapply nth_error_In. exact Hf.
  - intros Hn Hin. apply In_nth_error in Hin. destruct Hin as (i & Hi). apply H in Hi. exact (Hn i Hi).
Qed.

(** ** Moving around *)

Lemma moved_0 : forall d p, moved d 0 p = p.
Proof. intros d [r c]. destruct d; cbn [moved fst snd]; f_equal; lia. Qed.

Lemma moved_moved : forall d i j p, moved d i (moved d j p) = moved d (i + j) p.
Proof. intros d i j [r c]. destruct d; cbn [moved fst snd]; f_equal; lia. Qed.

Lemma moved_comm : forall a b i j p, moved a i (moved b j p) = moved b j (moved a i p).
Proof. intros a b i j [r c]. destruct a, b; cbn [moved fst snd]; f_equal; lia. Qed.

Lemma shift_moved : forall d p n, shift d p (Z.of_nat n) = moved d n p.
Proof. intros d [r c] n. destruct d; reflexivity. Qed.

Lemma vector_moved : forall d p,
  (fst p + fst (dir_vector d), snd p + snd (dir_vector d)) = moved d 1 p.
Proof. intros d [r c]. destruct d; cbn [moved fst snd dir_vector]; f_equal; lia. Qed.

(** First full cell by two moves, as a recursion on lines. *)
Lemma first_line : forall m a b p n, full m (moved a n p) ->
  (forall i, (i < n)%nat -> ~ full m (moved a i p)) -> first_full m [a; b] p (moved a n p).
Proof.
  intros m a b p n Hf Hn. exists O, n. cbn [swept]. rewrite moved_0. repeat split; try apply Hf.
  intros j i t [H|[-> H]] E; [lia|]. inversion E; subst. rewrite moved_0. apply Hn. exact H.
Qed.

Lemma first_next_line : forall m a b p t, (forall i, ~ full m (moved a i p)) ->
  (first_full m [a; b] (moved b 1 p) t <-> first_full m [a; b] p t).
Proof.
  intros m a b p t He. split.
  - intros (j & i & E & Hf & Hn). cbn [swept] in E. rewrite moved_moved, Nat.add_1_r in E.
    exists (S j), i. split; [exact E|]. split; [exact Hf|].
    intros [|j'] i' t' H E'; cbn [swept] in E'.
    + inversion E'; subst. rewrite moved_0. apply He.
    + apply (Hn j' i' t'); [lia|]. cbn [swept]. rewrite moved_moved, Nat.add_1_r. exact E'.
  - intros ([|j] & i & E & Hf & Hn); cbn [swept] in E.
    + exfalso. inversion E; subst. rewrite moved_0 in Hf. exact (He i Hf).
    + exists j, i. cbn [swept]. rewrite moved_moved, Nat.add_1_r. split; [exact E|]. split; [exact Hf|].
      intros j' i' t' H E'. apply (Hn (S j') i' t'); [lia|]. cbn [swept].
      rewrite moved_moved, Nat.add_1_r in E'. exact E'.
Qed.

Lemma none_next_line : forall m a b p, (forall i, ~ full m (moved a i p)) ->
  none_full m [a; b] (moved b 1 p) -> none_full m [a; b] p.
Proof.
  intros m a b p He Hn [|j] i t E; cbn [swept] in E; inversion E; subst.
  - rewrite moved_0. apply He.
  - apply (Hn j i). cbn [swept]. rewrite moved_moved, Nat.add_1_r. reflexivity.
Qed.

(** Skipping empty cells: along the 1st move on all lines, or whole lines. *)
Lemma first_full_skip_lines : forall m a b p t k, (forall j i, (j < k)%nat -> ~ full m (moved a i (moved b j p))) ->
  (first_full m [a; b] (moved b k p) t <-> first_full m [a; b] p t).
Proof.
  intros m a b p t k. revert p. induction k as [|k IH]; intros p He; [rewrite moved_0; reflexivity|].
  rewrite <- (first_next_line m a b p t).
  - rewrite <- (IH (moved b 1 p)).
    + rewrite moved_moved. replace (k + 1)%nat with (S k) by lia. reflexivity.
    + intros j i Hj. rewrite moved_moved. apply He. lia.
  - intro i. specialize (He O i ltac:(lia)). rewrite moved_0 in He. exact He.
Qed.

Lemma first_full_skip_cells : forall m moves a p t k, hd_error moves = Some a -> good_moves moves ->
  (forall j i q, (i < k)%nat -> swept moves p j i = Some q -> ~ full m q) ->
  (first_full m moves (moved a k p) t <-> first_full m moves p t).
Proof.
  intros m moves a p t k Ha Hg He.
  assert (Hs : forall j i, swept moves (moved a k p) j i = swept moves p j (i + k)%nat).
  { intros j i. inversion Hg; subst; cbn in Ha; inversion Ha; subst; cbn [swept].
    - destruct j; [|reflexivity]. rewrite moved_moved. reflexivity.
    - rewrite (moved_comm b a j k p), moved_moved. reflexivity. }
  split.
  - intros (j & i & E & Hf & Hn). rewrite Hs in E. exists j, (i + k)%nat. repeat split; try apply Hf; [exact E|].
    intros j' i' t' H E'. destruct (Nat.lt_ge_cases i' k) as [Hk|Hk]; [exact (He j' i' t' Hk E')|].
    apply (Hn j' (i' - k)%nat t'); [lia|]. rewrite Hs. rewrite <- E'. f_equal. lia.
  - intros (j & i & E & Hf & Hn). destruct (Nat.lt_ge_cases i k) as [Hk|Hk].
    { exfalso. exact (He j i t Hk E Hf). }
    exists j, (i - k)%nat. rewrite Hs. replace (i - k + k)%nat with i by lia. repeat split; try apply Hf; [exact E|].
    intros j' i' t' H E'. rewrite Hs in E'. apply (Hn j' (i' + k)%nat t'); [lia|exact E'].
Qed.

Lemma full_dec : forall m p, {full m p} + {~ full m p}.
Proof.
  intros m [r c]. unfold full. cbn [fst snd].
  destruct (Z_le_dec 0 r); [|right; lia]. destruct (Z_lt_dec r (Z.of_nat (rows m))); [|right; lia].
  destruct (Z_le_dec 0 c); [|right; lia]. destruct (Z_lt_dec c (Z.of_nat (cols m))); [|right; lia].
  destruct (at_ m (Z.to_nat r) (Z.to_nat c)); [left; auto|right; intuition discriminate].
Qed.

(** ** The loop *)

Definition opposite_ok (m : mat) (moves : list dir) (p : coords) (x : res coords) : Prop :=
  (exists t, x = Ok t /\ first_full m moves p t) \/ (x = Raise EmptyCapture /\ none_full m moves p).

(** What the vector tells, or the sheet is empty. *)
Definition in_reach (m : mat) (d : dir) (p : coords) : Prop :=
  ((d = dL -> snd p < Z.of_nat (cols m)) /\ (d = dU -> fst p < Z.of_nat (rows m)))
  \/ forall q, ~ full m q.

Lemma line_outcome : forall m p d, 0 <= fst p -> 0 <= snd p -> in_reach m d p ->
  match extract_states_vector m p d with
  | Ok v => match first_true v with
            | Some n => full m (moved d n p) /\ forall i, (i < n)%nat -> ~ full m (moved d i p)
            | None => forall i, ~ full m (moved d i p)
            end
  | Raise e => forall i, ~ full m (moved d i p)
  end.
Proof.
  intros m p d Hr Hc [[HL HU]|Hno].
  - pose proof (extract_shows m p d Hr Hc HL HU) as H. destruct (extract_states_vector m p d) as [v|e]; [|tauto].
    destruct (first_true v) as [n|] eqn:E.
    + apply (shows_first m d p v n H). exact E.
    + apply (shows_none m d p v H). exact E.
  - destruct (extract_states_vector m p d) as [v|e] eqn:Ev; [|intro i; apply Hno].
    destruct (first_true v) as [n|] eqn:E; [|intro i; apply Hno].
    exfalso. apply first_true_Some in E. destruct E as [E _]. apply nth_error_In in E.
    destruct (extract_true _ _ _ _ Ev E) as (q & Hq). exact (Hno q Hq).
Qed.

Lemma loop_one : forall m p a f, 0 <= fst p -> 0 <= snd p -> in_reach m a p ->
  opposite_ok m [a] p (opposite_loop (S f) m p a None).
Proof.
  intros m p a f Hr Hc Hi. cbn [opposite_loop].
  destruct (Z.leb_spec 0 (fst p)); [|lia]. destruct (Z.leb_spec 0 (snd p)); [|lia]. cbn [andb].
  pose proof (line_outcome m p a Hr Hc Hi) as H1.
  assert (Hnone : (forall i, ~ full m (moved a i p)) -> none_full m [a] p).
  { intros Hn [|j] i t E; cbn in E; inversion E; subst. apply Hn. }
  destruct (extract_states_vector m p a) as [v|e]; [|right; auto].
  destruct (first_true v) as [n|]; [|right; auto].
  left. exists (moved a n p). rewrite shift_moved. split; [reflexivity|].
  exists O, n. cbn [swept]. destruct H1 as [H1 H2]. repeat split; try apply H1.
  intros j i t [Hj|[-> Hj]] E; [lia|]. cbn in E. inversion E; subst. apply H2. exact Hj.
Qed.

(** How many lines are left along the 2nd move. *)
Definition lines_left (m : mat) (d : dir) (p : coords) : nat :=
  match d with
  | dL => Z.to_nat (snd p + 1)
  | dU => Z.to_nat (fst p + 1)
  | dR => Z.to_nat (Z.of_nat (cols m) - snd p)
  | dD => Z.to_nat (Z.of_nat (rows m) - fst p)
  end.

Lemma lines_left_moved : forall m d p, lines_left m d (moved d 1 p) = (lines_left m d p - 1)%nat.
Proof. intros m d [r c]. destruct d; cbn [moved lines_left fst snd]; lia. Qed.

Definition is_horizontal (d : dir) : bool := match d with dL | dR => true | _ => false end.

Lemma perpendicular_cases : forall a b, perpendicular a b <-> is_horizontal a = negb (is_horizontal b).
Proof.
  intros a b. unfold perpendicular, vertical.
  destruct a, b; cbn; split; intro H; try discriminate; try reflexivity; intuition discriminate.
Qed.

Lemma no_lines_left : forall m a b p j i, perpendicular a b -> 0 <= fst p -> 0 <= snd p ->
  lines_left m b p = O -> ~ full m (moved a i (moved b j p)).
Proof.
  intros m a b [r c] j i Hp Hr Hc Hl (H1 & H2 & _). apply perpendicular_cases in Hp.
  destruct a, b; cbn in Hp; try discriminate; cbn [moved lines_left fst snd] in *; lia.
Qed.

Lemma in_reach_moved : forall m a b p, a = b \/ perpendicular a b -> in_reach m a p -> in_reach m a (moved b 1 p).
Proof.
  intros m a b [r c] Hp [[H1 H2]|H]; [left|right; exact H].
  rewrite perpendicular_cases in Hp. cbn [fst snd] in *.
  split; intros ->; destruct b; cbn in Hp; try (destruct Hp; discriminate); cbn [moved fst snd];
    try specialize (H1 eq_refl); try specialize (H2 eq_refl); lia.
Qed.

Lemma beyond_none : forall m a b p, perpendicular a b ->
  (b = dU /\ fst p < 0) \/ (b = dL /\ snd p < 0) -> none_full m [a; b] p.
Proof.
  intros m a b [r c] Hp Hb j i t E. cbn in E. injection E as <-. intros (H1 & H2 & _).
  apply perpendicular_cases in Hp.
  destruct Hb as [[-> Hb]|[-> Hb]]; destruct a; cbn in Hp; try discriminate; cbn [moved fst snd] in *; lia.
Qed.

Lemma extract_ok_left : forall m a b p v, perpendicular a b -> 0 <= fst p -> 0 <= snd p ->
  extract_states_vector m p a = Ok v -> (0 < lines_left m b p)%nat.
Proof.
  intros m a b [r c] v Hp Hr Hc H. cbn [fst snd] in *. apply perpendicular_cases in Hp.
  unfold extract_states_vector in H.
  destruct a, b; cbn in Hp; try discriminate; rewrite np_index_pos in H by assumption; cbn [lines_left fst snd];
    match type of H with context [?x <? ?y] => destruct (Z.ltb_spec x y); [lia|discriminate] end.
Qed.

Lemma extract_raise_none : forall m a b p e, perpendicular a b -> 0 <= fst p -> 0 <= snd p ->
  in_reach m b p -> extract_states_vector m p a = Raise e -> none_full m [a; b] p.
Proof.
  intros m a b [r c] e Hp Hr Hc Hi H j i t E F. cbn in E. injection E as <-.
  destruct Hi as [[HL HU]|Hn]; [|exact (Hn _ F)]. destruct F as (F1 & F2 & _).
  cbn [fst snd] in *. apply perpendicular_cases in Hp. unfold extract_states_vector in H.
  destruct a, b; cbn in Hp; try discriminate; rewrite np_index_pos in H by assumption;
    match type of H with context [?x <? ?y] => destruct (Z.ltb_spec x y); [discriminate|] end;
    cbn [moved fst snd] in *; try specialize (HL eq_refl); try specialize (HU eq_refl); lia.
Qed.

Lemma loop_two : forall m a b, perpendicular a b -> forall f p,
  (lines_left m b p < f)%nat -> in_reach m a p -> in_reach m b p ->
  (0 <= fst p \/ b = dU) -> (0 <= snd p \/ b = dL) ->
  opposite_ok m [a; b] p (opposite_loop f m p a (Some b)).
Proof.
  intros m a b Hp. induction f as [|f IH]; intros p Hf Hia Hib Hr Hc; [lia|]. cbn [opposite_loop].
  destruct (Z.leb_spec 0 (fst p)) as [Hr0|Hr0].
  2:{ right. split; [reflexivity|]. apply beyond_none; [exact Hp|]. left. split; [|exact Hr0]. destruct Hr; [lia|assumption]. }
  destruct (Z.leb_spec 0 (snd p)) as [Hc0|Hc0].
  2:{ right. split; [reflexivity|]. apply beyond_none; [exact Hp|]. right. split; [|exact Hc0]. destruct Hc; [lia|assumption]. }
  cbn [andb]. pose proof (line_outcome m p a Hr0 Hc0 Hia) as H1.
  destruct (extract_states_vector m p a) as [v|e] eqn:E.
  - destruct (first_true v) as [n|].
    + left. exists (moved a n p). rewrite shift_moved. split; [reflexivity|]. destruct H1. apply first_line; assumption.
    + rewrite vector_moved. pose proof (extract_ok_left m a b p v Hp Hr0 Hc0 E) as Hl.
      destruct (IH (moved b 1 p)) as [(t & Et & Ht)|[Et Ht]].
      * rewrite lines_left_moved. lia.
      * apply in_reach_moved; tauto.
      * apply in_reach_moved; tauto.
      * destruct p as [r c]. destruct b; cbn [moved fst snd] in *; try (left; lia); right; reflexivity.
      * destruct p as [r c]. destruct b; cbn [moved fst snd] in *; try (left; lia); right; reflexivity.
      * left. exists t. split; [exact Et|]. apply first_next_line; assumption.
      * right. split; [exact Et|]. apply none_next_line; assumption.
  - right. split; [reflexivity|]. eapply extract_raise_none; eassumption.
Qed.

(** Clamping the landing to the margin skips only empty cells. *)
Definition clamp (dn p : coords) (moves : list dir) : coords :=
  (if (fst dn <? fst p) && existsb is_U moves then fst dn else fst p,
   if (snd dn <? snd p) && existsb is_L moves then snd dn else snd p).

Definition skipped (m : mat) (moves : list dir) (p q : coords) : Prop :=
  (forall t, first_full m moves q t <-> first_full m moves p t) /\ (none_full m moves q -> none_full m moves p).

Lemma skipped_refl : forall m moves p, skipped m moves p p.
Proof. intros. split; [reflexivity|auto]. Qed.
Lemma skipped_trans : forall m moves p q r, skipped m moves p q -> skipped m moves q r -> skipped m moves p r.
Proof. intros m moves p q r [H1 H2] [H3 H4]. split; [intro t; rewrite H3; apply H1|auto]. Qed.

(** A step of clamping: [k] empty lines at the start. *)
Lemma skip_cells : forall m moves a p k, hd_error moves = Some a -> good_moves moves ->
  (forall j i q, (i < k)%nat -> swept moves p j i = Some q -> ~ full m q) -> skipped m moves p (moved a k p).
Proof.
  intros m moves a p k Ha Hg He. split; [intro t; apply first_full_skip_cells; assumption|].
  intros Hn j i t E. destruct (Nat.lt_ge_cases i k) as [Hk|Hk]; [exact (He j i t Hk E)|].
  apply (Hn j (i - k)%nat). inversion Hg; subst; cbn in Ha; injection Ha as <-; cbn [swept] in *.
  - destruct j; [|discriminate]. rewrite moved_moved. rewrite <- E. do 2 f_equal. lia.
  - rewrite (moved_comm b a0 j k p), moved_moved. rewrite <- E. do 2 f_equal. lia.
Qed.

Lemma skip_lines : forall m a b p k,
  (forall j i, (j < k)%nat -> ~ full m (moved a i (moved b j p))) -> skipped m [a; b] p (moved b k p).
Proof.
  intros m a b p k He. split; [intro t; apply first_full_skip_lines; assumption|].
  intros Hn j i t E. cbn in E. injection E as <-. destruct (Nat.lt_ge_cases j k) as [Hk|Hk]; [apply He; exact Hk|].
  apply (Hn (j - k)%nat i). cbn [swept]. rewrite moved_moved. do 3 f_equal. lia.
Qed.

Lemma clamp_skips : forall m dn p moves, good_moves moves -> is_margin m dn ->
  skipped m moves p (clamp dn p moves).
Proof.
  intros m [dr dc] [r c] moves Hg (_ & _ & Hb & _). unfold clamp. cbn [fst snd] in *.
  assert (Hb' : forall p', full m p' -> fst p' <= dr /\ snd p' <= dc) by exact Hb. clear Hb.
  set (r' := if (dr <? r) && existsb is_U moves then dr else r).
  apply skipped_trans with (r', c).
  - unfold r'. destruct (Z.ltb_spec dr r) as [H|H]; [|apply skipped_refl]. cbn [andb].
    destruct (existsb is_U moves) eqn:EU; [|apply skipped_refl].
    replace (dr, c) with (moved dU (Z.to_nat (r - dr)) (r, c)) by (cbn [moved fst snd]; f_equal; lia).
    inversion Hg; subst; cbn [existsb] in EU.
    + destruct a; cbn in EU; try discriminate. apply skip_cells; [reflexivity|exact Hg|].
      intros [|j] i q Hi E F; [|discriminate]. cbn in E. injection E as <-. apply Hb' in F. cbn [fst snd] in F. lia.
    + destruct a.
      2:{ apply skip_cells; [reflexivity|exact Hg|]. intros j i q Hi E F. cbn in E. injection E as <-.
          apply Hb' in F. apply perpendicular_cases in H0. destruct b; cbn in H0; try discriminate; cbn [moved fst snd] in F; lia. }
      all: destruct b; cbn in EU; try discriminate; apply perpendicular_cases in H0; cbn in H0; try discriminate;
        apply skip_lines; intros j i Hj F; apply Hb' in F; cbn [moved fst snd] in F; lia.
  - destruct (Z.ltb_spec dc c) as [H|H]; [|apply skipped_refl]. cbn [andb].
    destruct (existsb is_L moves) eqn:EU; [|apply skipped_refl].
    clearbody r'.
    replace (r', dc) with (moved dL (Z.to_nat (c - dc)) (r', c)) by (cbn [moved fst snd]; f_equal; lia).
    inversion Hg; subst; cbn [existsb] in EU.
    + destruct a; cbn in EU; try discriminate. apply skip_cells; [reflexivity|exact Hg|].
      intros [|j] i q Hi E F; [|discriminate]. cbn in E. injection E as <-. apply Hb' in F. cbn [fst snd] in F. lia.
    + destruct a.
      1:{ apply skip_cells; [reflexivity|exact Hg|]. intros j i q Hi E F. cbn in E. injection E as <-.
          apply Hb' in F. apply perpendicular_cases in H0. destruct b; cbn in H0; try discriminate; cbn [moved fst snd] in F; lia. }
      all: destruct b; cbn in EU; try discriminate; apply perpendicular_cases in H0; cbn in H0; try discriminate;
        apply skip_lines; intros j i Hj F; apply Hb' in F; cbn [moved fst snd] in F; lia.
Qed.

Lemma clamp_reach : forall m dn p moves d, In d moves -> is_margin m dn ->
  in_reach m d (clamp dn p moves).
Proof.
  intros m [dr dc] [r c] moves d Hin (H1 & H2 & H3 & [[H4 H5]|H4]); [|right; exact H4]. left.
  unfold clamp. cbn [fst snd] in *. split; intros ->.
  - assert (E : existsb is_L moves = true) by (apply existsb_exists; exists dL; auto). rewrite E, andb_true_r.
    destruct (Z.ltb_spec dc c); lia.
  - assert (E : existsb is_U moves = true) by (apply existsb_exists; exists dU; auto). rewrite E, andb_true_r.
    destruct (Z.ltb_spec dr r); lia.
Qed.

Lemma target_opposite_spec : forall m dn p moves, good_moves moves -> is_margin m dn ->
  0 <= fst p -> 0 <= snd p -> opposite_ok m moves p (target_opposite m dn p moves).
Proof.
  intros m dn p moves Hg Hm Hr Hc.
  pose proof (clamp_skips m dn p moves Hg Hm) as [Hs1 Hs2].
  pose proof (clamp_reach m dn p moves) as Hre.
  assert (Hpos : 0 <= fst (clamp dn p moves) /\ 0 <= snd (clamp dn p moves)).
  { destruct Hm as (M1 & M2 & _). unfold clamp. cbn [fst snd].
    split; match goal with |- context [if ?x then _ else _] => destruct x end; assumption. }
  assert (opposite_ok m moves (clamp dn p moves) (target_opposite m dn p moves)) as [(t & E & Ht)|[E Ht]].
  2:{ left. exists t. split; [exact E|]. apply Hs1. exact Ht. }
  2:{ right. split; [exact E|]. apply Hs2. exact Ht. }
  unfold target_opposite. cbv zeta. fold (clamp dn p moves). destruct Hpos as [P1 P2].
  change (if (fst dn <? fst p) && existsb is_U moves then fst dn else fst p) with (fst (clamp dn p moves)).
  change (if (snd dn <? snd p) && existsb is_L moves then snd dn else snd p) with (snd (clamp dn p moves)).
  set (q := clamp dn p moves) in *. clearbody q.
  inversion Hg; subst; cbn [hd_error].
  - apply loop_one; try assumption. apply Hre; [left; reflexivity|exact Hm].
  - apply loop_two; try assumption; try (left; assumption).
    + destruct q as [r c]. destruct b; cbn [lines_left fst snd] in *; lia.
    + apply Hre; [left; reflexivity|exact Hm].
    + apply Hre; [right; left; reflexivity|exact Hm].
Qed.

Lemma first_not_none : forall m moves p t, first_full m moves p t -> ~ none_full m moves p.
Proof. intros m moves p t (j & i & E & F & _) Hn. exact (Hn j i t E F). Qed.

Lemma swept_unique : forall moves p j1 i1 j2 i2 t, good_moves moves ->
  swept moves p j1 i1 = Some t -> swept moves p j2 i2 = Some t -> j1 = j2 /\ i1 = i2.
Proof.
  intros moves [r c] j1 i1 j2 i2 t Hg E1 E2. inversion Hg; subst; cbn [swept] in *.
  - destruct j1; [|discriminate]. destruct j2; [|discriminate]. split; [reflexivity|].
    injection E1 as <-. injection E2 as E2. destruct a; cbn [moved fst snd] in E2; inversion E2; lia.
  - apply perpendicular_cases in H. injection E1 as <-. injection E2 as E2.
    destruct a, b; cbn in H; try discriminate; cbn [moved fst snd] in E2; inversion E2; lia.
Qed.

Lemma first_full_unique : forall m moves p t t', first_full m moves p t -> first_full m moves p t' -> t = t'.
Proof.
  intros m moves p t t' (j & i & E & F & N) (j' & i' & E' & F' & N').
  destruct (Nat.lt_trichotomy j j') as [H|[->|H]].
  - exfalso. apply (N' j i t); [lia|exact E|exact F].
  - destruct (Nat.lt_trichotomy i i') as [H|[->|H]].
    + exfalso. apply (N' j' i t); [lia|exact E|exact F].
    + congruence.
    + exfalso. apply (N j' i' t'); [lia|exact E'|exact F'].
  - exfalso. apply (N j' i' t'); [lia|exact E'|exact F'].
Qed.

Lemma target_opposite_negative : forall m dn p moves, good_moves moves -> 0 <= fst dn -> 0 <= snd dn ->
  fst p < 0 \/ snd p < 0 -> target_opposite m dn p moves = Raise EmptyCapture.
Proof.
  intros m dn p moves Hg Hd1 Hd2 Hn. unfold target_opposite.
  set (r := if (fst dn <? fst p) && existsb is_U moves then fst dn else fst p).
  set (c := if (snd dn <? snd p) && existsb is_L moves then snd dn else snd p).
  assert (Hrc : (0 <=? r) && (0 <=? c) = false).
  { apply andb_false_iff. destruct Hn as [Hn|Hn].
    - left. unfold r. destruct (Z.ltb_spec (fst dn) (fst p)); [lia|]. cbn [andb]. apply Z.leb_gt. exact Hn.
    - right. unfold c. destruct (Z.ltb_spec (snd dn) (snd p)); [lia|]. cbn [andb]. apply Z.leb_gt. exact Hn. }
  inversion Hg; subst; cbn [opposite_loop hd_error fst snd]; rewrite Hrc; reflexivity.
Qed.

(** ** Runs of full cells *)

Lemma first_change_cons2 : forall a b v,
  first_change (a :: b :: v) = if Bool.eqb a b then option_map S (first_change (b :: v)) else Some O.
Proof. reflexivity. Qed.

Lemma first_change_spec : forall v n, first_change v = Some n ->
  exists b, (forall i, (i <= n)%nat -> nth_error v i = Some b) /\ nth_error v (S n) = Some (negb b).
Proof.
  induction v as [|a v IH]; intros n H; [discriminate|]. destruct v as [|b v]; [discriminate|].
  rewrite first_change_cons2 in H. destruct (Bool.eqb a b) eqn:E.
  - apply Bool.eqb_prop in E. subst b. destruct (first_change (a :: v)) as [k|] eqn:Ek; [|discriminate].
    cbn in H. injection H as <-. destruct (IH k eq_refl) as (b & H1 & H2). exists b.
    assert (b = a). { specialize (H1 O ltac:(lia)). cbn in H1. congruence. } subst b.
    split; [|exact H2]. intros [|i] Hi; [reflexivity|]. apply (H1 i). lia.
  - injection H as <-. exists a. split.
    + intros i Hi. replace i with O by lia. reflexivity.
    + cbn. destruct a, b; cbn in E; try discriminate; reflexivity.
Qed.

Lemma first_change_None : forall v b, first_change v = None -> In b v -> forallb (Bool.eqb b) v = true.
Proof.
  induction v as [|a v IH]; intros b H Hin; [reflexivity|]. destruct v as [|a' v].
  - destruct Hin as [->|[]]. cbn. rewrite Bool.eqb_reflx. reflexivity.
  - rewrite first_change_cons2 in H. destruct (Bool.eqb a a') eqn:E; [|discriminate].
    apply Bool.eqb_prop in E. subst a'. destruct (first_change (a :: v)) eqn:Ek; [discriminate|].
    assert (Hb : In b (a :: v)) by (destruct Hin as [->|Hin]; [left; reflexivity|exact Hin]).
    specialize (IH b eq_refl Hb). cbn [forallb] in *. rewrite IH. apply andb_true_iff in IH. destruct IH as [IH _].
    rewrite IH. reflexivity.
Qed.

Lemma same_len_spec : forall m p d, full m p ->
  exists n, same_len m p d = Ok (Z.of_nat n) /\ run_end m d p (moved d n p).
Proof.
  intros m p d Hf. assert (Hf' := Hf). destruct Hf' as (H1 & H2 & _).
  pose proof (extract_shows m p d ltac:(lia) ltac:(lia) ltac:(lia) ltac:(lia)) as H.
  unfold same_len. destruct (extract_states_vector m p d) as [v|e] eqn:E.
  2:{ exfalso. destruct H as [_ H]. apply (H O). rewrite moved_0. exact Hf. }
  cbn [rbind].
  assert (H0 : nth_error v 0 = Some true) by (apply H; rewrite moved_0; exact Hf).
  destruct (forallb (fun b => b) v) eqn:Ea.
  - destruct v as [|b0 v]; [discriminate|]. exists (length v).
    split; [f_equal; cbn [length]; lia|]. exists (length v). split; [reflexivity|].
    rewrite forallb_forall in Ea. split.
    + intros i Hi. apply H. destruct (nth_error (b0 :: v) i) as [b|] eqn:Eb.
      * apply nth_error_In in Eb. apply Ea in Eb. rewrite Eb. reflexivity.
      * apply nth_error_None in Eb. cbn [length] in Eb. lia.
    + intro F. apply H in F. assert (nth_error (b0 :: v) (S (length v)) = None) by (apply nth_error_None; cbn; lia). congruence.
  - destruct (first_change v) as [n|] eqn:Ec.
    + destruct (first_change_spec v n Ec) as (b & G1 & G2).
      assert (b = true) by (specialize (G1 O ltac:(lia)); congruence). subst b.
      exists n. split; [reflexivity|]. exists n. split; [reflexivity|]. split.
      * intros i Hi. apply H. apply G1. exact Hi.
      * intro F. apply H in F. rewrite F in G2. discriminate G2.
    + exfalso. apply nth_error_In in H0. apply (first_change_None v true Ec) in H0.
      assert (forallb (fun b : bool => b) v = true); [|congruence].
      rewrite forallb_forall in *. intros b Hb. specialize (H0 b Hb). destruct b; [reflexivity|discriminate].
Qed.

Lemma get_full : forall m p, full m p -> get m p = Ok true.
Proof.
  intros m [r c] (H1 & H2 & H3). cbn [fst snd] in *. unfold get. cbn [fst snd].
  rewrite !np_index_pos by lia. destruct (Z.ltb_spec r (Z.of_nat (rows m))); [|lia].
  destruct (Z.ltb_spec c (Z.of_nat (cols m))); [|lia]. rewrite H3. reflexivity.
Qed.

Lemma get_nonneg : forall m p, 0 <= fst p -> 0 <= snd p -> get m p = Ok true -> full m p.
Proof.
  intros m [r c] Hr Hc H. cbn [fst snd] in *. unfold get in H. cbn [fst snd] in H.
  rewrite !np_index_pos in H by lia. destruct (Z.ltb_spec r (Z.of_nat (rows m))); [|discriminate].
  destruct (Z.ltb_spec c (Z.of_nat (cols m))); [|discriminate]. injection H as H. repeat split; cbn [fst snd]; auto; lia.
Qed.

Lemma run_end_moved : forall m d p q, run_end m d p q -> exists n, q = moved d n p /\ forall i, (i <= n)%nat -> full m (moved d i p).
Proof. intros m d p q (n & E & H & _). exists n. auto. Qed.

Lemma run_end_unique : forall m d p q q', run_end m d p q -> run_end m d p q' -> q = q'.
Proof.
  intros m d p q q' (n & -> & H1 & H2) (n' & -> & H3 & H4).
  destruct (Nat.lt_trichotomy n n') as [H|[->|H]]; [|reflexivity|].
  - exfalso. apply H2. apply H3. lia.
  - exfalso. apply H4. apply H1. lia.
Qed.

Lemma run_end_exists : forall m d p, full m p -> exists q, run_end m d p q.
Proof. intros m d p H. destruct (same_len_spec m p d H) as (n & _ & Hn). eauto. Qed.

(** Where [target_same] goes: each move sets its own axis. *)
Definition along (d : dir) (q t : coords) : coords :=
  match d with dL | dR => (fst t, snd q) | dU | dD => (fst q, snd t) end.

Inductive same_goes (m : mat) (p : coords) : list dir -> coords -> coords -> Prop :=
| Sg_nil : forall t, same_goes m p [] t t
| Sg_cons : forall d ds q t t', run_end m d p q -> same_goes m p ds (along d q t) t' -> same_goes m p (d :: ds) t t'.

Lemma same_loop_spec : forall m p moves t, full m p ->
  exists t', same_loop m p t moves = Ok t' /\ same_goes m p moves t t'.
Proof.
  intros m p moves. induction moves as [|d ds IH]; intros t Hf.
  - exists t. split; [reflexivity|constructor].
  - destruct (same_len_spec m p d Hf) as (n & E & Hn). cbn [same_loop]. rewrite E. cbn [rbind].
    rewrite shift_moved. destruct (IH (along d (moved d n p) t) Hf) as (t' & Et & Ht).
    exists t'. split; [exact Et|]. econstructor; eassumption.
Qed.

Lemma same_goes_one : forall m p d t, same_goes m p [d] p t -> run_end m d p t.
Proof.
  intros m [r c] d t H. inversion H as [|d' ds q t0 t' Hq Hs]; subst. inversion Hs; subst.
  assert (E : along d q (r, c) = q). 
  { destruct Hq as (n & -> & _). destruct d; cbn; reflexivity. }
  rewrite E. exact Hq.
Qed.

Lemma target_same_one : forall m dn p d, is_margin m dn -> full m p ->
  exists t, target_same m dn p [d] = Ok t /\ run_end m d p t.
Proof.
  intros m dn p d (_ & _ & Hb & _) Hf. unfold target_same.
  destruct (Hb p Hf) as [B1 B2]. destruct (Z.leb_spec (fst p) (fst dn)); [|lia].
  destruct (Z.leb_spec (snd p) (snd dn)); [|lia]. cbn [andb]. rewrite (get_full m p Hf). cbn [rbind].
  destruct (same_loop_spec m p [d] p Hf) as (t & E & Ht). exists t. split; [exact E|].
  apply same_goes_one. exact Ht.
Qed.

Lemma target_same_two : forall m dn p a b, perpendicular a b -> is_margin m dn -> full m p ->
  exists t qa qb, target_same m dn p [a; b] = Ok t /\ run_end m a p qa /\ run_end m b p qb
    /\ (vertical a -> t = (fst qa, snd qb)) /\ (vertical b -> t = (fst qb, snd qa)).
Proof.
  intros m dn p a b Hp (_ & _ & Hb & _) Hf. unfold target_same.
  destruct (Hb p Hf) as [B1 B2]. destruct (Z.leb_spec (fst p) (fst dn)); [|lia].
  destruct (Z.leb_spec (snd p) (snd dn)); [|lia]. cbn [andb]. rewrite (get_full m p Hf). cbn [rbind].
  destruct (same_loop_spec m p [a; b] p Hf) as (t & E & Ht).
  inversion Ht as [|d' ds q t0 t' Hq Hs]; subst. inversion Hs as [|d' ds' q0 t0 t' Hq0 Hs']; subst. inversion Hs'; subst.
  exists (along b q0 (along a q p)), q, q0. split; [exact E|]. split; [assumption|]. split; [assumption|].
  unfold perpendicular, vertical in *. destruct p as [r c].
  split; intros [->| ->]; [destruct b|destruct b|destruct a|destruct a]; cbn; try reflexivity; exfalso; intuition discriminate.
Qed.

Lemma target_same_empty : forall m dn p moves, 0 <= fst p -> 0 <= snd p -> ~ full m p ->
  target_same m dn p moves = Raise EmptyCapture \/ target_same m dn p moves = Raise IndexError.
Proof.
  intros m dn p moves Hr Hc Hn. unfold target_same.
  destruct ((fst p <=? fst dn) && (snd p <=? snd dn)); [|left; reflexivity].
  destruct (get m p) as [[|]|e] eqn:E.
  - exfalso. apply Hn. apply get_nonneg; assumption.
  - left. reflexivity.
  - right. cbn. unfold get in E. destruct (np_index _ _); [destruct (np_index _ _)|]; congruence.
Qed.

(** ** Margins *)

Lemma fold_min_le : forall l x, fold_left Z.min l x <= x /\ forall y, In y l -> fold_left Z.min l x <= y.
Proof.
  induction l as [|a l IH]; intro x; cbn [fold_left]; [split; [lia|intros y []]|].
  destruct (IH (Z.min x a)) as [H1 H2]. split; [lia|]. intros y [<-|Hy]; [lia|apply H2; exact Hy].
Qed.
Lemma fold_min_in : forall l x, fold_left Z.min l x = x \/ In (fold_left Z.min l x) l.
Proof.
  induction l as [|a l IH]; intro x; cbn [fold_left]; [left; reflexivity|].
  destruct (IH (Z.min x a)) as [H|H]; [|right; right; exact H]. rewrite H.
  destruct (Z.min_spec x a) as [[_ ->]|[_ ->]]; [left; reflexivity|right; left; reflexivity].
Qed.
Lemma fold_max_le : forall l x, x <= fold_left Z.max l x /\ forall y, In y l -> y <= fold_left Z.max l x.
Proof.
  induction l as [|a l IH]; intro x; cbn [fold_left]; [split; [lia|intros y []]|].
  destruct (IH (Z.max x a)) as [H1 H2]. split; [lia|]. intros y [<-|Hy]; [lia|apply H2; exact Hy].
Qed.
Lemma fold_max_in : forall l x, fold_left Z.max l x = x \/ In (fold_left Z.max l x) l.
Proof.
  induction l as [|a l IH]; intro x; cbn [fold_left]; [left; reflexivity|].
  destruct (IH (Z.max x a)) as [H|H]; [|right; right; exact H]. rewrite H.
  destruct (Z.max_spec x a) as [[_ ->]|[_ ->]]; [right; left; reflexivity|left; reflexivity].
Qed.

Lemma minimum_spec : forall l, l <> [] -> In (minimum l) l /\ forall y, In y l -> minimum l <= y.
Proof.
  intros [|x l] H; [contradiction|]. cbn [minimum]. split.
  - destruct (fold_min_in l x) as [->|H0]; [left; reflexivity|right; exact H0].
  - intros y [<-|Hy]; [exact (proj1 (fold_min_le l x))|exact (proj2 (fold_min_le l x) y Hy)].
Qed.
Lemma maximum_spec : forall l, l <> [] -> In (maximum l) l /\ forall y, In y l -> y <= maximum l.
Proof.
  intros [|x l] H; [contradiction|]. cbn [maximum]. split.
  - destruct (fold_max_in l x) as [->|H0]; [left; reflexivity|right; exact H0].
  - intros y [<-|Hy]; [exact (proj1 (fold_max_le l x))|exact (proj2 (fold_max_le l x) y Hy)].
Qed.

Lemma where_full_spec : forall m p, In p (where_full m) <-> full m p.
Proof.
  intros m p. unfold where_full. rewrite in_flat_map. split.
  - intros (i & Hi & H). apply in_map_iff in H. destruct H as (j & <- & Hj). apply filter_In in Hj.
    destruct Hj as [Hj Ha]. apply in_seq in Hi, Hj. apply at_full; [lia|lia|exact Ha].
  - intros (H1 & H2 & H3). exists (Z.to_nat (fst p)). split; [apply in_seq; lia|].
    apply in_map_iff. exists (Z.to_nat (snd p)). split.
    + destruct p as [r c]. cbn [fst snd] in *. f_equal; lia.
    + apply filter_In. split; [apply in_seq; lia|exact H3].
Qed.

Lemma any_full : forall m,
  existsb (fun r => existsb (at_ m r) (seq 0 (cols m))) (seq 0 (rows m)) = true <-> exists p, full m p.
Proof.
  intro m. rewrite existsb_exists. split.
  - intros (i & Hi & H). apply existsb_exists in H. destruct H as (j & Hj & Ha). apply in_seq in Hi, Hj.
    exists (Z.of_nat i, Z.of_nat j). apply at_full; [lia|lia|exact Ha].
  - intros (p & H1 & H2 & H3). exists (Z.to_nat (fst p)). split; [apply in_seq; lia|].
    apply existsb_exists. exists (Z.to_nat (snd p)). split; [apply in_seq; lia|exact H3].
Qed.

Lemma margin_coords_full : forall m p, full m p -> bounding_box m (fst (margin_coords m)) (snd (margin_coords m)).
Proof.
  intros m p Hf. unfold margin_coords. rewrite (proj2 (any_full m) (ex_intro _ p Hf)). cbn [fst snd].
  assert (Hne : where_full m <> []). { apply where_full_spec in Hf. intro E. rewrite E in Hf. exact Hf. }
  assert (Hfst : map fst (where_full m) <> []) by (destruct (where_full m); [contradiction|discriminate]).
  assert (Hsnd : map snd (where_full m) <> []) by (destruct (where_full m); [contradiction|discriminate]).
  destruct (minimum_spec _ Hfst) as [A1 A2]. destruct (minimum_spec _ Hsnd) as [B1 B2].
  destruct (maximum_spec _ Hfst) as [C1 C2]. destruct (maximum_spec _ Hsnd) as [D1 D2].
  unfold bounding_box. cbn [fst snd]. split.
  { intros q Hq. apply where_full_spec in Hq.
    pose proof (in_map fst _ _ Hq) as Q1. pose proof (in_map snd _ _ Hq) as Q2. auto. }
  apply in_map_iff in A1, B1, C1, D1.
  destruct A1 as (qa & Ea & Ha), B1 as (qb & Eb & Hb), C1 as (qc & Ec & Hc), D1 as (qd & Ed & Hd).
  apply where_full_spec in Ha, Hb, Hc, Hd. repeat split; eauto.
Qed.

Lemma margin_coords_empty : forall m, (forall p, ~ full m p) -> margin_coords m = ((0, 0), (0, 0)).
Proof.
  intros m H. unfold margin_coords. destruct (existsb _ _) eqn:E; [|reflexivity].
  apply any_full in E. destruct E as (p & Hp). exfalso. exact (H p Hp).
Qed.

Lemma some_full_dec : forall m, (exists p, full m p) \/ forall p, ~ full m p.
Proof.
  intro m. destruct (existsb (fun r => existsb (at_ m r) (seq 0 (cols m))) (seq 0 (rows m))) eqn:E.
  - left. apply any_full. exact E.
  - right. intros p Hp. assert (H : exists p, full m p) by eauto. apply any_full in H. congruence.
Qed.

Lemma bounding_box_margin : forall m up dn, bounding_box m up dn -> is_margin m dn.
Proof.
  intros m up dn (H & (a & Ha & _) & _ & (c & Hc & Ec) & (d & Hd & Ed)).
  assert (Fc := Hc). assert (Fd := Hd). destruct Hc as (C1 & C2 & _), Hd as (D1 & D2 & _).
  split; [lia|]. split; [lia|]. split; [|left; lia].
  intros p Hp. apply H in Hp. lia.
Qed.

Lemma margin_coords_margin : forall m, is_margin m (snd (margin_coords m)).
Proof.
  intro m. destruct (some_full_dec m) as [(p & Hp)|Hn].
  - eapply bounding_box_margin. eapply margin_coords_full. exact Hp.
  - rewrite margin_coords_empty by exact Hn. cbn. repeat split; cbn; try lia; try (exfalso; eapply Hn; eassumption).
    right. exact Hn.
Qed.
