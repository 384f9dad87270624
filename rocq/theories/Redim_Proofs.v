(** Lemmas for C31. *)
From Coq Require Import String.
From Verif Require Import PyBase PyBase_Proofs Json Redim_Model Redim_Spec.

Lemma a_list_dec : forall j, {a_list j} + {~ a_list j}.
Proof. intros [|b|z|s|l|d]; try (right; intros (x & E); discriminate E). left. exists l. reflexivity. Qed.
Lemma shape_eqb_eq : forall s t, shape_eqb s t = true <-> s = t.
Proof. intros s t. unfold shape_eqb. destruct (list_eq_dec Nat.eq_dec s t); split; congruence. Qed.

Lemma shape_of_cell : forall j, ~ a_list j -> shape_of j = Some [] /\ cells_of j = [j].
Proof. intros [|b|z|s|l|d] H; try (split; reflexivity). destruct H. exists l. reflexivity. Qed.

Lemma shape_of_spec : forall j s, shape_of j = Some s <-> rectangular j s.
Proof.
  intros j. induction j as [|b|z|x|l IH|d _] using json_ind'; intros s;
    try (split; [intros E; injection E as <-; apply Rc_cell; intros (y & F); discriminate F|intros H; inversion H; reflexivity]).
  split.
  - intros E. cbn [shape_of] in E. destruct l as [|x l]; [injection E as <-; apply Rc_none|]. cbn [map] in E.
    destruct (shape_of x) as [t|] eqn:Ex; [|discriminate E].
    destruct (forallb _ (map shape_of l)) eqn:Ef; [|discriminate E]. injection E as <-.
    apply Rc_rows; [discriminate|]. intros y Hy. rewrite Forall_forall in IH. destruct Hy as [<-|Hy]; [apply IH; [left; reflexivity|exact Ex]|].
    apply IH; [right; exact Hy|]. rewrite forallb_forall in Ef. specialize (Ef (shape_of y) (in_map _ _ _ Hy)).
    destruct (shape_of y); [|discriminate Ef]. apply shape_eqb_eq in Ef. congruence.
  - intros H. inversion H as [j Hj| |l' s' Hn Hx]; subst.
    + destruct Hj. exists l. reflexivity.
    + reflexivity.
    + rewrite Forall_forall in IH. cbn [shape_of]. destruct l as [|x l]; [contradiction|]. cbn [map].
      rewrite (proj2 (IH x (or_introl eq_refl) s') (Hx x (or_introl eq_refl))).
      replace (forallb _ (map shape_of l)) with true; [reflexivity|]. symmetry. apply forallb_forall. intros y Hy.
      apply in_map_iff in Hy. destruct Hy as (z & <- & Hz). rewrite (proj2 (IH z (or_intror Hz) s') (Hx z (or_intror Hz))).
      apply shape_eqb_eq. reflexivity.
Qed.

Lemma reads_cells : forall j, reads j (cells_of j).
Proof.
  intros j. induction j as [|b|z|x|l IH|d _] using json_ind'; try (apply Rd_cell; intros (y & F); discriminate F).
  cbn [cells_of]. induction IH as [|x l Hx _ IHl]; [apply Rd_none|]. cbn [flat_map]. apply Rd_cons; assumption.
Qed.
Lemma reads_fun : forall j cs, reads j cs -> cs = cells_of j.
Proof.
  intros j cs H. induction H as [j Hj| |x l cs cs' _ IH _ IH']; [|reflexivity|].
  - rewrite (proj2 (shape_of_cell j Hj)). reflexivity.
  - cbn [cells_of flat_map] in *. congruence.
Qed.
Lemma cells_not_lists : forall j c, In c (cells_of j) -> ~ a_list c.
Proof.
  intros j. induction j as [|b|z|x|l IH|d _] using json_ind'; intros c Hc; try (destruct Hc as [<-|[]]; intros (y & F); discriminate F).
  cbn [cells_of] in Hc. apply in_flat_map in Hc. destruct Hc as (y & Hy & Hc). rewrite Forall_forall in IH. exact (IH y Hy c Hc).
Qed.
Lemma rectangular_size : forall j s, rectangular j s -> length (cells_of j) = size s.
Proof.
  intros j s H. induction H as [j Hj| |l s Hn Hx IH]; [|reflexivity|].
  - rewrite (proj2 (shape_of_cell j Hj)). reflexivity.
  - cbn [cells_of size fold_right]. fold (size s). clear Hn Hx. induction l as [|x l IHl]; [reflexivity|].
    cbn [flat_map length]. rewrite app_length, (IH x (or_introl eq_refl)), IHl; [lia|]. intros y Hy. apply IH. right. exact Hy.
Qed.

(** Shapes with a zero only at the end are those of nested lists. *)
Definition good_shape (s : list nat) : Prop := forall a b, s = a ++ 0%nat :: b -> b = [].
Lemma good_tail : forall d s, good_shape (d :: s) -> good_shape s.
Proof. intros d s H a b E. apply (H (d :: a) b). rewrite E. reflexivity. Qed.
Lemma good_cons : forall d s, good_shape s -> (d <> 0%nat \/ s = []) -> good_shape (d :: s).
Proof. intros d s H Hd [|x a] b E; injection E as E1 E2; [destruct Hd; subst; auto; contradiction|apply (H a b E2)]. Qed.
Lemma rectangular_good : forall j s, rectangular j s -> good_shape s.
Proof.
  intros j s H. induction H as [j Hj| |l s Hn Hx IH].
  - intros [|? ?] ? E; discriminate E.
  - apply good_cons; [intros [|? ?] ? E; discriminate E|right; reflexivity].
  - destruct l as [|x l]; [contradiction|]. apply good_cons; [apply (IH x); left; reflexivity|left; discriminate].
Qed.

Lemma chunks_length : forall n k l, length (chunks n k l) = n.
Proof. induction n as [|n IH]; intros k l; [reflexivity|]. cbn [chunks length]. rewrite IH. reflexivity. Qed.
Lemma chunks_concat : forall n k l, length l = (n * k)%nat -> concat (chunks n k l) = l.
Proof.
  induction n as [|n IH]; intros k l H; [destruct l; [reflexivity|discriminate H]|]. cbn [chunks concat]. rewrite IH; [apply firstn_skipn|].
  rewrite skipn_length. lia.
Qed.
Lemma chunks_each : forall n k l x, length l = (n * k)%nat -> In x (chunks n k l) -> length x = k /\ forall c, In c x -> In c l.
Proof.
  induction n as [|n IH]; intros k l x H Hx; [destruct Hx|]. cbn [chunks] in Hx. destruct Hx as [<-|Hx].
  - split; [apply firstn_length_le; lia|]. intros c Hc. rewrite <- (firstn_skipn k l). apply in_or_app. left. exact Hc.
  - destruct (IH k (skipn k l) x) as [H1 H2]; [rewrite skipn_length; lia|exact Hx|]. split; [exact H1|]. intros c Hc.
    rewrite <- (firstn_skipn k l). apply in_or_app. right. auto.
Qed.
Lemma nested_rect : forall s l, good_shape s -> length l = size s -> (forall c, In c l -> ~ a_list c) -> rectangular (nested s l) s /\ cells_of (nested s l) = l.
Proof.
  induction s as [|n s IH]; intros l Hg Hl Hc.
  - destruct l as [|c [|c' l]]; try discriminate Hl. cbn [nested hd]. specialize (Hc c (or_introl eq_refl)). split; [apply Rc_cell; exact Hc|]. apply shape_of_cell. exact Hc.
  - cbn [size fold_right] in Hl. fold (size s) in Hl. cbn [nested]. split.
    + destruct n as [|n].
      * rewrite (Hg [] s eq_refl). cbn. apply Rc_none.
      * set (ls := map (nested s) (chunks (S n) (size s) l)). replace (S n) with (length ls) by (unfold ls; rewrite map_length; apply chunks_length).
        apply Rc_rows; [discriminate|]. intros x Hx. apply in_map_iff in Hx. destruct Hx as (y & <- & Hy). destruct (chunks_each _ _ _ _ Hl Hy) as [H1 H2].
        apply IH; [eapply good_tail; exact Hg|exact H1|]. intros c Hi. apply Hc. auto.
    + cbn [cells_of]. rewrite flat_map_concat_map, map_map. rewrite <- (chunks_concat n (size s) l Hl) at 2. f_equal.
      rewrite <- (map_id (chunks n (size s) l)) at 2. apply map_ext_in. intros x Hx. destruct (chunks_each _ _ _ _ Hl Hx) as [H1 H2].
      apply IH; [eapply good_tail; exact Hg|exact H1|]. intros c Hi. apply Hc. auto.
Qed.

(** ** Common types *)

Lemma promote_length : forall cs, length (promote cs) = length cs.
Proof. intros cs. unfold promote. destruct (existsb is_object cs), (existsb is_text cs), (existsb is_int cs); try reflexivity; apply map_length. Qed.
Lemma promote_not_lists : forall cs, (forall c, In c cs -> ~ a_list c) -> forall c, In c (promote cs) -> ~ a_list c.
Proof.
  intros cs H c Hc. unfold promote in Hc. destruct (existsb is_object cs); [auto|]. destruct (existsb is_text cs); [|destruct (existsb is_int cs); [|auto]].
  - apply in_map_iff in Hc. destruct Hc as (x & <- & Hx). specialize (H x Hx). destruct x; try exact H; intros (y & F); discriminate F.
  - apply in_map_iff in Hc. destruct Hc as (x & <- & Hx). specialize (H x Hx). destruct x; try exact H; intros (y & F); discriminate F.
Qed.
Lemma existsb_none : forall {A} (f : A -> bool) l, (forall x, In x l -> f x = false) -> existsb f l = false.
Proof. intros A f l H. destruct (existsb f l) eqn:E; [|reflexivity]. apply existsb_exists in E. destruct E as (x & Hx & E). rewrite (H x Hx) in E. discriminate E. Qed.
Lemma promote_uniform : forall cs, uniform cs -> promote cs = cs.
Proof.
  intros cs H. unfold promote. destruct H as [H|[(d & H)|[H|[H|H]]]].
  - rewrite (proj2 (existsb_exists _ _) (ex_intro _ JNull (conj H eq_refl))). reflexivity.
  - rewrite (proj2 (existsb_exists _ _) (ex_intro _ (JDict d) (conj H eq_refl))). reflexivity.
  - destruct (existsb is_object cs); [reflexivity|].
    assert (map as_text cs = cs) as E.
    { rewrite <- (map_id cs) at 2. apply map_ext_in. intros c Hc. destruct (H c Hc) as (x & ->). reflexivity. }
    destruct (existsb is_text cs); [exact E|]. rewrite (existsb_none is_int); [reflexivity|]. intros c Hc. destruct (H c Hc) as (x & ->). reflexivity.
  - destruct (existsb is_object cs); [reflexivity|]. rewrite (existsb_none is_text) by (intros c Hc; destruct (H c Hc) as (x & ->); reflexivity).
    destruct (existsb is_int cs); [|reflexivity]. rewrite <- (map_id cs) at 2. apply map_ext_in. intros c Hc. destruct (H c Hc) as (x & ->). reflexivity.
  - destruct (existsb is_object cs); [reflexivity|]. rewrite (existsb_none is_text), (existsb_none is_int) by (intros c Hc; destruct (H c Hc) as (x & ->); reflexivity). reflexivity.
Qed.
Lemma promote_no_text : forall cs, (forall c s, In c cs -> c <> JStr s) -> Forall2 py_equal cs (promote cs).
Proof.
  intros cs H.
  assert (Forall2 py_equal cs cs) as R by (clear H; induction cs; constructor; [left; reflexivity|assumption]).
  unfold promote. destruct (existsb is_object cs); [exact R|].
  rewrite (existsb_none is_text) by (intros c Hc; destruct c; try reflexivity; destruct (H _ s Hc eq_refl)).
  destruct (existsb is_int cs); [|exact R].
  clear H R. induction cs as [|c cs IH]; constructor; [|exact IH]. destruct c as [|[]| | | |]; try (left; reflexivity); right; [left|right]; split; reflexivity.
Qed.

(** ** Arrays *)

Definition wf (a : ndarray) : Prop := length (nd_data a) = size (nd_shape a) /\ forall c, In c (nd_data a) -> ~ a_list c.
Lemma asarray_wf : forall j a, asarray j = Ok a -> rectangular j (nd_shape a) /\ nd_data a = promote (cells_of j) /\ wf a /\ good_shape (nd_shape a).
Proof.
  intros j a H. unfold asarray in H. destruct (shape_of j) as [s|] eqn:E; [|discriminate H]. injection H as <-. cbn. apply shape_of_spec in E.
  split; [exact E|]. split; [reflexivity|]. split; [split; cbn|].
  - rewrite promote_length. apply rectangular_size. exact E.
  - apply promote_not_lists. apply cells_not_lists.
  - eapply rectangular_good. exact E.
Qed.
Lemma asarray_complete : forall j s, rectangular j s -> asarray j = Ok (ND s (promote (cells_of j))).
Proof. intros j s H. unfold asarray. rewrite (proj2 (shape_of_spec j s) H). reflexivity. Qed.

Lemma size_app : forall s t, size (s ++ t) = (size s * size t)%nat.
Proof. induction s as [|d s IH]; intros t; [symmetry; apply Nat.mul_1_l|]. cbn [app size fold_right]. fold (size (s ++ t)) (size s). rewrite IH. apply Nat.mul_assoc. Qed.
Lemma size_without_ones : forall s s', without_ones s s' -> size s' = size s.
Proof.
  intros s s' H. induction H as [|d s s' H IH|s s' H IH]; [reflexivity| |].
  - cbn [size fold_right]. fold (size s) (size s'). rewrite IH. reflexivity.
  - cbn [size fold_right]. fold (size s). rewrite IH. symmetry. apply Nat.mul_1_l.
Qed.
Lemma good_without_ones : forall s s', without_ones s s' -> good_shape s -> good_shape s'.
Proof.
  intros s s' H. induction H as [|d s s' H IH|s s' H IH]; intros Hg; [exact Hg| |].
  - apply good_cons; [apply IH; eapply good_tail; exact Hg|]. destruct d; [|left; discriminate]. right. specialize (Hg [] s eq_refl). subst s. inversion H. reflexivity.
  - apply IH. eapply good_tail. exact Hg.
Qed.
Lemma without_ones_refl : forall s, without_ones s s.
Proof. induction s; constructor; assumption. Qed.
Lemma without_ones_trans : forall s t u, without_ones s t -> without_ones t u -> without_ones s u.
Proof.
  intros s t u H. revert u. induction H as [|d s t H IH|s t H IH]; intros u Hu; [exact Hu| |apply Wo_drop; auto].
  inversion Hu; subst; [apply Wo_keep|apply Wo_drop]; auto.
Qed.
Lemma squeeze_all_ones : forall s, without_ones s (filter (fun d => negb (d =? 1)%nat) s) /\ (length (filter (fun d => negb (d =? 1)%nat) s) + ones s = length s)%nat.
Proof.
  induction s as [|d s [IH1 IH2]]; [split; constructor|]. cbn [filter ones length]. destruct (Nat.eqb_spec d 1) as [->|Hd]; cbn [negb length].
  - split; [apply Wo_drop; exact IH1|lia].
  - split; [apply Wo_keep; exact IH1|lia].
Qed.
Lemma squeeze_ones : forall i s, nth_error s i = Some 1%nat -> without_ones s (firstn i s ++ skipn (S i) s) /\ S (length (firstn i s ++ skipn (S i) s)) = length s.
Proof.
  induction i as [|i IH]; intros [|d s] H; try discriminate H.
  - injection H as ->. cbn. split; [apply Wo_drop, without_ones_refl|reflexivity].
  - cbn [nth_error] in H. destruct (IH s H) as [H1 H2]. change (firstn (S i) (d :: s) ++ skipn (S (S i)) (d :: s)) with (d :: firstn i s ++ skipn (S i) s).
    split; [apply Wo_keep; exact H1|cbn [length]; rewrite H2; reflexivity].
Qed.
Lemma squeeze_each_ones : forall idxs a a', squeeze_each idxs a = Ok a' -> without_ones (nd_shape a) (nd_shape a') /\ nd_data a' = nd_data a
  /\ (length (nd_shape a') + length idxs = length (nd_shape a))%nat.
Proof.
  induction idxs as [|i idxs IH]; intros a a' H; cbn [squeeze_each] in H.
  - injection H as <-. split; [apply without_ones_refl|]. split; [reflexivity|cbn; lia].
  - unfold squeeze in H. destruct (nth_error (nd_shape a) i) as [d|] eqn:E; [|discriminate H]. destruct (Nat.eqb_spec d 1) as [->|]; [|discriminate H].
    cbn [rbind] in H. destruct (IH _ _ H) as (H1 & H2 & H3). cbn [nd_shape nd_data] in *. destruct (squeeze_ones i _ E) as [H4 H5].
    split; [eapply without_ones_trans; eassumption|]. split; [exact H2|]. cbn [length] in *. lia.
Qed.
Lemma trivial_ones : forall s i, length (trivial_from i s) = ones s.
Proof. induction s as [|d s IH]; intros i; [reflexivity|]. cbn [trivial_from ones]. destruct (d =? 1)%nat; cbn [length]; rewrite IH; reflexivity. Qed.
Lemma ones_le : forall s, (ones s <= length s)%nat.
Proof. induction s as [|d s IH]; [constructor|]. cbn [ones length]. destruct (d =? 1)%nat; lia. Qed.

(** Lowering: all the elements in one list, or some trivial axes less. *)
Lemma downdim_spec : forall a n a', (n < Z.of_nat (nd_ndim a))%Z -> downdim a n = Ok a' -> nd_data a' = nd_data a
  /\ ((Z.of_nat (ones (nd_shape a)) < Z.of_nat (nd_ndim a) - n)%Z /\ nd_shape a' = [length (nd_data a)]
      \/ (Z.of_nat (nd_ndim a) - n <= Z.of_nat (ones (nd_shape a)))%Z /\ without_ones (nd_shape a) (nd_shape a') /\ Z.of_nat (length (nd_shape a')) = n).
Proof.
  intros a n a' Hn H. unfold downdim in H. rewrite trivial_ones in H. rewrite Z.gtb_ltb in H.
  destruct (Z.ltb_spec (Z.of_nat (ones (nd_shape a))) (Z.of_nat (nd_ndim a) - n)) as [Hl|Hl]; [injection H as <-; auto|].
  destruct (Z.eqb_spec (Z.of_nat (nd_ndim a) - n) (Z.of_nat (ones (nd_shape a)))) as [He|He].
  - injection H as <-. split; [reflexivity|]. right. destruct (squeeze_all_ones (nd_shape a)) as [H1 H2]. split; [lia|]. split; [exact H1|].
    cbn [squeeze_all nd_shape]. unfold nd_ndim in *. lia.
  - destruct (squeeze_each_ones _ _ _ H) as (H1 & H2 & H3). split; [exact H2|]. right. split; [lia|]. split; [exact H1|].
    rewrite firstn_length_le in H3 by (rewrite trivial_ones; lia). unfold nd_ndim in *. lia.
Qed.

Lemma downdim_small : forall a n, (nd_ndim a <= 3)%nat -> (n < Z.of_nat (nd_ndim a))%Z -> exists a', downdim a n = Ok a'.
Proof.
  intros [s l] n Hs Hn. unfold downdim, nd_ndim in *. cbn [nd_shape nd_data] in *. rewrite Z.gtb_ltb, trivial_ones.
  destruct (Z.ltb_spec (Z.of_nat (ones s)) (Z.of_nat (length s) - n)) as [Hl|Hl]; [eauto|].
  destruct (Z.eqb_spec (Z.of_nat (length s) - n) (Z.of_nat (ones s))) as [He|He]; [eauto|].
  set (o := Z.to_nat (Z.of_nat (length s) - n)). assert (0 < o < ones s)%nat as Ho by (unfold o; lia). clearbody o. clear - Hs Ho.
  destruct s as [|x [|y [|z [|w s]]]]; cbn [length] in Hs; try lia; cbn [ones trivial_from] in *;
    repeat match goal with |- context [Nat.eqb ?d 1] => destruct (Nat.eqb_spec d 1) as [->|] end; try lia;
    destruct o as [|[|[|o]]]; try lia; eexists; reflexivity.
Qed.

(** ** Indices *)

Lemma skipn_skipn : forall {A} x y (l : list A), skipn x (skipn y l) = skipn (x + y) l.
Proof.
  intros A x y. induction y as [|y IH]; intros l; [rewrite Nat.add_0_r; reflexivity|].
  destruct l as [|a l]; [rewrite !skipn_nil; reflexivity|]. rewrite Nat.add_succ_r. cbn [skipn]. apply IH.
Qed.
Lemma nth_error_chunks : forall n k l i, length l = (n * k)%nat -> (i < n)%nat -> nth_error (chunks n k l) i = Some (firstn k (skipn (i * k) l)).
Proof.
  induction n as [|n IH]; intros k l i Hl Hi; [lia|]. destruct i as [|i]; [reflexivity|]. cbn [chunks nth_error]. rewrite IH; [|rewrite skipn_length; lia|lia].
  rewrite skipn_skipn. do 3 f_equal. lia.
Qed.
Lemma in_indices : forall s idx, In idx (indices s) <-> Forall2 lt idx s.
Proof.
  induction s as [|n s IH]; intros idx.
  - cbn. split; [intros [<-|[]]; constructor|intros H; inversion H; auto].
  - cbn [indices]. rewrite in_flat_map. split.
    + intros (i & Hi & H). apply in_seq in Hi. apply in_map_iff in H. destruct H as (r & <- & Hr). constructor; [lia|apply IH; exact Hr].
    + intros H. inversion H as [|i n' r s' Hi Hr]; subst. exists i. split; [apply in_seq; lia|]. apply in_map. apply IH. exact Hr.
Qed.
Lemma offset_lt : forall s idx, Forall2 lt idx s -> (offset s idx < size s)%nat.
Proof.
  intros s idx H. induction H as [|i n r s Hi Hr IH]; [cbn; lia|]. cbn [offset size fold_right]. fold (size s).
  assert ((S i) * size s <= n * size s)%nat by (apply Nat.mul_le_mono_r; lia). lia.
Qed.
Lemma found_nested : forall s l idx c, length l = size s -> (forall c, In c l -> ~ a_list c) -> Forall2 lt idx s ->
  (found (nested s l) idx c <-> nth_error l (offset s idx) = Some c).
Proof.
  induction s as [|n s IH]; intros l idx c Hl Hc Hi; inversion Hi as [|i n' r s' Hin Hr]; subst.
  - destruct l as [|x [|y l]]; try discriminate Hl. cbn. split; [intros H; inversion H; reflexivity|].
    intros E. injection E as <-. apply Fd_here. apply Hc. left. reflexivity.
  - cbn [size fold_right] in Hl. fold (size s) in Hl. cbn [nested offset].
    pose proof (nth_error_chunks n (size s) l i Hl Hin) as En.
    assert (nth_error l (i * size s + offset s r) = nth_error (firstn (size s) (skipn (i * size s) l)) (offset s r)) as Eo.
    { pose proof (offset_lt s r Hr). rewrite <- (firstn_skipn (i * size s) l) at 1. rewrite nth_error_app2; rewrite firstn_length_le; try nia.
      replace (i * size s + offset s r - i * size s)%nat with (offset s r) by lia.
      rewrite <- (firstn_skipn (size s) (skipn (i * size s) l)) at 1. rewrite nth_error_app1; [reflexivity|]. rewrite firstn_length_le; [lia|]. rewrite skipn_length. nia. }
    assert (found (JList (map (nested s) (chunks n (size s) l))) (i :: r) c <-> found (nested s (firstn (size s) (skipn (i * size s) l))) r c) as X.
    { split.
      - intros H. inversion H as [|l0 i0 r0 x c0 Hx Hf]; subst. rewrite nth_error_map, En in Hx. injection Hx as <-. exact Hf.
      - intros H. eapply Fd_item; [|exact H]. rewrite nth_error_map, En. reflexivity. }
    rewrite X, Eo. apply IH; [|  |exact Hr].
    + apply (chunks_each n (size s) l _ Hl). eapply nth_error_In. exact En.
    + intros x Hx. apply Hc. apply (chunks_each n (size s) l _ Hl (nth_error_In _ _ En)). exact Hx.
Qed.

(** Nested lists are the nesting of their cells. *)
Lemma nested_cells : forall j s, rectangular j s -> nested s (cells_of j) = j.
Proof.
  intros j s H. induction H as [j Hj| |l s Hn Hx IH]; [|reflexivity|].
  - rewrite (proj2 (shape_of_cell j Hj)). reflexivity.
  - cbn [nested cells_of]. f_equal. clear Hn. induction l as [|x l IHl]; [reflexivity|]. cbn [flat_map length chunks map].
    assert (length (cells_of x) = size s) as El by (apply rectangular_size, Hx; left; reflexivity).
    rewrite <- El at 1. rewrite firstn_app, Nat.sub_diag, firstn_all, firstn_O, app_nil_r.
    rewrite (IH x (or_introl eq_refl)). f_equal. rewrite <- El at 2. rewrite skipn_app, Nat.sub_diag, skipn_all, skipn_O.
    apply IHl; intros y Hy; [apply Hx|apply IH]; right; exact Hy.
Qed.
Lemma found_cells : forall j s idx c, rectangular j s -> Forall2 lt idx s -> (found j idx c <-> nth_error (cells_of j) (offset s idx) = Some c).
Proof.
  intros j s idx c H Hi. rewrite <- (nested_cells j s H) at 1. apply found_nested; [apply rectangular_size; exact H|apply cells_not_lists|exact Hi].
Qed.

Lemma indices_nth : forall s idx, Forall2 lt idx s -> nth_error (indices s) (offset s idx) = Some idx.
Proof.
  intros s idx H. induction H as [|i n r s Hi Hr IH]; [reflexivity|]. cbn [indices offset].
  assert (forall st k, (i < k)%nat -> nth_error (flat_map (fun i => map (cons i) (indices s)) (seq st k)) (i * size s + offset s r) = Some ((st + i)%nat :: r)) as X; [|exact (X 0%nat n Hi)].
  assert (length (indices s) = size s) as Es.
  { clear. induction s as [|n s IH]; [reflexivity|]. cbn [indices size fold_right]. fold (size s). generalize 0%nat. induction n as [|n IHn]; intros z; [reflexivity|].
    cbn [seq flat_map]. rewrite app_length, map_length, IH, IHn. lia. }
  pose proof (offset_lt s r Hr) as Ho. clear Hi. induction i as [|i IHi]; intros st k Hk; (destruct k as [|k]; [lia|]); cbn [seq flat_map].
  - rewrite nth_error_app1 by (rewrite map_length; lia). rewrite nth_error_map. cbn [Nat.mul Nat.add]. rewrite IH, Nat.add_0_r. reflexivity.
  - rewrite nth_error_app2 by (rewrite map_length; nia). rewrite map_length, Es. replace (S i * size s + offset s r - size s)%nat with (i * size s + offset s r)%nat by lia.
    rewrite (IHi (S st) k) by lia. do 2 f_equal. lia.
Qed.
Lemma indices_length : forall s, length (indices s) = size s.
Proof.
  induction s as [|n s IH]; [reflexivity|]. cbn [indices size fold_right]. fold (size s). generalize 0%nat. induction n as [|n IHn]; intros z; [reflexivity|].
  cbn [seq flat_map]. rewrite app_length, map_length, IH, IHn. lia.
Qed.
Lemma forall2_rev : forall (a b : list nat), Forall2 lt a b -> Forall2 lt (rev a) (rev b).
Proof. intros a b H. induction H; [constructor|]. cbn. apply Forall2_app; [assumption|]. constructor; [assumption|constructor]. Qed.
Lemma size_rev : forall s, size (rev s) = size s.
Proof. induction s as [|d s IH]; [reflexivity|]. cbn [rev]. rewrite size_app, IH. cbn. fold (size s). lia. Qed.

Lemma transpose_wf : forall a, wf a -> wf (transpose a).
Proof.
  intros [s l] [H1 H2]. split; cbn [transpose nd_shape nd_data] in *.
  - rewrite map_length. apply indices_length.
  - intros c Hc. apply in_map_iff in Hc. destruct Hc as (idx & <- & Hi). apply H2. apply nth_In. rewrite H1. apply offset_lt. 
    rewrite <- (rev_involutive s). apply forall2_rev. apply in_indices. exact Hi.
Qed.
Lemma transpose_at : forall a idx, wf a -> Forall2 lt idx (nd_shape a) ->
  nth_error (nd_data (transpose a)) (offset (rev (nd_shape a)) (rev idx)) = nth_error (nd_data a) (offset (nd_shape a) idx).
Proof.
  intros [s l] idx [H1 H2] Hi. cbn [transpose nd_shape nd_data] in *. rewrite nth_error_map, indices_nth by (apply forall2_rev; exact Hi).
  cbn [option_map]. rewrite rev_involutive. symmetry. apply nth_error_nth'. rewrite H1. apply offset_lt. exact Hi.
Qed.
