(** * The "df" filter: proofs *)
From Coq Require Import Lia.
From Verif Require Import PyBase PyBase_Proofs Df_Model Df_Spec.

Lemma blank_spec : forall c, blank c = true <-> empty_cell c.
Proof.
  intros [|[|x s]|n]; simpl; split; intro H; try reflexivity; try discriminate;
    try (left; reflexivity); try (right; reflexivity); destruct H; discriminate.
Qed.

Lemma getitem_nat : forall A (l : list A) n, list_getitem l (Z.of_nat n) = nth_error l n.
Proof.
  intros A l n. unfold list_getitem, list_index.
  destruct (Z.leb_spec 0 (Z.of_nat n)); [|lia].
  destruct (Z.ltb_spec (Z.of_nat n) (Z.of_nat (length l))); rewrite ?Nat2Z.id; [reflexivity|].
  symmetry. apply nth_error_None. lia.
Qed.

Lemma setitem_nat : forall A (l : list A) n v, n < length l ->
  list_setitem l (Z.of_nat n) v = Some (list_update l n v).
Proof.
  intros A l n v Hn. unfold list_setitem, list_index.
  destruct (Z.leb_spec 0 (Z.of_nat n)); [|lia].
  destruct (Z.ltb_spec (Z.of_nat n) (Z.of_nat (length l))); rewrite ?Nat2Z.id; [reflexivity|lia].
Qed.

Lemma rect_row : forall w t r row, rect w t -> nth_error t r = Some row -> length row = w.
Proof.
  intros w t r row H E. unfold rect in H. rewrite Forall_forall in H.
  apply H. exact (nth_error_In _ _ E).
Qed.

Lemma rect_update : forall w t r row, rect w t -> length row = w -> rect w (list_update t r row).
Proof.
  unfold rect. induction t as [|x t IH]; intros r row H L; [exact H|].
  inversion H; subst. destruct r; simpl; constructor; auto.
Qed.

Lemma cell_of_in : forall w t r c, rect w t -> r < length t -> c < w ->
  exists v, cell_of t r c = Some v.
Proof.
  intros w t r c H Hr Hc. unfold cell_of.
  destruct (nth_error t r) as [row|] eqn:E; [|apply nth_error_None in E; lia].
  destruct (nth_error row c) as [v|] eqn:E'; [exists v; reflexivity|].
  apply nth_error_None in E'. rewrite (rect_row _ _ _ _ H E) in E'. lia.
Qed.

Lemma cell_of_bound : forall w t r c v, rect w t -> cell_of t r c = Some v -> r < length t /\ c < w.
Proof.
  intros w t r c v H E. unfold cell_of in E.
  destruct (nth_error t r) as [row|] eqn:E1; [|discriminate].
  split; [apply nth_error_Some; congruence|].
  rewrite <- (rect_row _ _ _ _ H E1). apply nth_error_Some. congruence.
Qed.

(** The column that an index means in rows of [w] cells *)
Definition means (w : nat) (z : Z) (c : nat) : Prop :=
  forall (row : list cell), length row = w -> list_index row z = Some c.

Lemma means_lt : forall w z c, means w z c -> c < w.
Proof.
  intros w z c H. specialize (H (repeat CNone w) (repeat_length _ _)).
  apply list_index_bound in H. rewrite repeat_length in H. exact H.
Qed.

Lemma means_exists : forall w z, (- Z.of_nat w <= z < Z.of_nat w)%Z -> exists c, means w z c.
Proof.
  intros w z H. destruct (Z.leb_spec 0 z).
  - exists (Z.to_nat z). intros row L. unfold list_index. rewrite L.
    destruct (Z.leb_spec 0 z); [|lia]. destruct (Z.ltb_spec z (Z.of_nat w)); [reflexivity|lia].
  - exists (Z.to_nat (Z.of_nat w + z)). intros row L. unfold list_index. rewrite L.
    destruct (Z.leb_spec 0 z); [lia|]. destruct (Z.leb_spec (- Z.of_nat w) z); [reflexivity|lia].
Qed.

Lemma means_spec : forall w z c, means w z c ->
  (z = Z.of_nat c \/ z = Z.of_nat c - Z.of_nat w)%Z.
Proof.
  intros w z c H. specialize (H (repeat CNone w) (repeat_length _ _)).
  unfold list_index in H. rewrite repeat_length in H.
  destruct (Z.leb_spec 0 z).
  - destruct (Z.ltb_spec z (Z.of_nat w)); inversion H; subst. left. lia.
  - destruct (Z.leb_spec (- Z.of_nat w) z); inversion H; subst. right. lia.
Qed.

Lemma means_back : forall w z c, c < w -> (z = Z.of_nat c \/ z = Z.of_nat c - Z.of_nat w)%Z ->
  means w z c.
Proof.
  intros w z c Hc H row L. unfold list_index. rewrite L.
  destruct (Z.leb_spec 0 z).
  - destruct (Z.ltb_spec z (Z.of_nat w)); f_equal; lia.
  - destruct (Z.leb_spec (- Z.of_nat w) z); [f_equal|]; lia.
Qed.

Lemma get_cell_nat : forall w t r z c, rect w t -> means w z c -> r < length t ->
  exists v, cell_of t r c = Some v /\ get_cell t (Z.of_nat r) z = Ok v.
Proof.
  intros w t r z c H M Hr. unfold get_cell, get, cell_of. rewrite getitem_nat.
  destruct (nth_error t r) as [row|] eqn:E; [|apply nth_error_None in E; lia]. cbn [rbind].
  destruct (list_getitem_Some _ row z c (M row (rect_row _ _ _ _ H E))) as (v & E1 & E2).
  exists v. rewrite E1. auto.
Qed.

Lemma put_cell_nat : forall w t r z c v, rect w t -> means w z c -> r < length t ->
  exists t', put_cell t (Z.of_nat r) z v = Ok t' /\ rect w t' /\ length t' = length t /\
    forall r' c', cell_of t' r' c' = if (r' =? r) && (c' =? c) then Some v else cell_of t r' c'.
Proof.
  intros w t r z c v H M Hr. unfold put_cell, get, put. rewrite getitem_nat.
  destruct (nth_error t r) as [row|] eqn:E; [|apply nth_error_None in E; lia]. cbn [rbind].
  assert (L := rect_row _ _ _ _ H E).
  unfold list_setitem at 1. rewrite (M row L). cbn [rbind]. rewrite setitem_nat by exact Hr.
  eexists; split; [reflexivity|]. split; [apply rect_update; [exact H|]; now rewrite list_update_length|].
  split; [apply list_update_length|]. intros r' c'. unfold cell_of.
  destruct (Nat.eqb_spec r' r) as [Er|Nr].
  - subst r'. rewrite nth_error_update_eq by exact Hr. rewrite E. simpl.
    destruct (Nat.eqb_spec c' c) as [Ec|Nc].
    + subst c'. apply nth_error_update_eq. rewrite L. exact (means_lt _ _ _ M).
    + apply nth_error_update_neq. congruence.
  - rewrite nth_error_update_neq by congruence. reflexivity.
Qed.

Definition blank_at (t : list (list cell)) (c r : nat) : Prop :=
  exists e, cell_of t r c = Some e /\ blank e = true.

(** What filling leaves at row [r] of column [c], begun at row [k] with [last] *)
Definition nearest (t : list (list cell)) (k r c : nat) (v : cell) : Prop :=
  exists r0, k <= r0 <= r /\ cell_of t r0 c = Some v /\ blank v = false /\
    forall r', r0 < r' <= r -> blank_at t c r'.

Lemma fill_rows_spec : forall w z c n k last t, rect w t -> means w z c -> k + n = length t ->
  exists t', fill_rows z (map Z.of_nat (seq k n)) last t = Ok t' /\ rect w t' /\
    length t' = length t /\
    (forall r' c', r' < k \/ c' <> c -> cell_of t' r' c' = cell_of t r' c') /\
    (forall r, k <= r < length t -> exists v, cell_of t' r c = Some v /\
       (nearest t k r c v \/ ((forall r', k <= r' <= r -> blank_at t c r') /\ v = last))).
Proof.
  intros w z c n. induction n as [|n IH]; intros k last t H M L.
  - exists t. simpl. repeat split; auto. intros r Hr. lia.
  - simpl. destruct (get_cell_nat w t k z c H M ltac:(lia)) as (x & Ex & Eg). rewrite Eg. cbn [rbind].
    destruct (blank x) eqn:B.
    + destruct (put_cell_nat w t k z c last H M ltac:(lia)) as (t1 & E1 & R1 & L1 & C1).
      rewrite E1. cbn [rbind].
      destruct (IH (S k) last t1 R1 M ltac:(lia)) as (t2 & E2 & R2 & L2 & Same & Fill).
      exists t2. rewrite E2. split; [reflexivity|]. split; [exact R2|]. split; [lia|].
      assert (Low : forall r' c', r' <> k \/ c' <> c -> cell_of t1 r' c' = cell_of t r' c').
      { intros r' c' D. rewrite C1. destruct (Nat.eqb_spec r' k); [|reflexivity].
        destruct (Nat.eqb_spec c' c); [destruct D; contradiction|reflexivity]. }
      split.
      { intros r' c' [D|D].
        - rewrite Same by lia. apply Low. left. lia.
        - rewrite Same by auto. apply Low. auto. }
      assert (Bk : blank_at t c k) by (exists x; auto).
      intros r Hr. destruct (Nat.eq_dec r k) as [Er|Nr].
      { subst r. exists last. split.
        - rewrite Same by lia. rewrite C1, !Nat.eqb_refl. reflexivity.
        - right. split; [|reflexivity]. intros r' Hr'. replace r' with k by lia. exact Bk. }
      destruct (Fill r ltac:(lia)) as (v & Ev & D). exists v. split; [exact Ev|].
      destruct D as [(r0 & Hr0 & Ec & Nb & Bl)|[Bl ->]].
      * left. exists r0. rewrite Low in Ec by lia. repeat split; auto; try lia.
        intros r' Hr'. destruct (Bl r' Hr') as (e & Ee & Be). exists e. rewrite Low in Ee by lia. auto.
      * right. split; [|reflexivity]. intros r' Hr'.
        destruct (Nat.eq_dec r' k) as [->|Nk]; [exact Bk|].
        destruct (Bl r' ltac:(lia)) as (e & Ee & Be). exists e. rewrite Low in Ee by lia. auto.
    + destruct (IH (S k) x t H M ltac:(lia)) as (t2 & E2 & R2 & L2 & Same & Fill).
      exists t2. rewrite E2. split; [reflexivity|]. split; [exact R2|]. split; [lia|]. split.
      { intros r' c' [D|D]; apply Same; [left; lia|auto]. }
      intros r Hr. destruct (Nat.eq_dec r k) as [Er|Nr].
      { subst r. exists x. split; [rewrite Same by lia; exact Ex|].
        left. exists k. repeat split; auto; try (intros; lia). }
      destruct (Fill r ltac:(lia)) as (v & Ev & D). exists v. split; [exact Ev|]. left.
      destruct D as [(r0 & Hr0 & Ec & Nb & Bl)|[Bl ->]].
      * exists r0. repeat split; auto; lia.
      * exists k. repeat split; auto; try lia; intros r' Hr'; apply Bl; lia.
Qed.

Lemma zrange_nat : forall o n, zrange (Z.of_nat o + 1) (Z.of_nat n) = map Z.of_nat (seq (S o) (n - S o)).
Proof.
  intros o n. unfold zrange. replace (Z.to_nat _) with (n - S o) by lia.
  generalize (n - S o) as m. intro m. rewrite <- (Nat.add_0_r (S o)). generalize 0 as i.
  induction m as [|m IH]; intro i; [reflexivity|].
  cbn [seq map]. f_equal; [lia|]. rewrite (IH (S i)). f_equal. f_equal. lia.
Qed.

(** What filling leaves, up to the kind of emptiness *)
Definition carried (t : list (list cell)) (k r c : nat) (v : cell) : Prop :=
  nearest t k r c v \/ ((forall r', k <= r' <= r -> blank_at t c r') /\ blank v = true).

Lemma fill_col_spec : forall w z c o t, rect w t -> means w z c -> o < length t ->
  exists last t', get_cell t (Z.of_nat o) z = Ok last /\
    fill_rows z (zrange (Z.of_nat o + 1) (Z.of_nat (length t))) last t = Ok t' /\ rect w t' /\
    length t' = length t /\
    (forall r' c', r' < o \/ c' <> c -> cell_of t' r' c' = cell_of t r' c') /\
    (forall r, o <= r < length t -> exists v, cell_of t' r c = Some v /\ carried t o r c v).
Proof.
  intros w z c o t H M Ho.
  destruct (get_cell_nat w t o z c H M Ho) as (x & Ex & Eg).
  rewrite zrange_nat.
  destruct (fill_rows_spec w z c (length t - S o) (S o) x t H M ltac:(lia)) as (t' & E & R & L & Same & Fill).
  exists x, t'. repeat split; auto.
  { intros r' c' [D|D]; apply Same; [left; lia|auto]. }
  intros r Hr. destruct (Nat.eq_dec r o) as [Er|Nr].
  - subst r. exists x. split; [rewrite Same by lia; exact Ex|].
    destruct (blank x) eqn:B.
    + right. split; [|exact B]. intros r' Hr'. replace r' with o by lia. exists x. auto.
    + left. exists o. repeat split; auto; try (intros; lia).
  - destruct (Fill r ltac:(lia)) as (v & Ev & D). exists v. split; [exact Ev|].
    destruct D as [(r0 & Hr0 & Ec & Nb & Bl)|[Bl Evl]].
    + left. exists r0. repeat split; auto; lia.
    + subst v. destruct (blank x) eqn:B.
      * right. split; [|exact B]. intros r' Hr'.
        destruct (Nat.eq_dec r' o) as [->|]; [exists x; auto|apply Bl; lia].
      * left. exists o. repeat split; auto; try lia; intros r' Hr'; apply Bl; lia.
Qed.

(** Filling a filled column changes nothing that matters *)
Lemma carried_again : forall t t1 o c n,
  (forall r, o <= r < n -> exists v, cell_of t1 r c = Some v /\ carried t o r c v) ->
  forall r v, o <= r < n -> carried t1 o r c v -> carried t o r c v.
Proof.
  intros t t1 o c n F r v Hr [(r0 & Hr0 & Ec & Nb & Bl)|[Bl Bv]].
  - destruct (F r0 ltac:(lia)) as (v0 & E0 & C0). rewrite Ec in E0. injection E0 as <-.
    destruct C0 as [(r1 & Hr1 & E1 & _ & Bl1)|[_ Bv]]; [|congruence].
    destruct (Nat.eq_dec r0 r) as [Er|Nr].
    + subst r0. left. exists r1. auto.
    + exfalso. destruct (F (S r0) ltac:(lia)) as (v2 & E2 & C2).
      destruct (Bl (S r0) ltac:(lia)) as (e & Ee & Be). rewrite E2 in Ee. injection Ee as ->.
      destruct C2 as [(r2 & _ & _ & Nb2 & _)|[Bl2 _]]; [congruence|].
      destruct (Bl2 r1 ltac:(lia)) as (e1 & Ee1 & Be1). congruence.
  - destruct (F r Hr) as (v0 & E0 & C0).
    destruct (Bl r ltac:(lia)) as (e & Ee & Be). rewrite E0 in Ee. injection Ee as ->.
    destruct C0 as [(r1 & _ & _ & Nb & _)|[Bl0 _]]; [congruence|].
    right. auto.
Qed.

Lemma carried_ext : forall t t1 k r c v, (forall r', cell_of t1 r' c = cell_of t r' c) ->
  carried t1 k r c v -> carried t k r c v.
Proof.
  intros t t1 k r c v E [(r0 & Hr0 & Ec & Nb & Bl)|[Bl Bv]].
  - left. exists r0. rewrite E in Ec. repeat split; auto; try lia.
    intros r' Hr'. destruct (Bl r' Hr') as (e & Ee & Be). exists e. rewrite E in Ee. auto.
  - right. split; [|exact Bv]. intros r' Hr'. destruct (Bl r' Hr') as (e & Ee & Be).
    exists e. rewrite E in Ee. auto.
Qed.

Lemma fill_cols_spec : forall w o cols t, rect w t -> columns_exist w cols -> o < length t ->
  exists t', fill_cols (Z.of_nat o) cols t = Ok t' /\ rect w t' /\ length t' = length t /\
    (forall r c, ~ (o <= r /\ index_column w cols c) -> cell_of t' r c = cell_of t r c) /\
    (forall r c, o <= r < length t -> c < w -> index_column w cols c ->
       exists v, cell_of t' r c = Some v /\ carried t o r c v).
Proof.
  intros w o cols. induction cols as [|z cols IH]; intros t H X Ho.
  - exists t. simpl. repeat split; auto. intros r c _ _ [[]|[]].
  - inversion X as [|? ? Hz X']; subst. destruct (means_exists w z Hz) as (ci & M).
    destruct (fill_col_spec w z ci o t H M Ho) as (last & t1 & Eg & E1 & R1 & L1 & Same1 & Fill1).
    destruct (IH t1 R1 X' ltac:(lia)) as (t2 & E2 & R2 & L2 & Same2 & Fill2).
    exists t2. simpl. rewrite Eg. cbn [rbind]. rewrite E1. cbn [rbind].
    split; [exact E2|]. split; [exact R2|]. split; [lia|].
    assert (Z0 : index_column w (z :: cols) ci).
    { destruct (means_spec _ _ _ M) as [->| ->]; [left|right]; left; reflexivity. }
    assert (Up : forall c, index_column w cols c -> index_column w (z :: cols) c).
    { intros c [D|D]; [left|right]; right; exact D. }
    split.
    + intros r c N. rewrite Same2.
      * apply Same1. destruct (Nat.ltb_spec r o); [left; lia|]. right. intros ->.
        apply N. auto.
      * intros [Hr D]. apply N. auto.
    + intros r c Hr Hc D.
      assert (Dec : index_column w cols c \/ ~ index_column w cols c).
      { unfold index_column.
        destruct (in_dec Z.eq_dec (Z.of_nat c) cols); [left; auto|].
        destruct (in_dec Z.eq_dec (Z.of_nat c - Z.of_nat w)%Z cols); [left; auto|right; tauto]. }
      destruct Dec as [Dc|Nc].
      * destruct (Fill2 r c ltac:(lia) Hc Dc) as (v & Ev & Cv). exists v. split; [exact Ev|].
        destruct (Nat.eq_dec c ci) as [->|Ni].
        -- exact (carried_again t t1 o ci (length t) Fill1 r v Hr Cv).
        -- refine (carried_ext t t1 o r c v _ Cv). intro r'. apply Same1. auto.
      * assert (c = ci).
        { assert (M' : means w z c).
          { apply means_back; [exact Hc|]. destruct D as [[D|D]|[D|D]]; auto; exfalso; apply Nc;
              [left|right]; exact D. }
          specialize (M (repeat CNone w) (repeat_length _ _)).
          specialize (M' (repeat CNone w) (repeat_length _ _)). congruence. }
        subst c. destruct (Fill1 r Hr) as (v & Ev & Cv). exists v. split; [|exact Cv].
        rewrite Same2; [exact Ev|]. intros [_ D']. exact (Nc D').
Qed.

Lemma cell_of_map : forall t r c, cell_of (map (map no_none) t) r c = option_map no_none (cell_of t r c).
Proof.
  intros t r c. unfold cell_of. rewrite nth_error_map.
  destruct (nth_error t r) as [row|]; [|reflexivity]. simpl. apply nth_error_map.
Qed.

Lemma shown_no_none : forall c, shown c (no_none c).
Proof.
  intros [|[|x s]|n]; [left|left|right|right]; split; try reflexivity;
    try (left; reflexivity); try (right; reflexivity); intros [E|E]; discriminate.
Qed.

Lemma carried_stands : forall t k r c v, k <= r -> carried t k r c v -> stands_for t k r c (no_none v).
Proof.
  intros t k r c v Hk D.
  assert (Bl : forall r', blank_at t c r' -> exists e, cell_of t r' c = Some e /\ empty_cell e).
  { intros r' (e & Ee & Be). exists e. split; [exact Ee|]. apply blank_spec. exact Be. }
  destruct D as [(r0 & Hr0 & Ec & Nb & B)|[B Bv]].
  - replace (no_none v) with v by (destruct v; [discriminate|reflexivity|reflexivity]).
    apply (Nearest t k r c r0); auto. intro Ee. apply blank_spec in Ee. congruence.
  - replace (no_none v) with (CStr []).
    + apply NoneAbove. auto.
    + destruct v as [|[|x s]|n]; try reflexivity; discriminate.
Qed.

Lemma fill_index_spec : forall w o header cols t, rect w t -> columns_exist w cols ->
  data_offset header = Ok (Z.of_nat o) ->
  exists t', fill_index header (RList cols) t = Ok t' /\
    index_filled w o cols t (map (map no_none) t').
Proof.
  intros w o header cols t H X E. unfold fill_index. rewrite E. cbn [rbind].
  assert (R' : forall u, rect w u -> rect w (map (map no_none) u)).
  { intros u Hu. unfold rect in *. rewrite Forall_map. refine (Forall_impl _ _ Hu).
    intros row L. rewrite map_length. exact L. }
  destruct (Z.ltb_spec (Z.of_nat o) (Z.of_nat (length t))) as [Lt|Ge].
  - destruct (fill_cols_spec w o cols t H X ltac:(lia)) as (t' & E' & R & L & Same & Fill).
    exists t'. split; [exact E'|]. split; [rewrite map_length; exact L|]. split; [auto|].
    intros r c Hr Hc. rewrite cell_of_map.
    assert (Dec : (o <= r /\ index_column w cols c) \/ ~ (o <= r /\ index_column w cols c)).
    { unfold index_column.
      destruct (Nat.leb_spec o r); [|right; lia].
      destruct (in_dec Z.eq_dec (Z.of_nat c) cols); [left; auto|].
      destruct (in_dec Z.eq_dec (Z.of_nat c - Z.of_nat w)%Z cols); [left; auto|right; tauto]. }
    destruct Dec as [[Ho D]|N].
    + destruct (Fill r c ltac:(lia) Hc D) as (v & Ev & Cv). exists (no_none v).
      rewrite Ev. split; [reflexivity|]. split; [|intro N; exfalso; auto].
      intros _. exact (carried_stands _ _ _ _ _ Ho Cv).
    + rewrite (Same r c N). destruct (cell_of_in w t r c H Hr Hc) as (v & Ev). rewrite Ev.
      exists (no_none v). split; [reflexivity|]. split; [intro D; exfalso; auto|].
      intros _. exists v. split; [reflexivity|apply shown_no_none].
  - exists t. split; [reflexivity|]. split; [apply map_length|]. split; [auto|].
    intros r c Hr Hc. rewrite cell_of_map.
    destruct (cell_of_in w t r c H Hr Hc) as (v & Ev). rewrite Ev.
    exists (no_none v). split; [reflexivity|]. split; [intros [Ho _]; lia|].
    intros _. exists v. split; [reflexivity|apply shown_no_none].
Qed.

Lemma index_data_filled : forall w o cols t t1 t', length t1 = length t ->
  (forall r, o <= r -> nth_error t1 r = nth_error t r) ->
  index_filled w o cols t1 t' -> data_filled w o cols t t'.
Proof.
  intros w o cols t t1 t' L Same (L' & R & F). split; [lia|].
  assert (C : forall r c, o <= r -> cell_of t1 r c = cell_of t r c).
  { intros r c Hr. unfold cell_of. rewrite Same by exact Hr. reflexivity. }
  intros r c Hr Hc. destruct (F r c ltac:(lia) Hc) as (v & Ev & D1 & D2).
  exists v. split; [exact Ev|]. split.
  - intro D. destruct (D1 (conj (proj1 Hr) D)) as [r0 v Hr0 Ec Ne Bl|Bl].
    + apply (Nearest t o r c r0); auto; [rewrite <- C by lia; exact Ec|].
      intros r' Hr'. destruct (Bl r' Hr') as (e & Ee & Em). exists e. rewrite C in Ee by lia. auto.
    + apply NoneAbove. intros r' Hr'. destruct (Bl r' Hr') as (e & Ee & Em). exists e.
      rewrite C in Ee by lia. auto.
  - intro N. destruct D2 as (c0 & Ec & Sh); [intros [_ D]; exact (N D)|].
    exists c0. rewrite C in Ec by lia. auto.
Qed.

Lemma fold_max_ge : forall l z, (z <= fold_left Z.max l z)%Z /\ Forall (fun x => x <= fold_left Z.max l z)%Z l.
Proof.
  induction l as [|x l IH]; intro z; simpl; [split; [lia|constructor]|].
  destruct (IH (Z.max z x)) as [H1 H2]. split; [lia|]. constructor; [lia|exact H2].
Qed.

Lemma fold_max_in : forall l z, fold_left Z.max l z = z \/ In (fold_left Z.max l z) l.
Proof.
  induction l as [|x l IH]; intro z; simpl; [auto|].
  destruct (IH (Z.max z x)) as [E|H]; [|auto].
  rewrite E. destruct (Z.max_spec z x) as [[_ ->]|[_ ->]]; auto.
Qed.

Section Headers.
  Variable fill_mi_header : list cell -> list bool -> res (list cell * list bool).
  Variable pop_header_name : list cell -> rows_arg -> res (cell * list cell).

  Lemma put_nat : forall A (l : list A) n v l', put l (Z.of_nat n) v = Ok l' ->
    l' = list_update l n v /\ n < length l.
  Proof.
    intros A l n v l' E. unfold put in E.
    destruct (Nat.ltb_spec n (length l)) as [H|H].
    - rewrite setitem_nat in E by exact H. injection E as <-. auto.
    - unfold list_setitem, list_index in E. destruct (Z.leb_spec 0 (Z.of_nat n)); [|lia].
      destruct (Z.ltb_spec (Z.of_nat n) (Z.of_nat (length l))); [lia|discriminate].
  Qed.

  Lemma fill_headers_spec : forall w idx skip hs control names t t' names',
    (forall row ctl row' ctl', fill_mi_header row ctl = Ok (row', ctl') -> length row' = length row) ->
    (forall row i name row', pop_header_name row i = Ok (name, row') -> length row' = length row) ->
    (match skip with RInt _ => False | _ => True end) ->
    rect w t -> fill_headers fill_mi_header pop_header_name idx skip (map Z.of_nat hs) control names t
                = Ok (t', names') ->
    rect w t' /\ length t' = length t /\ (forall r, ~ In r hs -> nth_error t' r = nth_error t r) /\
    (idx <> RNone -> length names' = length names + length hs).
  Proof.
    intros w idx skip hs. induction hs as [|h hs IH]; intros control names t t' names' F P K H E.
    - simpl in E. injection E as <- <-. simpl. repeat split; auto.
    - cbn [fill_headers map] in E.
      replace (match skip with RInt z => (Z.of_nat h + z)%Z | _ => Z.of_nat h end) with (Z.of_nat h) in E
        by (destruct skip; [reflexivity|reflexivity|contradiction|reflexivity]).
      unfold get at 1 in E. rewrite getitem_nat in E.
      destruct (nth_error t h) as [row|] eqn:Er; [|discriminate]. cbn [rbind] in E.
      destruct (fill_mi_header row control) as [[row' control']|] eqn:Ef; [|discriminate]. cbn [rbind] in E.
      destruct (put t (Z.of_nat h) row') as [t1|] eqn:E1; [|discriminate]. cbn [rbind] in E.
      destruct (put_nat _ _ _ _ _ E1) as [-> Hh].
      assert (L1 := rect_row _ _ _ _ H Er). assert (L2 := F _ _ _ _ Ef).
      assert (R1 : rect w (list_update t h row')) by (apply rect_update; [exact H|lia]).
      assert (Step : forall t2 nm, rect w t2 -> length t2 = length t ->
         (forall r, r <> h -> nth_error t2 r = nth_error t r) ->
         fill_headers fill_mi_header pop_header_name idx skip (map Z.of_nat hs) control' nm t2 = Ok (t', names') ->
         rect w t' /\ length t' = length t /\ (forall r, ~ In r (h :: hs) -> nth_error t' r = nth_error t r) /\
         (idx <> RNone -> length names' = length nm + length hs)).
      { intros t2 nm R2 L S2 E2. destruct (IH control' nm t2 t' names' F P K R2 E2) as (A & B & C & D).
        split; [exact A|]. split; [lia|]. split; [|exact D].
        intros r N. rewrite C by (intro; apply N; right; assumption).
        apply S2. intros ->. apply N. left. reflexivity. }
      assert (S1 : forall r, r <> h -> nth_error (list_update t h row') r = nth_error t r).
      { intros r N. apply nth_error_update_neq. congruence. }
      assert (Pop : forall i, i = idx ->
        (do (name, r'') <- pop_header_name row' i; do data'' <- put (list_update t h row') (Z.of_nat h) r'';
         fill_headers fill_mi_header pop_header_name i skip (map Z.of_nat hs) control' (names ++ [name]) data'')
        = Ok (t', names') ->
        rect w t' /\ length t' = length t /\ (forall r, ~ In r (h :: hs) -> nth_error t' r = nth_error t r) /\
        (idx <> RNone -> length names' = length names + length (h :: hs))).
      { intros i -> E2.
        destruct (pop_header_name row' idx) as [[name row'']|] eqn:Ep; [|discriminate]. cbn [rbind] in E2.
        destruct (put (list_update t h row') (Z.of_nat h) row'') as [t2|] eqn:E3; [|discriminate].
        cbn [rbind] in E2. destruct (put_nat _ _ _ _ _ E3) as [-> _].
        assert (L3 := P _ _ _ _ Ep).
        destruct (Step (list_update (list_update t h row') h row'') (names ++ [name])) as (A & B & C & D); auto.
        - apply rect_update; [exact R1|lia].
        - rewrite !list_update_length. reflexivity.
        - intros r N. rewrite nth_error_update_neq by congruence. auto.
        - repeat split; auto. intro N. rewrite (D N), app_length. simpl. lia. }
      destruct idx as [|b|z|l]; [|exact (Pop _ eq_refl E)|exact (Pop _ eq_refl E)|exact (Pop _ eq_refl E)].
      destruct (Step (list_update t h row') names R1 (list_update_length _ _ _ _) S1 E) as (A & B & C & D).
      repeat split; auto. intro N. congruence.
  Qed.

  Lemma prepare_list : forall w h hs cols skip t t' names,
    hs <> [] ->
    (forall row ctl row' ctl', fill_mi_header row ctl = Ok (row', ctl') -> length row' = length row) ->
    (forall row i name row', pop_header_name row i = Ok (name, row') -> length row' = length row) ->
    (match skip with RInt _ => False | _ => True end) ->
    rect w t -> columns_exist w cols -> (forall x, In x hs -> x <= h) -> In h hs ->
    prepare fill_mi_header pop_header_name (RList (map Z.of_nat hs)) (RList cols) skip t = Ok (t', names) ->
    2 <= length hs ->
    data_filled w (S h) cols t t' /\ length names = length hs.
  Proof.
    intros w h hs cols skip t t' names N0 F P K H X Mx In_h E L2. unfold prepare in E.
    assert (Sg : single_header (RList (map Z.of_nat hs)) = RList (map Z.of_nat hs)).
    { destruct hs as [|a [|b hs]]; [reflexivity|simpl in L2; lia|reflexivity]. }
    rewrite Sg in E. unfold do_headers in E.
    destruct (get t 0) as [r0|]; [|discriminate]. cbn [rbind] in E.
    destruct (fill_headers _ _ _ _ _ _ _ _) as [[t1 nm]|] eqn:E1 in E; [|discriminate]. cbn [rbind] in E.
    destruct (fill_headers_spec w _ _ _ _ _ _ _ _ F P K H E1) as (R1 & L1 & S1 & Ln).
    assert (Off : data_offset (RList (map Z.of_nat hs)) = Ok (Z.of_nat (S h))).
    { unfold data_offset, py_max. destruct hs as [|a l]; [congruence|]. cbn [map rbind].
      f_equal. enough (fold_left Z.max (map Z.of_nat l) (Z.of_nat a) = Z.of_nat h) by lia.
      destruct (fold_max_ge (map Z.of_nat l) (Z.of_nat a)) as [G1 G2].
      assert (G3 : (fold_left Z.max (map Z.of_nat l) (Z.of_nat a) <= Z.of_nat h)%Z).
      { destruct (fold_max_in (map Z.of_nat l) (Z.of_nat a)) as [->|I].
        - assert (a <= h) by (apply Mx; left; reflexivity). lia.
        - apply in_map_iff in I. destruct I as (x & <- & I). assert (x <= h) by (apply Mx; right; exact I). lia. }
      destruct In_h as [->|I]; [lia|].
      rewrite Forall_forall in G2. specialize (G2 (Z.of_nat h) (in_map _ _ _ I)). lia. }
    destruct (fill_index_spec w (S h) _ cols t1 R1 X Off) as (t2 & E2 & Fl).
    rewrite E2 in E. cbn [rbind] in E. injection E as <- <-. split.
    - apply (index_data_filled w (S h) cols t t1); auto. intros r Hr. apply S1.
      intro I. apply Mx in I. lia.
    - rewrite Ln by discriminate. reflexivity.
  Qed.
End Headers.

(** ** Headers of many rows *)
Definition starts (row : list cell) (ctl : list bool) (i : nat) : Prop :=
  nth_error ctl i = Some false \/ exists c, nth_error row i = Some c /\ ~ empty_cell c.
Lemma fill_mi_cells_spec : forall row last ctl, length ctl = length row ->
  exists row' ctl', fill_mi_cells last row ctl = Ok (row', ctl') /\ length row' = length row /\ length ctl' = length row /\
    (forall i, nth_error ctl' i = Some false <-> starts row ctl i) /\
    forall i, i < length row ->
      (forall j, j <= i -> starts row ctl j -> (forall j', j < j' <= i -> ~ starts row ctl j') -> nth_error row' i = nth_error row j) /\
      ((forall j', j' <= i -> ~ starts row ctl j') -> nth_error row' i = Some last).
Proof.
  induction row as [|c row IH]; intros last [|k ctl] L; try discriminate L.
  - exists [], []. repeat split; auto; try (intros [X|(x & X & _)]; destruct i; discriminate X); try (destruct i; discriminate); simpl in *; lia.
  - injection L as L. cbn [fill_mi_cells].
    assert (S0 : starts (c :: row) (k :: ctl) 0 <-> k = false \/ ~ empty_cell c).
    { unfold starts. cbn [nth_error]. split; intros [X|X]; [left; congruence|right; destruct X as (x & X & Y); injection X as ->; exact Y|left; congruence|right; eauto]. }
    assert (SS : forall i, starts (c :: row) (k :: ctl) (S i) <-> starts row ctl i) by (intros i; reflexivity).
    set (last' := if blank c then if k then last else c else c).
    assert (E0 : (let '(c0, open, last0) := if blank c then (if k then last else c, k, if k then last else c) else (c, false, c) in
      do (row', control') <- fill_mi_cells last0 row ctl; Ok (c0 :: row', open :: control')) =
      (do (row', control') <- fill_mi_cells last' row ctl; Ok (last' :: row', (k && blank c) :: control'))).
    { unfold last'. destruct (blank c), k; reflexivity. }
    change (exists row' ctl', (let '(c0, open, last0) := if blank c then (if k then last else c, k, if k then last else c) else (c, false, c) in
      do (row', control') <- fill_mi_cells last0 row ctl; Ok (c0 :: row', open :: control')) = Ok (row', ctl') /\ length row' = length (c :: row) /\ length ctl' = length (c :: row) /\
      (forall i, nth_error ctl' i = Some false <-> starts (c :: row) (k :: ctl) i) /\
      forall i, i < length (c :: row) ->
      (forall j, j <= i -> starts (c :: row) (k :: ctl) j -> (forall j', j < j' <= i -> ~ starts (c :: row) (k :: ctl) j') -> nth_error row' i = nth_error (c :: row) j) /\
      ((forall j', j' <= i -> ~ starts (c :: row) (k :: ctl) j') -> nth_error row' i = Some last)).
    rewrite E0. destruct (IH last' ctl L) as (row' & ctl' & -> & L1 & L2 & H1 & H2). cbn [rbind]. do 2 eexists. split; [reflexivity|].
    assert (A : starts (c :: row) (k :: ctl) 0 -> last' = c).
    { intros X. apply S0 in X. unfold last'. destruct (blank c) eqn:B; [|reflexivity]. destruct k; [|reflexivity]. apply blank_spec in B. destruct X; [discriminate|contradiction]. }
    assert (B : ~ starts (c :: row) (k :: ctl) 0 -> last' = last).
    { intros X. rewrite S0 in X. unfold last'. destruct (blank c) eqn:B; [destruct k; [reflexivity|destruct X; left; reflexivity]|].
      destruct X. right. rewrite <- blank_spec, B. discriminate. }
    split; [cbn; congruence|]. split; [cbn; congruence|]. split.
    + intros [|i]; [|cbn [nth_error]; rewrite SS; apply H1]. cbn [nth_error]. rewrite S0, <- blank_spec. destruct k, (blank c); cbn; split; intros X; try reflexivity; try discriminate X;
        try (left; reflexivity); try (right; discriminate); destruct X as [X|X]; [discriminate X|destruct X; reflexivity].
    + intros [|i] I.
      * split.
        -- intros j J X _. replace j with 0 in * by lia. cbn [nth_error]. f_equal. exact (A X).
        -- intros X. cbn [nth_error]. f_equal. exact (B (X 0 (le_n _))).
      * cbn [length] in I. destruct (H2 i ltac:(lia)) as (H3 & H4). split.
        -- intros [|j] J X Y; cbn [nth_error].
           ++ rewrite H4; [f_equal; exact (A X)|]. intros j' J' Z. apply (Y (S j')); [lia|]. apply SS. exact Z.
           ++ apply H3; [lia|apply SS; exact X|]. intros j' J' Z. apply (Y (S j')); [lia|]. apply SS. exact Z.
        -- intros X. cbn [nth_error]. rewrite H4; [f_equal; exact (B (X 0 ltac:(lia)))|]. intros j' J' Z. apply (X (S j')); [lia|]. apply SS. exact Z.
Qed.
Lemma pandas_fill_spec : forall row ctl, row <> [] -> length ctl = length row ->
  exists row' ctl', pandas_fill_mi_header row ctl = Ok (row', ctl') /\ length row' = length row /\ length ctl' = length row /\
    (forall i, nth_error ctl' (S i) = Some false <-> starts row ctl (S i)) /\
    forall i j, i < length row -> j <= i -> j = 0 \/ starts row ctl j -> (forall j', j < j' <= i -> ~ starts row ctl j') -> nth_error row' i = nth_error row j.
Proof.
  intros [|c row] [|k ctl] N L; try congruence; try discriminate L. injection L as L. cbn [pandas_fill_mi_header tl firstn app].
  destruct (fill_mi_cells_spec row c ctl L) as (row' & ctl' & -> & L1 & L2 & H1 & H2). cbn [rbind]. do 2 eexists. split; [reflexivity|].
  split; [cbn; congruence|]. split; [cbn; congruence|]. split; [exact H1|]. intros [|i] j I J X Y.
  - replace j with 0 by lia. reflexivity.
  - cbn [length] in I. destruct (H2 i ltac:(lia)) as (H3 & H4). cbn [nth_error]. destruct j as [|j]; cbn [nth_error].
    + apply H4. intros j' J' Z. apply (Y (S j')); [lia|exact Z].
    + destruct X as [X|X]; [discriminate X|]. apply H3; [lia|exact X|]. intros j' J' Z. apply (Y (S j')); [lia|exact Z].
Qed.

(** The control row after the rows [pre] *)
Definition closed_at (t : list (list cell)) (pre : list nat) (w : nat) (ctl : list bool) : Prop :=
  length ctl = w /\ forall c, 0 < c -> nth_error ctl c = Some false <-> exists r v, In r pre /\ cell_of t r c = Some v /\ ~ empty_cell v.
Lemma fill_headers_cells : forall pop skip w t, 0 < w -> rect w t -> (match skip with RInt _ => False | _ => True end) ->
  forall hs pre ctl names t1, NoDup (pre ++ hs) -> Forall (fun r => r < length t) hs -> closed_at t pre w ctl ->
  length t1 = length t -> rect w t1 -> (forall r, ~ In r pre -> nth_error t1 r = nth_error t r) ->
  exists t', fill_headers pandas_fill_mi_header pop RNone skip (map Z.of_nat hs) ctl names t1 = Ok (t', names) /\ length t' = length t /\ rect w t' /\
    (forall r, ~ In r hs -> nth_error t' r = nth_error t1 r) /\
    forall a r b c c0, hs = a ++ r :: b -> c < w -> header_column t (pre ++ a ++ [r]) c c0 -> cell_of t' r c = cell_of t r c0.
Proof.
  intros pop skip w t W R K. induction hs as [|h hs IH]; intros pre ctl names t1 N F (C1 & C2) L1 R1 S1.
  - exists t1. cbn [map fill_headers]. split; [reflexivity|]. split; [exact L1|]. split; [exact R1|]. split; [reflexivity|]. intros [|] ? ? ? ? X; discriminate X.
  - inversion F as [|x l F1 F2]; subst. cbn [map fill_headers].
    replace (match skip with RInt z => (Z.of_nat h + z)%Z | _ => Z.of_nat h end) with (Z.of_nat h) by (destruct skip; try reflexivity; contradiction).
    assert (NI : ~ In h pre) by (apply NoDup_remove_2 in N; intros X; apply N; apply in_or_app; auto).
    assert (Eh : nth_error t1 h = nth_error t h) by (apply S1; exact NI).
    destruct (nth_error t h) as [row|] eqn:Er. 2: { apply nth_error_None in Er. lia. }
    pose proof (rect_row _ _ _ _ R Er) as Lr. unfold get. rewrite getitem_nat, Eh. cbn [rbind].
    destruct (pandas_fill_spec row ctl) as (row' & ctl' & -> & Lr' & Lc' & P1 & P2). { intros ->. cbn in Lr. lia. } { congruence. }
    cbn [rbind]. unfold put. rewrite setitem_nat by lia. cbn [rbind].
    assert (CR : forall c, cell_of t h c = nth_error row c) by (intros c; unfold cell_of; rewrite Er; reflexivity).
    assert (ST : forall c, 0 < c -> starts row ctl c <-> exists r v, In r (pre ++ [h]) /\ cell_of t r c = Some v /\ ~ empty_cell v).
    { intros c Pc. unfold starts. rewrite C2 by exact Pc. split.
      - intros [(r & v & I & X)|(v & X & Y)]; [exists r, v; split; [apply in_or_app; auto|exact X]|]. exists h, v. split; [apply in_or_app; right; left; reflexivity|]. rewrite CR. auto.
      - intros (r & v & I & X). apply in_app_or in I. destruct I as [I|[<-|[]]]; [left; eauto|]. rewrite CR in X. right. eauto. }
    destruct (IH (pre ++ [h]) ctl' names (list_update t1 h row')) as (t' & E & L' & R' & S' & H').
    + rewrite <- app_assoc. exact N.
    + exact F2.
    + split; [congruence|]. intros [|c] Pc; [lia|]. rewrite P1. apply ST. exact Pc.
    + rewrite list_update_length. exact L1.
    + apply rect_update; [exact R1|congruence].
    + intros r I. rewrite nth_error_update_neq. { apply S1. intros X. apply I. apply in_or_app. auto. } intros ->. apply I. apply in_or_app. right. left. reflexivity.
    + exists t'. split; [exact E|]. split; [exact L'|]. split; [exact R'|].
      assert (NH : ~ In h hs) by (apply NoDup_remove_2 in N; intros X; apply N; apply in_or_app; auto). split.
      * intros r I. rewrite S' by (intros X; apply I; right; exact X). apply nth_error_update_neq. intros ->. apply I. left. reflexivity.
      * intros [|x a] r b c c0 X Hc HC; injection X as -> ->.
        -- cbn [app] in HC. unfold cell_of at 1. rewrite (S' r NH). rewrite nth_error_update_eq by lia. destruct HC as (HC1 & HC2 & HC3).
           rewrite CR. apply P2; [lia|exact HC1| |].
           ++ destruct HC2 as [X|X]; [left; exact X|]. destruct c0; [left; reflexivity|]. right. apply ST; [lia|]. exact X.
           ++ intros j J X. apply (HC3 j J). right. apply ST; [lia|exact X].
        -- apply (H' a r b c c0 eq_refl Hc). rewrite <- app_assoc. exact HC.
Qed.
