(** * Reading sheets: the properties *)
From Coq Require Import String QArith.
From Verif Require Import PyBase PyBase_Proofs Coords_Model Capture_Model Capture_Spec Target_Proofs Sheets_Model ReadRect_Model ReadRect_Spec.
Open Scope Z_scope.

(** ** Lemmas *)
Lemma np_index_spec : forall n z i, np_index n z = Some i <-> position n z i.
Proof.
  intros n z i. unfold np_index, position. destruct (Z.leb_spec 0 z).
  - destruct (Z.ltb_spec z (Z.of_nat n)); split; intros E; try discriminate E.
    + injection E as <-. lia.
    + f_equal. lia.
    + lia.
  - destruct (Z.leb_spec (- Z.of_nat n) z); split; intros E; try discriminate E.
    + injection E as <-. lia.
    + f_equal. lia.
    + lia.
Qed.
Lemma np_index_inside : forall n z, 0 <= z < Z.of_nat n -> np_index n z = Some (Z.to_nat z).
Proof. intros n z H. apply np_index_spec. unfold position. lia. Qed.
Lemma np_index_beyond : forall n z, Z.of_nat n <= z -> np_index n z = None.
Proof.
  intros n z H. destruct (np_index n z) as [i|] eqn:E; [|reflexivity]. apply np_index_spec in E. unfold position in E. lia.
Qed.

Lemma slice_between : forall n a b, 0 <= a -> 0 <= b ->
  slice n (Some a) (Some b) = seq (Nat.min (Z.to_nat a) n) (Z.to_nat (Z.min b (Z.of_nat n) - a)).
Proof. intros n a b Ha Hb. unfold slice. rewrite !slice_pos_pos by lia. f_equal. lia. Qed.

Lemma slice_nth : forall n a b i x, 0 <= a -> 0 <= b -> nth_error (slice n (Some a) (Some b)) i = Some x ->
  Z.of_nat x = a + Z.of_nat i /\ (x < n)%nat.
Proof.
  intros n a b i x Ha Hb H. rewrite slice_between in H by assumption.
  assert (i < Z.to_nat (Z.min b (Z.of_nat n) - a))%nat as Hi.
  { assert (nth_error (seq (Nat.min (Z.to_nat a) n) (Z.to_nat (Z.min b (Z.of_nat n) - a))) i <> None) as F by congruence.
    apply nth_error_Some in F. now rewrite seq_length in F. }
  rewrite (nth_error_nth' _ 0%nat) in H by (now rewrite seq_length). rewrite seq_nth in H by exact Hi. injection H as <-. lia.
Qed.

Lemma zrange_length : forall a b, length (zrange a b) = Z.to_nat (b - a).
Proof. intros a b. unfold zrange. now rewrite map_length, seq_length. Qed.
Lemma zrange_nth : forall a b i x, nth_error (zrange a b) i = Some x -> x = a + Z.of_nat i.
Proof.
  intros a b i x H. assert (i < Z.to_nat (b - a))%nat as Hi.
  { rewrite <- zrange_length. apply nth_error_Some. congruence. }
  unfold zrange in H. rewrite nth_error_map in H. rewrite (nth_error_nth' _ 0%nat) in H by (now rewrite seq_length).
  rewrite seq_nth in H by exact Hi. cbn in H. now injection H as <-.
Qed.
Lemma zrange_in : forall a b x, In x (zrange a b) <-> a <= x < b.
Proof.
  intros a b x. unfold zrange. rewrite in_map_iff. split.
  - intros (i & <- & H). apply in_seq in H. lia.
  - intros H. exists (Z.to_nat (x - a)). split; [lia|]. apply in_seq. lia.
Qed.

Lemma rmap_nth : forall A B (f : A -> res B) l bs, rmap f l = Ok bs -> length bs = length l
  /\ forall i b, nth_error bs i = Some b -> exists a, nth_error l i = Some a /\ f a = Ok b.
Proof.
  intros A B f l. induction l as [|a l IH]; cbn; intros bs H.
  - injection H as <-. split; [reflexivity|]. intros [|i] b F; discriminate.
  - destruct (f a) as [b|e] eqn:E; [|discriminate]. cbn [rbind] in H. destruct (rmap f l) as [bs'|e] eqn:F; [|discriminate].
    cbn [rbind] in H. injection H as <-. destruct (IH _ eq_refl) as (H1 & H2). split; [cbn; now rewrite H1|].
    intros [|i] b' G; cbn in G; [injection G as <-; exists a; auto | exact (H2 _ _ G)].
Qed.
Lemma rmap_all : forall A B (f : A -> res B) l, (forall a, In a l -> exists b, f a = Ok b) -> exists bs, rmap f l = Ok bs.
Proof.
  intros A B f l. induction l as [|a l IH]; intros H; [exists []; reflexivity|]. cbn.
  destruct (H a (or_introl eq_refl)) as (b & ->). cbn [rbind].
  destruct IH as (bs & ->); [intros x Hx; apply H; now right|]. cbn. eauto.
Qed.
Lemma rmap_raise : forall A B (f : A -> res B) e l a, (forall x e', In x l -> f x = Raise e' -> e' = e) -> In a l -> f a = Raise e -> rmap f l = Raise e.
Proof.
  intros A B f e l a. induction l as [|x l IH]; intros H Ha Hf; [destruct Ha|]. cbn.
  destruct (f x) as [b|e'] eqn:E; cbn [rbind].
  - destruct Ha as [->|Ha]; [congruence|]. rewrite IH; [reflexivity| |exact Ha | exact Hf]. intros y e' Hy. apply H. now right.
  - f_equal. apply (H x e'); [now left | exact E].
Qed.

(** ** C39: reading a rect *)
Section Array.
  Context {V : Type}.
  Variable a : array V.
  Hypothesis Ha : (0 < a_rows a)%nat /\ (0 < a_cols a)%nat.

  Lemma has_size_true : has_size a = true.
  Proof. unfold has_size. apply negb_true_iff, Nat.eqb_neq. nia. Qed.

  (** What is read are the cells of the rect that lie in the sheet. *)
  Theorem C39_array_clipped : forall st nd, sorted_rect st nd ->
    exists t, array_read_rect a st (Some nd) = Ok (Table t)
      /\ placed (array_cell a) st (Z.max (fst st - 1) (Z.min (fst nd) (Z.of_nat (a_rows a) - 1)),
                                   Z.max (snd st - 1) (Z.min (snd nd) (Z.of_nat (a_cols a) - 1))) t.
  Proof.
    intros st nd (Hr & Hc). unfold array_read_rect. rewrite has_size_true. eexists. split; [reflexivity|].
    unfold placed. cbn [fst snd]. split.
    - rewrite map_length, slice_between by lia. rewrite seq_length. lia.
    - intros i row Hi. rewrite nth_error_map in Hi. destruct (nth_error (slice (a_rows a) _ _) i) as [r|] eqn:Er; [|discriminate].
      injection Hi as <-. apply slice_nth in Er; [|lia|lia]. split.
      + rewrite map_length, slice_between by lia. rewrite seq_length. lia.
      + intros j v Hj. rewrite nth_error_map in Hj. destruct (nth_error (slice (a_cols a) _ _) j) as [c|] eqn:Ec; [|discriminate].
        injection Hj as <-. apply slice_nth in Ec; [|lia|lia]. left. destruct Er as (Er & Er'), Ec as (Ec & Ec').
        rewrite <- Er, <- Ec, !Nat2Z.id. repeat split; lia.
  Qed.

  Theorem C39_array_inside : forall st nd, sorted_rect st nd -> in_array a nd ->
    exists t, array_read_rect a st (Some nd) = Ok (Table t) /\ placed (array_cell a) st nd t.
  Proof.
    intros st [r c] H (H1 & H2). destruct (C39_array_clipped st (r, c) H) as (t & E & P). exists t. split; [exact E|].
    destruct H as (H3 & H4). cbn [fst snd] in *.
    replace (Z.max (fst st - 1) (Z.min r (Z.of_nat (a_rows a) - 1))) with r in P by lia.
    replace (Z.max (snd st - 1) (Z.min c (Z.of_nat (a_cols a) - 1))) with c in P by lia. exact P.
  Qed.

  Theorem C39_array_single : forall st,
    (in_array a st -> exists v, array_read_rect a st None = Ok (Scalar v) /\ array_cell a (fst st) (snd st) v)
    /\ (Z.of_nat (a_rows a) <= fst st \/ Z.of_nat (a_cols a) <= snd st -> array_read_rect a st None = Raise IndexError).
  Proof.
    intros st. unfold array_read_rect. rewrite has_size_true. split.
    - intros (H1 & H2). rewrite !np_index_inside by assumption. eexists. split; [reflexivity|]. left. auto.
    - intros [H|H].
      + rewrite np_index_beyond by exact H. reflexivity.
      + rewrite (np_index_beyond _ _ H). destruct (np_index (a_rows a) (fst st)); reflexivity.
  Qed.
End Array.
Print Assumptions C39_array_clipped.
Print Assumptions C39_array_inside.
Print Assumptions C39_array_single.

Theorem C39_array_empty : forall V (a : array V) st nd, a_rows a = 0%nat \/ a_cols a = 0%nat -> array_read_rect a st nd = Raise EmptyCapture.
Proof.
  intros V a st nd H. unfold array_read_rect, has_size.
  destruct H as [->| ->]; [reflexivity|]. now rewrite Nat.mul_0_r.
Qed.
Print Assumptions C39_array_empty.

Definition sample_array : array Z := Array 2 3 (fun r c => if Nat.eqb c 1 then None else Some (Z.of_nat (10 * r + c))).
Example C39_array_example :
  array_read_rect sample_array (0, 1) (Some (1, 2)) = Ok (Table [[None; Some 2]; [None; Some 12]])
  /\ array_read_rect sample_array (1, 0) None = Ok (Scalar (Some 10))
  /\ sorted_rect (0, 1) (1, 2) /\ in_array sample_array (1, 2).
Proof. split; [reflexivity|]. split; [reflexivity|]. unfold sorted_rect, in_array. cbn. lia. Qed.

(** Cells beyond the limits of an array are missing instead of empty. *)
Theorem C39_array_beyond_refuted : exists st nd t, sorted_rect st nd /\ in_array sample_array st
  /\ array_read_rect sample_array st (Some nd) = Ok (Table t) /\ ~ placed (array_cell sample_array) st nd t.
Proof.
  exists (1, 2), (2, 3), [[Some 12]]. split; [unfold sorted_rect; cbn; lia|]. split; [unfold in_array; cbn; lia|]. split; [reflexivity|].
  intros (H & _). discriminate H.
Qed.
Print Assumptions C39_array_beyond_refuted.

Section Xlrd.
  Variable as_datetime : Q -> bool -> datetime.
  Variable epoch1904 : bool.
  Local Notation parse := (parse_cell as_datetime epoch1904).
  Local Notation value := (fun x v => parse x = Ok v).

  Lemma is_blank_spec : forall x, is_blank x = true <-> blank x.
  Proof. intros x. unfold is_blank, blank. destruct (x_type x); split; intros H; auto; try discriminate H; destruct H; discriminate. Qed.

  Lemma parse_total : forall x, (x_type x <> XOther -> exists v, parse x = Ok v) /\ (x_type x = XOther -> parse x = Raise ValueError).
  Proof.
    intros x. unfold parse_cell. destruct (x_type x); (split; [|intros E; (discriminate E || reflexivity)]); intros H; eauto.
    - destruct (Qeq_bool _ _); eauto.
    - destruct (d_date (as_datetime (x_num x) epoch1904)) as [[y m] d].
      destruct epoch1904; (destruct ((_ =? _) && _ && _); eauto).
    - congruence.
  Qed.

  Lemma read_cell_inside : forall s r c, in_xsheet s r c ->
    read_cell as_datetime epoch1904 s r c = if is_blank (xcell_at s r c) then Ok VNone
      else parse (xcell_at s r c).
  Proof.
    intros s r c (Hr & Hc). unfold read_cell, get, xl_cell, xlrd_states. cbn [rows cols at_ fst snd].
    rewrite !np_index_inside by assumption. cbn [rbind]. unfold xcell_at.
    destruct (is_blank _) eqn:Eb; cbn [negb]; [reflexivity|]. cbn [rbind].
    destruct (parse_total (xs_at s (Z.to_nat r) (Z.to_nat c))) as (A & B).
    destruct (x_type (xs_at s (Z.to_nat r) (Z.to_nat c))) eqn:E; try (destruct A as (v & ->); [discriminate | reflexivity]).
    rewrite (B eq_refl). reflexivity.
  Qed.
  Lemma read_cell_beyond : forall s r c, 0 <= r -> 0 <= c -> ~ in_xsheet s r c -> read_cell as_datetime epoch1904 s r c = Ok VNone.
  Proof.
    intros s r c Hr Hc H. unfold read_cell, get, xlrd_states. cbn [rows cols at_ fst snd].
    destruct (np_index (xs_rows s) r) as [i|] eqn:E1; [|reflexivity]. destruct (np_index (xs_cols s) c) as [j|] eqn:E2; [|reflexivity].
    exfalso. apply np_index_spec in E1, E2. apply H. unfold position in *. unfold in_xsheet. lia.
  Qed.

  Lemma in_xsheet_dec : forall s r c, in_xsheet s r c \/ ~ in_xsheet s r c.
  Proof. intros s r c. unfold in_xsheet. lia. Qed.

  Lemma read_cell_spec : forall s r c, 0 <= r -> 0 <= c -> forall v, read_cell as_datetime epoch1904 s r c = Ok v ->
    xlrd_cell value s r c v.
  Proof.
    intros s r c Hr Hc v. destruct (in_xsheet_dec s r c) as [H|H].
    - rewrite read_cell_inside by exact H. destruct (is_blank (xcell_at s r c)) eqn:Eb.
      + intros E. injection E as <-. right. split; [|reflexivity]. intros (_ & F). apply F. now apply is_blank_spec.
      + intros E. left. split; [exact H|]. split; [|exact E]. rewrite <- is_blank_spec, Eb. discriminate.
    - rewrite read_cell_beyond by assumption. intros E. injection E as <-. right. split; [tauto | reflexivity].
  Qed.

  (** Beyond the limits all is empty. *)
  Theorem C39_xlrd_placed : forall s st nd, sorted_rect st nd -> forall x, xlrd_read_rect as_datetime epoch1904 s st (Some nd) = Ok x ->
    exists t, x = XTable t /\ placed (xlrd_cell value s) st nd t.
  Proof.
    intros s st nd (Hr & Hc) x H. unfold xlrd_read_rect in H. destruct (rmap _ _) as [t|] eqn:E in H; [|discriminate].
    cbn [rbind] in H. injection H as <-. exists t. split; [reflexivity|]. destruct (rmap_nth _ _ _ _ _ E) as (L & N). split.
    - rewrite L, zrange_length. f_equal. lia.
    - intros i row Hi. destruct (N _ _ Hi) as (r & Er & Ec). apply zrange_nth in Er. destruct (rmap_nth _ _ _ _ _ Ec) as (L' & N'). split.
      + rewrite L', zrange_length. f_equal. lia.
      + intros j v Hj. destruct (N' _ _ Hj) as (c & Ej & Ev). apply zrange_nth in Ej. subst r c. apply read_cell_spec; [lia | lia | exact Ev].
  Qed.
  (** It fails on cells of unknown type only. *)
  Theorem C39_xlrd_reads : forall s st nd, sorted_rect st nd ->
    (forall r c, fst st <= r <= fst nd -> snd st <= c <= snd nd -> in_xsheet s r c -> x_type (xcell_at s r c) <> XOther) ->
    exists x, xlrd_read_rect as_datetime epoch1904 s st (Some nd) = Ok x.
  Proof.
    intros s st nd (Hr & Hc) H. unfold xlrd_read_rect.
    destruct (rmap_all _ _ (fun r => rmap (fun c => read_cell as_datetime epoch1904 s r c) (zrange (snd st) (snd nd + 1))) (zrange (fst st) (fst nd + 1))) as (t & ->); [|cbn; eauto].
    intros r Hr'. apply rmap_all. intros c Hc'. apply zrange_in in Hr', Hc'. destruct (in_xsheet_dec s r c) as [Hi|Hi].
    - rewrite read_cell_inside by exact Hi. destruct (is_blank _); [eauto|]. apply parse_total. apply H; [lia | lia | exact Hi].
    - rewrite read_cell_beyond by (lia || exact Hi). eauto.
  Qed.
  Theorem C39_xlrd_fails : forall s st nd r c, sorted_rect st nd -> fst st <= r <= fst nd -> snd st <= c <= snd nd ->
    in_xsheet s r c -> x_type (xcell_at s r c) = XOther -> xlrd_read_rect as_datetime epoch1904 s st (Some nd) = Raise ValueError.
  Proof.
    intros s st nd r c (Hr & Hc) Hr' Hc' Hi Hx. unfold xlrd_read_rect.
    assert (forall r c e, 0 <= r -> 0 <= c -> read_cell as_datetime epoch1904 s r c = Raise e -> e = ValueError) as He.
    { intros r0 c0 e H1 H2. destruct (in_xsheet_dec s r0 c0) as [H|H].
      - rewrite read_cell_inside by exact H. destruct (is_blank _); [discriminate|].
        destruct (parse_total (xcell_at s r0 c0)) as (A & B). destruct (x_type (xcell_at s r0 c0)) eqn:E;
          try (destruct A as (v & ->); [discriminate | discriminate]). rewrite (B eq_refl). intros F. now injection F.
      - rewrite read_cell_beyond by assumption. discriminate. }
    assert (read_cell as_datetime epoch1904 s r c = Raise ValueError) as Hv.
    { rewrite read_cell_inside by exact Hi. unfold is_blank. rewrite Hx. now apply parse_total. }
    rewrite (rmap_raise _ _ _ ValueError _ r).
    - reflexivity.
    - intros r0 e H0 H. apply zrange_in in H0.
      destruct (rmap _ _) eqn:E in H; [discriminate|]. injection H as <-.
      clear - E He H0 Hr Hc. assert (0 <= snd st) as Hz by lia. revert E. generalize (snd nd + 1) as b. intros b E.
      assert (forall l, (forall x, In x l -> 0 <= x) -> rmap (fun c => read_cell as_datetime epoch1904 s r0 c) l = Raise e0 -> e0 = ValueError) as G.
      { intros l. induction l as [|x l IH]; cbn; [discriminate|]. intros Hl. destruct (read_cell as_datetime epoch1904 s r0 x) as [v|e] eqn:Ex; cbn [rbind].
        - destruct (rmap (fun c => read_cell as_datetime epoch1904 s r0 c) l) eqn:El; cbn [rbind]; [discriminate|]. intros F. injection F as ->. apply IH; [|reflexivity]. intros y Hy. apply Hl. now right.
        - intros F. injection F as <-. apply (He r0 x); [lia | apply Hl; now left | exact Ex]. }
      apply (G (zrange (snd st) b)); [|exact E]. intros x Hx'. apply zrange_in in Hx'. lia.
    - apply zrange_in. lia.
    - apply (rmap_raise _ _ _ ValueError _ c); [|apply zrange_in; lia | exact Hv].
      intros c0 e H0 H. apply zrange_in in H0. apply (He r c0); [lia | lia | exact H].
  Qed.

  Theorem C39_xlrd_single : forall s st,
    (in_xsheet s (fst st) (snd st) -> forall v, xlrd_read_rect as_datetime epoch1904 s st None = Ok (XScalar v) <-> parse (xcell_at s (fst st) (snd st)) = Ok v)
    /\ (Z.of_nat (xs_rows s) <= fst st \/ Z.of_nat (xs_cols s) <= snd st -> xlrd_read_rect as_datetime epoch1904 s st None = Raise IndexError).
  Proof.
    intros s st. unfold xlrd_read_rect, xl_cell. split.
    - intros (H1 & H2) v. rewrite !np_index_inside by assumption. cbn [rbind]. unfold xcell_at.
      destruct (parse (xs_at s _ _)); cbn [rbind]; split; intros E; try discriminate E; injection E as ->; reflexivity.
    - intros [H|H].
      + rewrite np_index_beyond by exact H. reflexivity.
      + rewrite (np_index_beyond _ _ H). destruct (np_index (xs_rows s) (fst st)); reflexivity.
  Qed.

  (** ** C68: cells of Excel files become plain values *)
  Theorem C68_numbers : forall x, x_type x = XNumber ->
    (forall n, (x_num x == inject_Z n)%Q -> parse x = Ok (VInt n))
    /\ ((forall n, ~ (x_num x == inject_Z n)%Q) -> parse x = Ok (VFloat (x_num x))).
  Proof.
    intros x E. unfold parse_cell. rewrite E. split.
    - intros n H. assert (q_trunc (x_num x) = n) as ->.
      { unfold q_trunc. unfold Qeq, inject_Z in H. cbn in H. rewrite Z.mul_1_r in H. rewrite H. apply Z.quot_mul. lia. }
      rewrite (proj2 (Qeq_bool_iff _ _)); [reflexivity|]. now symmetry.
    - intros H. destruct (Qeq_bool _ _) eqn:F; [|reflexivity]. apply Qeq_bool_iff in F. exfalso. apply (H (q_trunc (x_num x))). now symmetry.
  Qed.
  Theorem C68_none : forall x, parse x = Ok VNone <-> blank x.
  Proof.
    intros x. unfold parse_cell, blank. destruct (x_type x); split; intros H; try discriminate H; auto; try (destruct H; discriminate).
    - destruct (Qeq_bool _ _); discriminate.
    - exfalso. destruct (d_date (as_datetime (x_num x) epoch1904)) as [[y m] d].
      destruct epoch1904; (destruct ((_ =? _) && _ && _) in H; discriminate).
  Qed.
  Theorem C68_texts : forall x, x_type x = XText -> parse x = Ok (VText (x_text x)).
  Proof. intros x E. unfold parse_cell. now rewrite E. Qed.
  Theorem C68_booleans : forall x, x_type x = XBoolean ->
    ((x_num x == 0)%Q -> parse x = Ok (VBool false)) /\ (~ (x_num x == 0)%Q -> parse x = Ok (VBool true)).
  Proof.
    intros x E. unfold parse_cell. rewrite E. split; intros H.
    - now rewrite (proj2 (Qeq_bool_iff _ _) H).
    - destruct (Qeq_bool (x_num x) 0) eqn:F; [|reflexivity]. apply Qeq_bool_iff in F. contradiction.
  Qed.
  Theorem C68_errors : forall x, x_type x = XError -> parse x = Ok VNan.
  Proof. intros x E. unfold parse_cell. now rewrite E. Qed.
  (** Dates on the first day are times. *)
  Theorem C68_dates : forall x, x_type x = XDate ->
    let d := as_datetime (x_num x) epoch1904 in
    (d_date d = (if epoch1904 then (1904, 1, 1) else (1899, 12, 31)) -> parse x = Ok (VTime (d_time d)))
    /\ (d_date d <> (if epoch1904 then (1904, 1, 1) else (1899, 12, 31)) -> parse x = Ok (VDatetime d)).
  Proof.
    intros x E d. unfold parse_cell. rewrite E. fold d. destruct (d_date d) as [[y m] dd]. split; intros H.
    - destruct epoch1904; injection H as -> -> ->; reflexivity.
    - destruct epoch1904; (destruct ((_ =? _) && _ && _) eqn:F; [|reflexivity]); exfalso; apply H;
        apply andb_true_iff in F; destruct F as (F & F3); apply andb_true_iff in F; destruct F as (F1 & F2);
        apply Z.eqb_eq in F1, F2, F3; now subst.
  Qed.
  Theorem C68_fails : forall x e, parse x = Raise e <-> e = ValueError /\ x_type x = XOther.
  Proof.
    intros x e. destruct (parse_total x) as (A & B). split.
    - intros H. destruct (x_type x) eqn:E; try (destruct A as (v & F); [discriminate | congruence]). rewrite (B eq_refl) in H. injection H as <-. auto.
    - intros (-> & H). exact (B H).
  Qed.
End Xlrd.
Print Assumptions C39_xlrd_placed.
Print Assumptions C39_xlrd_reads.
Print Assumptions C39_xlrd_fails.
Print Assumptions C39_xlrd_single.
Print Assumptions C68_numbers.
Print Assumptions C68_none.
Print Assumptions C68_texts.
Print Assumptions C68_booleans.
Print Assumptions C68_errors.
Print Assumptions C68_dates.
Print Assumptions C68_fails.

Definition sample_datetime (q : Q) (e : bool) : datetime :=
  Datetime (if Qle_bool 1 q then (1900, 1, 1) else (1899, 12, 31)) (4, 48, 0, 0).
Definition sample_sheet : xsheet :=
  XSheet 2 3 (fun r c => match r, c with
                         | 0%nat, 0%nat => XCell XNumber (Qmake 6 2) []
                         | 0%nat, 1%nat => XCell XBlank 0 []
                         | 0%nat, _ => XCell XText 0 (lit "hi")
                         | _, 0%nat => XCell XBoolean 1 []
                         | _, 1%nat => XCell XNumber (Qmake (-5) 2) []
                         | _, _ => XCell XEmpty 0 []
                         end).
Example C39_xlrd_example :
  xlrd_read_rect sample_datetime false sample_sheet (0, 1) (Some (2, 3))
    = Ok (XTable [[VNone; VText (lit "hi"); VNone]; [VFloat (Qmake (-5) 2); VNone; VNone]; [VNone; VNone; VNone]])
  /\ xlrd_read_rect sample_datetime false sample_sheet (0, 0) None = Ok (XScalar (VInt 3))
  /\ xlrd_read_rect sample_datetime false sample_sheet (0, 3) None = Raise IndexError.
Proof. repeat split; reflexivity. Qed.
Example C68_example :
  parse_cell sample_datetime false (XCell XNumber (Qmake (-8) 2) []) = Ok (VInt (-4))
  /\ parse_cell sample_datetime false (XCell XNumber (Qmake 12 10) []) = Ok (VFloat (Qmake 12 10))
  /\ parse_cell sample_datetime false (XCell XDate (Qmake 12 10) []) = Ok (VDatetime (Datetime (1900, 1, 1) (4, 48, 0, 0)))
  /\ parse_cell sample_datetime false (XCell XDate (Qmake 2 10) []) = Ok (VTime (4, 48, 0, 0))
  /\ parse_cell sample_datetime true (XCell XDate (Qmake 2 10) []) = Ok (VDatetime (Datetime (1899, 12, 31) (4, 48, 0, 0)))
  /\ parse_cell sample_datetime false (XCell XOther 0 []) = Raise ValueError.
Proof. repeat split; reflexivity. Qed.

(** Cells beyond the limits are empty, unless asked for alone; and those before the first row are others. *)
Theorem C39_single_beyond_refuted : exists st, 0 <= fst st /\ 0 <= snd st
  /\ xlrd_read_rect sample_datetime false sample_sheet st None = Raise IndexError
  /\ xlrd_read_rect sample_datetime false sample_sheet st (Some st) = Ok (XTable [[VNone]]).
Proof. exists (5, 0). cbn [fst snd]. split; [lia|]. split; [lia|]. split; reflexivity. Qed.
Print Assumptions C39_single_beyond_refuted.
Theorem C39_negative_refuted : exists st nd t, fst st <= fst nd /\ snd st <= snd nd
  /\ xlrd_read_rect sample_datetime false sample_sheet st (Some nd) = Ok (XTable t)
  /\ ~ placed (xlrd_cell (fun x v => parse_cell sample_datetime false x = Ok v) sample_sheet) st nd t.
Proof.
  exists (-1, 0), (0, 0), [[VBool true]; [VInt 3]]. split; [cbn; lia|]. split; [cbn; lia|]. split; [reflexivity|].
  intros (_ & H). destruct (H 0%nat _ eq_refl) as (_ & F). destruct (F 0%nat _ eq_refl) as [((G & _) & _)|(_ & G)].
  - cbn in G. lia.
  - discriminate G.
Qed.
Print Assumptions C39_negative_refuted.

(** ** C67: the margins of a sheet are those of its full cells *)
Theorem C67_array : forall V (a : array V) m, array_states a = Ok m -> array_margins a = Ok (margin_coords m).
Proof. intros V a m H. unfold array_margins, get_margin_coords. cbn [rbind]. rewrite H. cbn [rbind]. now destruct (margin_coords m). Qed.
Print Assumptions C67_array.
Theorem C67_array_full : forall V (a : array V) m p, array_states a = Ok m ->
  (full m p <-> in_array a p /\ exists v, array_cell a (fst p) (snd p) (Some v)).
Proof.
  intros V a m [r c] H. unfold array_states in H. destruct (has_size a); [|discriminate]. injection H as <-.
  unfold full, in_array, array_cell. cbn [rows cols at_ fst snd]. split.
  - intros (H1 & H2 & H3). split; [auto|]. destruct (a_at a (Z.to_nat r) (Z.to_nat c)) as [v|] eqn:E; [|discriminate]. exists v. left. auto.
  - intros ((H1 & H2) & v & [(_ & _ & E)|(_ & F)]); [|discriminate]. rewrite <- E. auto.
Qed.
Print Assumptions C67_array_full.
Theorem C67_array_bounding_box : forall V (a : array V) up dn, array_margins a = Ok (up, dn) ->
  forall m, array_states a = Ok m -> (forall p, full m p -> bounding_box m up dn) /\ ((forall p, ~ full m p) -> (up, dn) = ((0, 0), (0, 0))).
Proof.
  intros V a up dn H m E. rewrite (C67_array V a m E) in H. injection H as H. split.
  - intros p Hp. pose proof (margin_coords_full m p Hp) as B. rewrite H in B. exact B.
  - intros Hn. rewrite <- H. now apply margin_coords_empty.
Qed.
Print Assumptions C67_array_bounding_box.
Theorem C67_array_empty : forall V (a : array V), a_rows a = 0%nat \/ a_cols a = 0%nat -> array_margins a = Raise EmptyCapture.
Proof.
  intros V a H. unfold array_margins, get_margin_coords, array_states, has_size. cbn [rbind].
  destruct H as [->| ->]; [reflexivity|]. now rewrite Nat.mul_0_r.
Qed.
Print Assumptions C67_array_empty.

(** Of Excel sheets the top-left is that of full cells, the bottom-right their last row and column. *)
Theorem C67_xlrd : forall s, (0 < xs_rows s)%nat -> (0 < xs_cols s)%nat ->
  xlrd_margins s = Ok (fst (margin_coords (xlrd_states s)), (Z.of_nat (xs_rows s) - 1, Z.of_nat (xs_cols s) - 1)).
Proof.
  intros s Hr Hc. unfold xlrd_margins, get_margin_coords, xlrd_read_margins.
  destruct (Z.ltb_spec (Z.of_nat (xs_rows s) - 1) 0); [lia|]. destruct (Z.ltb_spec (Z.of_nat (xs_cols s) - 1) 0); [lia|].
  cbn [orb rbind]. destruct (margin_coords (xlrd_states s)). reflexivity.
Qed.
Print Assumptions C67_xlrd.
Theorem C67_xlrd_full : forall s p, full (xlrd_states s) p <-> in_xsheet s (fst p) (snd p) /\ ~ blank (xcell_at s (fst p) (snd p)).
Proof.
  intros s [r c]. unfold full, in_xsheet, xcell_at, xlrd_states. cbn [rows cols at_ fst snd]. rewrite <- is_blank_spec, negb_true_iff.
  destruct (is_blank _); split; intros H.
  - destruct H as (_ & _ & H). discriminate H.
  - destruct H as (_ & H). now destruct H.
  - destruct H as (H1 & H2 & _). split; [auto | discriminate].
  - tauto.
Qed.
Print Assumptions C67_xlrd_full.
Theorem C67_xlrd_is_margin : forall s up dn, xlrd_margins s = Ok (up, dn) -> is_margin (xlrd_states s) dn.
Proof.
  intros s up dn H. assert (0 < xs_rows s /\ 0 < xs_cols s)%nat as (Hr & Hc).
  { unfold xlrd_margins, get_margin_coords, xlrd_read_margins in H. destruct (_ || _) eqn:E in H; [discriminate|].
    apply orb_false_iff in E. destruct E as (E1 & E2). apply Z.ltb_ge in E1, E2. lia. }
  rewrite (C67_xlrd s Hr Hc) in H. injection H as _ <-. unfold is_margin. cbn [fst snd]. split; [lia|]. split; [lia|]. split.
  - intros p ((H1 & H2) & _)%C67_xlrd_full. lia.
  - left. cbn. lia.
Qed.
Print Assumptions C67_xlrd_is_margin.
(** When the last row and the last column have full cells, they are tight. *)
Theorem C67_xlrd_tight : forall s up dn, xlrd_margins s = Ok (up, dn) ->
  (exists p, full (xlrd_states s) p /\ fst p = Z.of_nat (xs_rows s) - 1) -> (exists p, full (xlrd_states s) p /\ snd p = Z.of_nat (xs_cols s) - 1) ->
  bounding_box (xlrd_states s) up dn.
Proof.
  intros s up dn H (p & Hp & Ep) (q & Hq & Eq).
  pose proof (margin_coords_full _ p Hp) as (B1 & B2 & B3 & _). assert (full (xlrd_states s) p) as Hp' by exact Hp.
  apply C67_xlrd_full in Hp'. destruct Hp' as ((H1 & H2) & _).
  rewrite C67_xlrd in H by lia. injection H as <- <-. split; [|split; [|split; [|split]]]; cbn [fst snd].
  - intros x Hx. destruct (B1 x Hx). apply C67_xlrd_full in Hx. destruct Hx as ((X1 & X2) & _). lia.
  - exact B2.
  - exact B3.
  - exists p. auto.
  - exists q. auto.
Qed.
Print Assumptions C67_xlrd_tight.
Theorem C67_xlrd_empty : forall s, xs_rows s = 0%nat \/ xs_cols s = 0%nat -> xlrd_margins s = Raise EmptyCapture.
Proof.
  intros s H. unfold xlrd_margins, xlrd_read_margins. destruct (Z.ltb_spec (Z.of_nat (xs_rows s) - 1) 0); [reflexivity|].
  destruct (Z.ltb_spec (Z.of_nat (xs_cols s) - 1) 0); [reflexivity | lia].
Qed.
Print Assumptions C67_xlrd_empty.
(** Formatted blank cells at the end count. *)
Theorem C67_xlrd_trailing_blank_refuted : exists s up dn p, xlrd_margins s = Ok (up, dn) /\ full (xlrd_states s) p
  /\ ~ bounding_box (xlrd_states s) up dn /\ margin_coords (xlrd_states s) = ((0, 0), (0, 0)).
Proof.
  exists (XSheet 2 2 (fun r c => if Nat.eqb (r + c) 0 then XCell XNumber 1 [] else XCell XBlank 0 [])), (0, 0), (1, 1), (0, 0).
  split; [reflexivity|]. split; [vm_compute; intuition congruence|]. split; [|reflexivity].
  intros (_ & _ & _ & (p & Hp & E) & _). apply C67_xlrd_full in Hp. cbn in E. destruct p as [r c]. cbn in E. subst r.
  destruct Hp as (_ & Hp). apply Hp. right. unfold xcell_at. cbn [fst snd xs_at]. change (Z.to_nat 1) with 1%nat. reflexivity.
Qed.
Print Assumptions C67_xlrd_trailing_blank_refuted.
Example C67_example :
  array_margins (Array 3 3 (fun r c => if Nat.eqb (r * c) 2 then Some 7 else None)) = Ok ((1, 1), (2, 2))
  /\ xlrd_margins (XSheet 3 2 (fun r c => if Nat.eqb (r * c) 2 then XCell XError 0 [] else XCell XEmpty 0 [])) = Ok ((2, 1), (2, 1))
  /\ xlrd_margins (XSheet 0 0 (fun r c => XCell XEmpty 0 [])) = Raise EmptyCapture.
Proof. repeat split; vm_compute; reflexivity. Qed.

(** ** C69: sheet ids are names, else indices *)
Lemma find_name_spec : forall n names k i, find_name n names k = Some i <-> exists j, i = (k + j)%nat /\ first_named names n j.
Proof.
  intros n names. induction names as [|m names IH]; intros k i; cbn [find_name].
  - split; [discriminate|]. intros (j & _ & (F & _)). destruct j; discriminate.
  - destruct (str_eqb_spec n m) as [->|Hn].
    + split.
      * intros E. injection E as <-. exists 0%nat. split; [lia|]. split; [reflexivity | intros j F; lia].
      * intros (j & -> & (F & G)). destruct j as [|j]; [f_equal; lia|]. exfalso. apply (G 0%nat); [lia | reflexivity].
    + rewrite IH. split.
      * intros (j & -> & (F & G)). exists (S j). split; [lia|]. split; [exact F|]. intros [|j'] Hj'; cbn; [congruence|]. apply G. lia.
      * intros (j & -> & (F & G)). destruct j as [|j]; [cbn in F; congruence|]. exists j. split; [lia|]. split; [exact F|].
        intros j' Hj'. apply (G (S j')). lia.
Qed.
Lemma find_name_none : forall n names k, find_name n names k = None <-> ~ In n names.
Proof.
  intros n names. induction names as [|m names IH]; intros k; cbn; [tauto|]. destruct (str_eqb_spec n m) as [->|Hn].
  - split; [discriminate|]. intros F. exfalso. apply F. now left.
  - rewrite IH. split; intros F; [intros [G|G]; [congruence | exact (F G)] | intros G; apply F; now right].
Qed.
Lemma sheet_by_index_spec : forall names z i, sheet_by_index names z = Ok i <-> position (length names) z i.
Proof.
  intros names z i. unfold sheet_by_index. rewrite <- np_index_spec. destruct (np_index _ _); split; intros E; try discriminate E; injection E as ->; reflexivity.
Qed.

Theorem C69_default_first : forall names i, open_by_name_or_index names SNone = Ok i <-> i = 0%nat /\ names <> [].
Proof.
  intros names i. unfold open_by_name_or_index. rewrite sheet_by_index_spec. unfold position. split.
  - intros (H1 & H2). destruct names as [|n names]; cbn in *; [lia|]. split; [lia | discriminate].
  - intros (-> & H). destruct names; [congruence|]. cbn. lia.
Qed.
Theorem C69_index : forall names z i, open_by_name_or_index names (SInt z) = Ok i <-> position (length names) z i.
Proof. intros names z i. apply sheet_by_index_spec. Qed.
(** A name is looked up first, even if it looks like a number. *)
Theorem C69_name : forall names n, In n names -> forall i, open_by_name_or_index names (SStr n) = Ok i <-> first_named names n i.
Proof.
  intros names n H i. unfold open_by_name_or_index, sheet_by_name. destruct (find_name n names 0) as [j|] eqn:E.
  - pose proof (proj1 (find_name_spec _ _ _ _) E) as (j' & Ej & F). cbn in Ej. subst j'. split.
    + intros G. injection G as <-. exact F.
    + intros G. f_equal. assert (find_name n names 0 = Some i) as K by (apply find_name_spec; exists i; auto). congruence.
  - apply find_name_none in E. contradiction.
Qed.
Theorem C69_textual_index : forall names n z, ~ In n names -> py_int n = Some z ->
  open_by_name_or_index names (SStr n) = open_by_name_or_index names (SInt z).
Proof. intros names n z H E. unfold open_by_name_or_index, sheet_by_name. rewrite (proj2 (find_name_none n names 0) H), E. reflexivity. Qed.
Theorem C69_unknown : forall names n, ~ In n names -> py_int n = None -> open_by_name_or_index names (SStr n) = Raise (OtherError 1).
Proof. intros names n H E. unfold open_by_name_or_index, sheet_by_name. rewrite (proj2 (find_name_none n names 0) H), E. reflexivity. Qed.
Theorem C69_out_of_range : forall names z, (forall i, ~ position (length names) z i) -> open_by_name_or_index names (SInt z) = Raise IndexError.
Proof.
  intros names z H. unfold open_by_name_or_index, sheet_by_index. destruct (np_index _ _) as [i|] eqn:E; [|reflexivity].
  apply np_index_spec in E. destruct (H _ E).
Qed.
Print Assumptions C69_default_first.
Print Assumptions C69_index.
Print Assumptions C69_name.
Print Assumptions C69_textual_index.
Print Assumptions C69_unknown.
Print Assumptions C69_out_of_range.
Example C69_example : let names := [lit "a"; lit "0"; lit "b"] in
  open_by_name_or_index names (SStr (lit "0")) = Ok 1%nat /\ open_by_name_or_index names (SStr (lit "2")) = Ok 2%nat
  /\ open_by_name_or_index names SNone = Ok 0%nat /\ open_by_name_or_index names (SInt (-1)) = Ok 2%nat
  /\ open_by_name_or_index names (SStr (lit "c")) = Raise (OtherError 1) /\ open_by_name_or_index names (SInt 3) = Raise IndexError.
Proof. repeat split; reflexivity. Qed.
