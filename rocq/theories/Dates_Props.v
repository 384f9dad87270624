(** * C98: dates of Excel cells *)
From Coq Require Import String QArith Qround Lqa.
From Verif Require Import PyBase Coords_Model Capture_Model Sheets_Model ReadRect_Model ReadRect_Spec ReadRect_Props.
From Verif Require Import Dates_Model Dates_Spec Dates_Proofs.
Open Scope Z_scope.

(** The days that Python counts are those of the calendar. *)
Theorem C98_calendar : ord2ymd 1 = (1, 1, 1) /\
  forall n a, days_after n (ord2ymd a) (ord2ymd (a + Z.of_nat n)).
Proof. split; [reflexivity|apply ord_days]. Qed.

(** Each day has the number that it is made of. *)
Theorem C98_ordinal : forall n y m d, ord2ymd n = (y, m, d) -> ymd2ord y m d = n.
Proof. intros n y m d E. rewrite <- (ordinal_ord n), E. reflexivity. Qed.

Lemma excel_day_of : forall n, 0 <= n -> n <> 60 ->
  excel_day n (ord2ymd ((if 60 <=? n then ymd2ord 1899 12 30 else ymd2ord 1899 12 31) + n)).
Proof.
  intros n H N. destruct (60 <=? n) eqn:C.
  - apply Z.leb_le in C. replace n with (61 + Z.of_nat (Z.to_nat (n - 61))) at 1 by lia. constructor.
    change (1900, 3, 1) with (ord2ymd (ymd2ord 1899 12 30 + 61)).
    replace (ymd2ord 1899 12 30 + n) with (ymd2ord 1899 12 30 + 61 + Z.of_nat (Z.to_nat (n - 61))) by lia.
    apply ord_days.
  - apply Z.leb_gt in C. rewrite <- (Z2Nat.id n) at 1 by lia. constructor; [lia|].
    change (1899, 12, 31) with (ord2ymd (ymd2ord 1899 12 31)). rewrite <- (Z2Nat.id n) at 2 by lia. apply ord_days.
Qed.
Lemma mac_day_of : forall n, 0 <= n -> mac_day n (ord2ymd (ymd2ord 1904 1 1 + n)).
Proof.
  intros n H. rewrite <- (Z2Nat.id n) at 1 by lia. constructor.
  change (1904, 1, 1) with (ord2ymd (ymd2ord 1904 1 1)) at 1. rewrite <- (Z2Nat.id n) at 2 by lia. apply ord_days.
Qed.

Lemma sixty : forall x n, (0 <= x)%Q -> (inject_Z (q_trunc x) <= x)%Q -> q_trunc x * 86400000 <= n <= (q_trunc x + 1) * 86400000 ->
  n / 86400000 <> 60 -> Qle_bool 60 x = (60 <=? n / 86400000).
Proof.
  intros x n X T B N. destruct (trunc_bounds x X) as (_ & U & P).
  destruct (Qle_bool 60 x) eqn:E; symmetry.
  - apply Z.leb_le. apply Qle_bool_iff in E.
    assert (60 <= q_trunc x).
    { assert (Y : (inject_Z 60 < inject_Z (q_trunc x + 1))%Q) by (change (inject_Z 60) with 60%Q; lra).
      rewrite <- Zlt_Qlt in Y. lia. }
    apply Z.div_le_lower_bound; lia.
  - apply Z.leb_gt. assert (E' : ~ (60 <= x)%Q) by (intros Y; apply Qle_bool_iff in Y; congruence).
    assert (q_trunc x < 60).
    { assert (Y : (inject_Z (q_trunc x) < inject_Z 60)%Q) by (change (inject_Z 60) with 60%Q; lra).
      rewrite <- Zlt_Qlt in Y. exact Y. }
    assert (n / 86400000 <= 60) by (apply Z.div_le_upper_bound; lia). lia.
Qed.

(** Serial numbers are read as Excel means them, to the nearest millisecond... *)
Theorem C98_serial : forall x, (0 <= x)%Q -> exists n, serial_ms x n /\ 0 <= n /\
  (n / 86400000 <> 60 -> moment excel_day n (xldate_as_datetime x false)).
Proof.
  intros x X. destruct (xldate_moment x false X) as (n & S & N & T & B & D & M).
  exists n. split; [exact S|]. split; [exact N|]. intros H. split; [|exact M]. rewrite D.
  rewrite (sixty x n X T B H). apply excel_day_of; [|exact H]. apply Z.div_pos; lia.
Qed.
(** ...and so are those from 1904. *)
Theorem C98_serial_1904 : forall x, (0 <= x)%Q -> exists n, serial_ms x n /\ 0 <= n /\
  moment mac_day n (xldate_as_datetime x true).
Proof.
  intros x X. destruct (xldate_moment x true X) as (n & S & N & T & B & D & M).
  exists n. split; [exact S|]. split; [exact N|]. split; [|exact M]. rewrite D.
  apply mac_day_of. apply Z.div_pos; lia.
Qed.

(** Later days have later dates, so that no two days are the same date. *)
Definition earlier (a b : Z * Z * Z) : Prop :=
  let '(y, m, d) := a in let '(y', m', d') := b in
  y < y' \/ (y = y' /\ (m < m' \/ (m = m' /\ d < d'))).
Lemma earlier_trans : forall a b c, earlier a b -> earlier b c -> earlier a c.
Proof. intros [[y m] d] [[y' m'] d'] [[y'' m''] d'']. unfold earlier. lia. Qed.
Lemma earlier_next : forall a, earlier a (next_day a).
Proof.
  intros [[y m] d]. unfold next_day. destruct (d <? _); [unfold earlier; lia|].
  destruct (m <? 12); unfold earlier; lia.
Qed.
Lemma days_after_earlier : forall n a b, days_after (S n) a b -> earlier a b.
Proof.
  intros n. induction n as [|n IH]; intros a b H; inversion H as [|k x y K]; subst.
  - inversion K; subst. apply earlier_next.
  - eapply earlier_trans; [apply IH; exact K|apply earlier_next].
Qed.
Lemma days_after_split : forall n m a b c, days_after n a b -> days_after (m + n) a c -> days_after m b c.
Proof.
  intros n m a b c H. revert c. induction m as [|m IH]; intros c K.
  - rewrite (days_after_fun _ _ _ _ K H). constructor.
  - cbn [Nat.add] in K. inversion K as [|k x y K']; subst. constructor. apply IH. exact K'.
Qed.
Lemma march : days_after 60 (1899, 12, 31) (1900, 3, 1).
Proof. exact (ord_days 60 (ymd2ord 1899 12 31)). Qed.
Theorem C98_order : forall i j a b, excel_day i a -> excel_day j b ->
  (i < j -> earlier a b) /\ (i = j -> a = b).
Proof.
  intros i j a b Ha Hb.
  assert (E : forall i a, excel_day i a -> exists n, days_after n (1899, 12, 31) a /\
            ((i < 60 /\ Z.of_nat n = i) \/ (60 < i /\ Z.of_nat n = i - 1))).
  { intros i' a' H. destruct H as [n d L H|n d H].
    - exists n. split; [exact H|]. left. lia.
    - exists (n + 60)%nat. split; [exact (days_after_add _ _ _ _ _ march H)|]. right. lia. }
  destruct (E i a Ha) as (n & Hn & Cn). destruct (E j b Hb) as (m & Hm & Cm). split; intros L.
  - assert (X : m = (S (m - n - 1) + n)%nat) by lia. rewrite X in Hm.
    exact (days_after_earlier _ _ _ (days_after_split _ _ _ _ _ Hn Hm)).
  - assert (X : m = n) by lia. subst m. exact (days_after_fun _ _ _ _ Hn Hm).
Qed.

(** A day that never was is read as the day before it. *)
Theorem C98_leap_refuted : exists x y, (y == x + 1)%Q /\
  xldate_as_datetime x false = xldate_as_datetime y false /\ ~ exists d, excel_day 60 d.
Proof.
  exists 59%Q, 60%Q. split; [reflexivity|]. split; [vm_compute; reflexivity|].
  intros (d & H). remember 60 as k eqn:K. destruct H; lia.
Qed.

(** Values of cells *)
Lemma ne_first : forall i d, excel_day i d -> 0 < i -> d <> (1899, 12, 31).
Proof.
  intros i d H L E. assert (Z0 : excel_day 0 (1899, 12, 31)) by (apply (Before60 0); [lia|constructor]).
  pose proof (proj1 (C98_order _ _ _ _ Z0 H) L) as X. subst d. unfold earlier in X. lia.
Qed.
Lemma ne_first_1904 : forall i d, mac_day i d -> 0 < i -> d <> (1904, 1, 1).
Proof.
  intros i d H L E. destruct H as [n d H]. destruct n as [|n]; [lia|].
  pose proof (days_after_earlier _ _ _ H) as X. subst d. unfold earlier in X. lia.
Qed.
Lemma excel_first : forall d, excel_day 0 d -> d = (1899, 12, 31).
Proof.
  intros d H. assert (Z0 : excel_day 0 (1899, 12, 31)) by (apply (Before60 0); [lia|constructor]).
  exact (proj2 (C98_order _ _ _ _ H Z0) eq_refl).
Qed.

Lemma meant_of : forall (day : Z -> Z * Z * Z -> Prop) (mode : bool) x n c,
  (forall d, day 0 d -> d = (if mode then (1904, 1, 1) else (1899, 12, 31))) ->
  (forall i d, day i d -> 0 < i -> d <> (if mode then (1904, 1, 1) else (1899, 12, 31))) ->
  x_type c = XDate -> x_num c = x ->
  serial_ms x n -> 0 <= n -> moment day n (xldate_as_datetime x mode) ->
  exists v, parse_cell xldate_as_datetime mode c = Ok v /\ meant day x v.
Proof.
  intros day mode x n c F0 F1 T X S N M. destruct (C68_dates xldate_as_datetime mode c T) as [D0 D1].
  rewrite X in D0, D1.
  assert (P : 0 <= n / 86400000) by (apply Z.div_pos; lia).
  assert (C : n / 86400000 = 0 \/ 0 < n / 86400000) by lia. destruct M as [MD MT]. destruct C as [C|C].
  - rewrite C in MD. eexists. split; [apply D0; exact (F0 _ MD)|]. exists n. split; [exact S|]. split; [exact N|].
    left. split; [exact C|]. eexists. split; [reflexivity|].
    apply Z.div_small_iff in C; [|lia]. rewrite Z.mod_small in MT by lia. exact MT.
  - eexists. split; [apply D1; exact (F1 _ _ MD C)|]. exists n. split; [exact S|]. split; [exact N|].
    right. split; [exact C|]. eexists. split; [reflexivity|]. split; [exact MD|exact MT].
Qed.

Lemma not_sixty : forall x,
  (x * inject_Z 86400000 + 1 <= inject_Z (60 * 86400000))%Q \/ (61 <= x)%Q ->
  forall n, serial_ms x n -> n / 86400000 <> 60.
Proof.
  intros x H n [A B] E. pose proof (Z.div_mod n 86400000 ltac:(lia)) as D.
  pose proof (Z.mod_pos_bound n 86400000 ltac:(lia)) as M. rewrite E in D.
  assert (L : inject_Z 86400000 == 86400000) by reflexivity. rewrite L in A, B, H.
  change (inject_Z (60 * 86400000)) with 5184000000%Q in H.
  destruct H as [H|H].
  - assert (X : (inject_Z n < inject_Z 5184000000)%Q) by (change (inject_Z 5184000000) with 5184000000%Q; lra).
    rewrite <- Zlt_Qlt in X. lia.
  - assert (X : (inject_Z 5270399999 < inject_Z n)%Q) by (change (inject_Z 5270399999) with 5270399999%Q; lra).
    rewrite <- Zlt_Qlt in X. lia.
Qed.

(** Cells of books are read as meant when days count from 1900. *)
Theorem C98_read : forall b id w r c x, xb_1904 b = false -> open_sheet_of b id = Ok w ->
  in_xsheet (w_sheet w) r c -> x_type (xcell_at (w_sheet w) r c) = XDate ->
  x_num (xcell_at (w_sheet w) r c) = x -> (0 <= x)%Q ->
  (x * inject_Z 86400000 + 1 <= inject_Z (60 * 86400000))%Q \/ (61 <= x)%Q ->
  exists v, wrapped_read_rect w (r, c) None = Ok (XScalar v) /\ meant excel_day x v.
Proof.
  intros b id w r c x B O I T X P H60. pose proof (not_sixty x H60) as N60. unfold open_sheet_of in O.
  destruct (open_by_name_or_index (xb_names b) id) as [i|e]; [|discriminate O]. cbn [rbind] in O. injection O as <-.
  cbn [w_sheet] in *. unfold wrapped_read_rect. cbn [w_sheet w_epoch1904].
  destruct (C98_serial x P) as (n & S & N & M).
  destruct (meant_of excel_day false x n (xcell_at (xb_sheet b i) r c)) as (v & E & V); auto using excel_first.
  - intros k d H L. exact (ne_first k d H L).
  - exists v. split; [|exact V].
    apply (proj1 (C39_xlrd_single xldate_as_datetime false (xb_sheet b i) (r, c))); assumption.
Qed.

(** Those of a sheet that is told to count from 1904 are read as meant, too... *)
Theorem C98_read_1904 : forall s r c x,
  in_xsheet s r c -> x_type (xcell_at s r c) = XDate -> x_num (xcell_at s r c) = x -> (0 <= x)%Q ->
  exists v, wrapped_read_rect (Wrapped s true) (r, c) None = Ok (XScalar v) /\ meant mac_day x v.
Proof.
  intros s r c x I T X P. unfold wrapped_read_rect. cbn [w_sheet w_epoch1904].
  destruct (C98_serial_1904 x P) as (n & S & N & M).
  destruct (meant_of mac_day true x n (xcell_at s r c)) as (v & E & V); auto.
  - intros d H. remember 0 as k eqn:K. destruct H as [m d H]. assert (m = 0%nat) by lia. subst m. inversion H. reflexivity.
  - intros k d H L. exact (ne_first_1904 k d H L).
  - exists v. split; [|exact V].
    apply (proj1 (C39_xlrd_single xldate_as_datetime true s (r, c))); assumption.
Qed.

(** ...but no opened sheet ever is: the dates of such books are early by 4 years and a day. *)
Lemma years : days_after 1462 (1900, 3, 1) (1904, 3, 2).
Proof. exact (ord_days 1462 (ymd2ord 1900 3 1)). Qed.
Theorem C98_early : forall b id w, open_sheet_of b id = Ok w -> w_epoch1904 w = false.
Proof.
  intros b id w O. unfold open_sheet_of in O.
  destruct (open_by_name_or_index (xb_names b) id) as [i|e]; [|discriminate O]. injection O as <-. reflexivity.
Qed.
Theorem C98_early_by : forall i read meant, 60 < i -> excel_day i read -> mac_day i meant -> days_after 1462 read meant.
Proof.
  intros i rd mt L R M. destruct R as [n d L0 R|n d R]; [lia|].
  remember (61 + Z.of_nat n) as k eqn:K. destruct M as [m d' M]. assert (m = (n + 61)%nat) by lia. subst m.
  assert (Y : days_after 61 (1904, 1, 1) (1904, 3, 2)) by exact (ord_days 61 (ymd2ord 1904 1 1)).
  apply (days_after_split 61 n _ _ _ Y) in M.
  (* from 1900-03-01: n days to [d], and 1462 + n days to [d'] *)
  pose proof (days_after_add _ _ _ _ _ years M) as Z1.
  rewrite Nat.add_comm in Z1. exact (days_after_split _ _ _ _ _ R Z1).
Qed.
Theorem C98_1904_refuted : exists b w x v v', xb_1904 b = true /\ open_sheet_of b SNone = Ok w /\
  x_type (xcell_at (w_sheet w) 0 0) = XDate /\ x_num (xcell_at (w_sheet w) 0 0) = x /\
  wrapped_read_rect w (0, 0) None = Ok (XScalar v) /\ v = VDatetime (Datetime (2014, 12, 31) (0, 0, 0, 0)) /\
  meant mac_day x v' /\ v' = VDatetime (Datetime (2019, 1, 1) (0, 0, 0, 0)).
Proof.
  exists (XBook [lit "S"] (fun _ => XSheet 1 1 (fun _ _ => XCell XDate 42004 [])) true).
  do 4 eexists. split; [reflexivity|]. split; [reflexivity|]. split; [reflexivity|]. split; [reflexivity|].
  split; [vm_compute; reflexivity|]. split; [reflexivity|]. split; [|reflexivity].
  destruct (C98_serial_1904 42004) as (n & S & N & M); [discriminate|].
  exists (42004 * 86400000). split; [split; vm_compute; discriminate|]. split; [lia|]. right. split; [reflexivity|].
  eexists. split; [reflexivity|]. split.
  - exact (mac_day_of 42004 ltac:(lia)).
  - vm_compute. intuition discriminate.
Qed.

Example C98_example :
  xldate_as_datetime (12 # 10) false = Datetime (1900, 1, 1) (4, 48, 0, 0) /\
  xldate_as_datetime 59 false = Datetime (1900, 2, 28) (0, 0, 0, 0) /\
  xldate_as_datetime 61 false = Datetime (1900, 3, 1) (0, 0, 0, 0) /\
  xldate_as_datetime (438315 # 10) false = Datetime (2020, 1, 1) (12, 0, 0, 0) /\
  xldate_as_datetime 2958465 false = Datetime (9999, 12, 31) (0, 0, 0, 0) /\
  xldate_as_datetime 0 true = Datetime (1904, 1, 1) (0, 0, 0, 0) /\
  parse_cell xldate_as_datetime false (XCell XDate (1 # 2) []) = Ok (VTime (12, 0, 0, 0)) /\
  (let b := XBook [lit "S"] (fun _ => XSheet 1 1 (fun _ _ => XCell XDate 43831 [])) false in
   (do w <- open_sheet_of b SNone; wrapped_read_rect w (0, 0) None)
   = Ok (XScalar (VDatetime (Datetime (2020, 1, 1) (0, 0, 0, 0))))).
Proof. repeat split; vm_compute; reflexivity. Qed.

Example C98_ordinal_example : ord2ymd 730179 = (2000, 2, 29) /\ ymd2ord 2000 12 31 = 730485 /\ ymd2ord 1900 3 1 = 693655.
Proof. repeat split; vm_compute; reflexivity. Qed.

Print Assumptions C98_calendar.
Print Assumptions C98_ordinal.
Print Assumptions C98_serial.
Print Assumptions C98_serial_1904.
Print Assumptions C98_order.
Print Assumptions C98_leap_refuted.
Print Assumptions C98_read.
Print Assumptions C98_read_1904.
Print Assumptions C98_early.
Print Assumptions C98_early_by.
Print Assumptions C98_1904_refuted.
