(** * Dates: proofs *)
From Coq Require Import String QArith Qround Lqa.
From Verif Require Import PyBase Coords_Model Capture_Model Sheets_Model ReadRect_Model Dates_Model Dates_Spec.
Open Scope Z_scope.

(** ** The calendar *)

Definition shift (k : Z) (d : Z * Z * Z) : Z * Z * Z := let '(y, m, d) := d in (y + k * 400, m, d).

Lemma ord_period : forall n, ord2ymd n = shift ((n - 1) / 146097) (ord2ymd ((n - 1) mod 146097 + 1)).
Proof.
  intros n. unfold ord2ymd. cbv zeta.
  set (k := (n - 1) / 146097). set (r := (n - 1) mod 146097).
  assert (R : 0 <= r < 146097) by (apply Z.mod_pos_bound; lia).
  replace (r + 1 - 1) with r by lia.
  rewrite (Z.div_small r 146097) by exact R. rewrite (Z.mod_small r 146097) by exact R.
  generalize (r / 36524) as n100. generalize (r mod 36524) as r1. intros r1 n100.
  generalize (r1 / 1461) as n4. generalize (r1 mod 1461) as r2. intros r2 n4.
  generalize (r2 / 365) as n1. generalize (r2 mod 365) as r3. intros r3 n1.
  destruct ((n1 =? 4) || (n100 =? 4)).
  - cbn [shift]. repeat (f_equal; try lia).
  - destruct (if r3 <? _ then _ else _) as [mo pr]. cbn [shift]. repeat (f_equal; try lia).
Qed.

Lemma leap_period : forall y k, leap_year (y + k * 400) = leap_year y.
Proof.
  intros y k. unfold leap_year.
  rewrite Z_mod_plus_full.
  replace (y + k * 400) with (y + k * 4 * 100) at 1 by lia. rewrite Z_mod_plus_full.
  replace (y + k * 400) with (y + k * 100 * 4) by lia. rewrite Z_mod_plus_full. reflexivity.
Qed.
Lemma next_shift : forall k d, next_day (shift k d) = shift k (next_day d).
Proof.
  intros k [[y m] d]. unfold shift, next_day, month_length. rewrite leap_period.
  destruct (d <? _); [reflexivity|]. destruct (m <? 12); [reflexivity|]. repeat (f_equal; try lia).
Qed.
Lemma shift_shift : forall k d, shift 1 (shift k d) = shift (k + 1) d.
Proof. intros k [[y m] d]. unfold shift. repeat (f_equal; try lia). Qed.

Definition date_eqb (a b : Z * Z * Z) : bool :=
  let '(y, m, d) := a in let '(y', m', d') := b in (y =? y') && (m =? m') && (d =? d').
Lemma date_eqb_eq : forall a b, date_eqb a b = true -> a = b.
Proof.
  intros [[y m] d] [[y' m'] d'] H. unfold date_eqb in H. rewrite !andb_true_iff, !Z.eqb_eq in H.
  destruct H as [[-> ->] ->]. reflexivity.
Qed.

Definition ordinal (d : Z * Z * Z) : Z := let '(y, m, d) := d in ymd2ord y m d.

(** All days of 400 years, one after the other *)
Definition check_step (st : Z * bool) : Z * bool :=
  let (n, b) := st in (n + 1, b && (date_eqb (ord2ymd (n + 1)) (next_day (ord2ymd n)) && (ordinal (ord2ymd n) =? n))).
Lemma checked : snd (N.iter 146097 check_step (1, true)) = true.
Proof. vm_compute. reflexivity. Qed.

Lemma check_iter : forall k n b, N.iter k check_step (n, b) =
  (n + Z.of_N k, snd (N.iter k check_step (n, b))) /\
  (snd (N.iter k check_step (n, b)) = true ->
   forall i, n <= i < n + Z.of_N k -> ord2ymd (i + 1) = next_day (ord2ymd i) /\ ordinal (ord2ymd i) = i).
Proof.
  intros k n b. induction k as [|k [E IH]] using N.peano_ind.
  - cbn [N.iter]. split; [cbn [snd]; f_equal; lia|]. intros _ i H. lia.
  - rewrite N.iter_succ. rewrite E. destruct (snd (N.iter k check_step (n, b))); cbn [check_step snd andb].
    + split; [f_equal; lia|]. intros H i Hi.
      assert (C : i < n + Z.of_N k \/ i = n + Z.of_N k) by lia.
      destruct C as [C|C]; [apply IH; [reflexivity|lia]|]. subst i. apply andb_true_iff in H as [H H'].
      split; [apply date_eqb_eq; exact H|apply Z.eqb_eq; exact H'].
    + split; [f_equal; lia|]. discriminate.
Qed.
Lemma ord_step_small : forall i, 1 <= i <= 146097 -> ord2ymd (i + 1) = next_day (ord2ymd i).
Proof.
  intros i H. apply (proj2 (check_iter 146097 1 true) checked).
  change (Z.of_N 146097) with 146097. lia.
Qed.
Lemma ordinal_small : forall i, 1 <= i <= 146097 -> ordinal (ord2ymd i) = i.
Proof.
  intros i H. apply (proj2 (check_iter 146097 1 true) checked).
  change (Z.of_N 146097) with 146097. lia.
Qed.

Lemma py_leap_period : forall y k, py_leap (y + k * 400) = py_leap y.
Proof.
  intros y k. unfold py_leap. rewrite Z_mod_plus_full.
  replace (y + k * 400) with (y + k * 4 * 100) at 2 by lia. rewrite Z_mod_plus_full.
  replace (y + k * 400) with (y + k * 100 * 4) by lia. rewrite Z_mod_plus_full. reflexivity.
Qed.
Lemma ordinal_shift : forall k d, ordinal (shift k d) = ordinal d + k * 146097.
Proof.
  intros k [[y m] d]. unfold shift, ordinal, ymd2ord. cbv zeta. rewrite py_leap_period.
  replace (y + k * 400 - 1) with (y - 1 + k * 400) by lia.
  rewrite (Z_div_plus_full (y - 1) k 400) by lia.
  replace ((y - 1 + k * 400) / 100) with ((y - 1) / 100 + k * 4)
    by (replace (y - 1 + k * 400) with (y - 1 + k * 4 * 100) by lia; rewrite Z_div_plus_full; lia).
  replace ((y - 1 + k * 400) / 4) with ((y - 1) / 4 + k * 100)
    by (replace (y - 1 + k * 400) with (y - 1 + k * 100 * 4) by lia; rewrite Z_div_plus_full; lia).
  lia.
Qed.
Lemma ordinal_ord : forall n, ordinal (ord2ymd n) = n.
Proof.
  intros n. rewrite (ord_period n), ordinal_shift.
  assert (R : 0 <= (n - 1) mod 146097 < 146097) by (apply Z.mod_pos_bound; lia).
  rewrite ordinal_small by lia. pose proof (Z.div_mod (n - 1) 146097). lia.
Qed.

Lemma ord_step : forall n, ord2ymd (n + 1) = next_day (ord2ymd n).
Proof.
  intros n. rewrite (ord_period n). set (k := (n - 1) / 146097). set (r := (n - 1) mod 146097).
  assert (R : 0 <= r < 146097) by (apply Z.mod_pos_bound; lia).
  assert (E : n = k * 146097 + r + 1) by (pose proof (Z.div_mod (n - 1) 146097); unfold k, r; lia).
  rewrite next_shift, <- ord_step_small by lia. rewrite (ord_period (n + 1)).
  rewrite (ord_period (r + 1 + 1)).
  replace (r + 1 + 1 - 1) with (r + 1) by lia. replace (n + 1 - 1) with (r + 1 + k * 146097) by lia.
  rewrite Z.div_add, Z.mod_add by lia.
  destruct (ord2ymd ((r + 1) mod 146097 + 1)) as [[y m] d]. unfold shift. repeat (f_equal; try lia).
Qed.

Lemma ord_days : forall n a, days_after n (ord2ymd a) (ord2ymd (a + Z.of_nat n)).
Proof.
  intros n a. induction n as [|n IH].
  - rewrite Z.add_0_r. constructor.
  - replace (a + Z.of_nat (S n)) with (a + Z.of_nat n + 1) by lia. rewrite ord_step. constructor. exact IH.
Qed.
Lemma days_after_fun : forall n a b c, days_after n a b -> days_after n a c -> b = c.
Proof.
  intros n a b c H. revert c. induction H as [a|n a b H IH]; intros c C; inversion C; subst; [reflexivity|].
  f_equal. apply IH. assumption.
Qed.
Lemma days_after_add : forall n m a b c, days_after n a b -> days_after m b c -> days_after (m + n) a c.
Proof.
  intros n m a b c H K. revert H. induction K as [b|m b c K IH]; intros H; [exact H|].
  cbn [Nat.add]. constructor. apply IH. exact H.
Qed.

(** ** Moments *)

Lemma py_round_nearest : forall q, nearest q (py_round q).
Proof.
  intros q. unfold nearest, py_round.
  pose proof (Qfloor_le q) as L. pose proof (Qlt_floor q) as U. rewrite inject_Z_plus in U.
  destruct (Qeq_bool _ 1) eqn:E.
  - apply Qeq_bool_iff in E. change (inject_Z 2) with 2%Q in E.
    destruct (Z.even (Qfloor q)); [|rewrite inject_Z_plus]; change (inject_Z 1) with 1%Q in *; split; lra.
  - destruct (Qle_bool _ 1) eqn:F.
    + apply Qle_bool_iff in F. change (inject_Z 2) with 2%Q in F. change (inject_Z 1) with 1%Q in *. split; lra.
    + assert (G : ~ (inject_Z 2 * (q - inject_Z (Qfloor q)) <= 1)%Q).
      { intros X. apply Qle_bool_iff in X. congruence. }
      change (inject_Z 2) with 2%Q in G. rewrite inject_Z_plus. change (inject_Z 1) with 1%Q in *. split; lra.
Qed.

Lemma trunc_bounds : forall x, (0 <= x)%Q -> (inject_Z (q_trunc x) <= x)%Q /\ (x < inject_Z (q_trunc x + 1))%Q /\ 0 <= q_trunc x.
Proof.
  intros [n d] H. unfold q_trunc. cbn [Qnum Qden].
  assert (N : 0 <= n) by (unfold Qle in H; cbn in H; lia).
  rewrite Z.quot_div_nonneg by lia.
  pose proof (Z.div_mod n (Zpos d) ltac:(lia)) as D. pose proof (Z.mod_pos_bound n (Zpos d) ltac:(lia)) as M.
  unfold Qle, Qlt, inject_Z. cbn [Qnum Qden]. split; [nia|]. split; [nia|]. apply Z.div_pos; lia.
Qed.

Lemma add_delta_moment : forall e days ms,
  let d := add_delta e days (ms / 1000) (ms mod 1000) in
  d_date d = ord2ymd (e + (days * 86400000 + ms) / 86400000) /\
  time_of_day ((days * 86400000 + ms) mod 86400000) (d_time d).
Proof.
  intros e days ms d. unfold d, add_delta. cbn [d_date d_time].
  assert (D : (days * 86400000 + ms) / 86400000 = days + ms / 1000 / 86400).
  { rewrite Z.div_div by lia. change (1000 * 86400) with 86400000. rewrite Z.add_comm, Z.div_add by lia. lia. }
  assert (Mo : (days * 86400000 + ms) mod 86400000 = (ms / 1000 mod 86400) * 1000 + ms mod 1000).
  { rewrite Z.add_comm, Z_mod_plus_full. change 86400000 with (1000 * 86400). rewrite Z.rem_mul_r by lia. lia. }
  split; [rewrite D; f_equal; lia|]. rewrite Mo. unfold time_of_day.
  set (s := ms / 1000 mod 86400). assert (S : 0 <= s < 86400) by (apply Z.mod_pos_bound; lia).
  assert (U : 0 <= ms mod 1000 < 1000) by (apply Z.mod_pos_bound; lia).
  pose proof (Z.div_mod s 3600 ltac:(lia)) as E1. pose proof (Z.mod_pos_bound s 3600 ltac:(lia)) as B1.
  pose proof (Z.div_mod (s mod 3600) 60 ltac:(lia)) as E2. pose proof (Z.mod_pos_bound (s mod 3600) 60 ltac:(lia)) as B2.
  pose proof (Z.div_pos s 3600 ltac:(lia) ltac:(lia)). pose proof (Z.div_pos (s mod 3600) 60 ltac:(lia) ltac:(lia)).
  repeat split; try lia.
Qed.

Lemma xldate_moment : forall x mode, (0 <= x)%Q -> exists n, serial_ms x n /\ 0 <= n /\
  (inject_Z (q_trunc x) <= x)%Q /\ q_trunc x * 86400000 <= n <= (q_trunc x + 1) * 86400000 /\
  d_date (xldate_as_datetime x mode)
  = ord2ymd ((if mode then ymd2ord 1904 1 1
              else if Qle_bool 60 x then ymd2ord 1899 12 30 else ymd2ord 1899 12 31) + n / 86400000) /\
  time_of_day (n mod 86400000) (d_time (xldate_as_datetime x mode)).
Proof.
  intros x mode X. destruct (trunc_bounds x X) as (L & U & P).
  set (days := q_trunc x) in *.
  set (ms := py_round ((x - inject_Z days) * inject_Z 86400000)).
  pose proof (py_round_nearest ((x - inject_Z days) * inject_Z 86400000)) as [N1 N2]. fold ms in N1, N2.
  rewrite inject_Z_plus in U. change (inject_Z 1) with 1%Q in U.
  assert (E : inject_Z 86400000 == 86400000) by reflexivity.
  assert (B : 0 <= ms <= 86400000).
  { assert (B1 : (inject_Z (-1) < inject_Z ms)%Q).
    { change (inject_Z (-1)) with (-(1))%Q. rewrite E in N1, N2. lra. }
    assert (B2 : (inject_Z ms < inject_Z 86400001)%Q).
    { change (inject_Z 86400001) with (86400001)%Q. rewrite E in N1, N2. lra. }
    rewrite <- Zlt_Qlt in B1, B2. lia. }
  exists (days * 86400000 + ms). split; [|split; [lia|split; [exact L|split; [lia|]]]].
  - unfold serial_ms, nearest. rewrite inject_Z_plus, inject_Z_mult. split; lra.
  - unfold xldate_as_datetime. fold days. fold ms. apply add_delta_moment.
Qed.
