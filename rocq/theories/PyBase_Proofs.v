(** Lemmas about [PyBase]. *)
From Verif Require Import PyBase.
Open Scope list_scope.

Lemma str_eqb_eq : forall a b, str_eqb a b = true <-> a = b.
Proof.
  induction a as [|x a IH]; destruct b as [|y b]; simpl; split; intro H;
    try reflexivity; try discriminate.
  - apply andb_true_iff in H. destruct H as [H1 H2].
    apply N.eqb_eq in H1. apply IH in H2. congruence.
  - inversion H; subst. rewrite N.eqb_refl. simpl. apply IH. reflexivity.
Qed.

Lemma str_eqb_refl : forall a, str_eqb a a = true.
Proof. intro a. apply str_eqb_eq. reflexivity. Qed.

Lemma str_eqb_neq : forall a b, str_eqb a b = false <-> a <> b.
Proof.
  intros a b. rewrite <- str_eqb_eq. destruct (str_eqb a b); split; congruence.
Qed.

Lemma str_eqb_spec : forall a b, reflect (a = b) (str_eqb a b).
Proof.
  intros a b. destruct (str_eqb a b) eqn:E; constructor.
  - apply str_eqb_eq; exact E.
  - apply str_eqb_neq; exact E.
Qed.

Lemma str_eqb_sym : forall a b, str_eqb a b = str_eqb b a.
Proof.
  intros a b. destruct (str_eqb_spec a b) as [->|H].
  - symmetry. apply str_eqb_refl.
  - symmetry. apply str_eqb_neq. congruence.
Qed.

(** ** split / join *)

Lemma split_on_not_nil : forall sep s, split_on sep s <> [].
Proof.
  intros sep s. destruct s as [|c s']; simpl; [discriminate|].
  destruct (c =? sep)%N; [discriminate|]. destruct (split_on sep s'); discriminate.
Qed.

Lemma split_on_app : forall sep a b, ~ In sep a ->
  split_on sep (a ++ sep :: b) = a :: split_on sep b.
Proof.
  induction a as [|c a IH]; intros b Hn; simpl.
  - rewrite N.eqb_refl. reflexivity.
  - assert (Hc : (c =? sep)%N = false).
    { apply N.eqb_neq. intros ->. apply Hn. left; reflexivity. }
    rewrite Hc. rewrite IH; [reflexivity|]. intro; apply Hn; right; assumption.
Qed.

Lemma split_on_none : forall sep a, ~ In sep a -> split_on sep a = [a].
Proof.
  induction a as [|c a IH]; intro Hn; simpl; [reflexivity|].
  assert (Hc : (c =? sep)%N = false).
  { apply N.eqb_neq. intros ->. apply Hn. left; reflexivity. }
  rewrite Hc. rewrite IH; [reflexivity|]. intro; apply Hn; right; assumption.
Qed.

Lemma split_join : forall sep parts, parts <> [] ->
  (forall p, In p parts -> ~ In sep p) ->
  split_on sep (join [sep] parts) = parts.
Proof.
  induction parts as [|p ps IH]; intros Hne Hs; [congruence|].
  destruct ps as [|q ps].
  - simpl. apply split_on_none. apply Hs. left; reflexivity.
  - change (join [sep] (p :: q :: ps)) with (p ++ sep :: join [sep] (q :: ps)).
    rewrite split_on_app by (apply Hs; left; reflexivity).
    f_equal. apply IH; [discriminate|]. intros x Hx. apply Hs. right; exact Hx.
Qed.

Lemma join_split : forall sep s, join [sep] (split_on sep s) = s.
Proof.
  induction s as [|c s IH]; [reflexivity|]. simpl.
  destruct (N.eqb_spec c sep) as [->|Hc].
  - destruct (split_on sep s) as [|w ws] eqn:E.
    + exfalso. eapply split_on_not_nil; exact E.
    + change (join [sep] ([] :: w :: ws)) with (sep :: join [sep] (w :: ws)).
      rewrite IH. reflexivity.
  - destruct (split_on sep s) as [|w ws] eqn:E.
    + exfalso. eapply split_on_not_nil; exact E.
    + destruct ws; simpl in *; rewrite <- IH; reflexivity.
Qed.

Lemma split_on_no_sep : forall sep s p, In p (split_on sep s) -> ~ In sep p.
Proof.
  induction s as [|c s IH]; intros p Hp; simpl in Hp.
  - destruct Hp as [<-|[]]. intros [].
  - destruct (N.eqb_spec c sep) as [->|Hc].
    + destruct Hp as [<-|Hp]; [intros []|auto].
    + destruct (split_on sep s) as [|w ws] eqn:E.
      * exfalso. eapply split_on_not_nil; exact E.
      * destruct Hp as [<-|Hp].
        -- intros [H|H]; [congruence|]. apply (IH w); [left; reflexivity|exact H].
        -- apply IH. right; exact Hp.
Qed.

(** ** Decimal printing and parsing *)

Lemma is_digit_dec : forall n : N, is_digit (48 + n mod 10)%N = true.
Proof.
  intro n. unfold is_digit. pose proof (N.mod_lt n 10 ltac:(lia)).
  generalize dependent (n mod 10)%N. intros m H.
  apply andb_true_iff; split; apply N.leb_le; lia.
Qed.

Lemma dec_fuel_app : forall f n acc, dec_fuel f n acc = dec_fuel f n [] ++ acc.
Proof.
  induction f as [|f IH]; intros n acc; cbn [dec_fuel]; [reflexivity|].
  destruct (n / 10 =? 0)%N; [reflexivity|].
  rewrite IH. rewrite (IH _ [(48 + n mod 10)%N]). rewrite <- app_assoc. reflexivity.
Qed.

Lemma dec_fuel_digits : forall f n acc, forallb is_digit acc = true ->
  forallb is_digit (dec_fuel f n acc) = true.
Proof.
  induction f as [|f IH]; intros n acc Ha; cbn [dec_fuel].
  - cbn [forallb]. rewrite is_digit_dec. exact Ha.
  - destruct (n / 10 =? 0)%N.
    + cbn [forallb]. rewrite is_digit_dec. exact Ha.
    + apply IH. cbn [forallb]. rewrite is_digit_dec. exact Ha.
Qed.

Lemma dec_fuel_not_nil : forall f n acc, dec_fuel f n acc <> [].
Proof.
  induction f as [|f IH]; intros n acc; cbn [dec_fuel]; [discriminate|].
  destruct (n / 10 =? 0)%N; [discriminate|apply IH].
Qed.

Definition digits_val (acc : Z) (s : pystr) : Z :=
  fold_left (fun a c => a * 10 + digit_val c)%Z s acc.

Lemma int_digits_all : forall s acc, forallb is_digit s = true ->
  int_digits acc s = Some (digits_val acc s).
Proof.
  induction s as [|c s IH]; intros acc H; simpl in *; [reflexivity|].
  apply andb_true_iff in H. destruct H as [H1 H2]. rewrite H1. apply IH. exact H2.
Qed.

Lemma int_unsigned_all : forall s, s <> [] -> forallb is_digit s = true ->
  int_unsigned s = Some (digits_val 0 s).
Proof.
  intros [|c s] Hn H; [congruence|]. simpl in *.
  apply andb_true_iff in H. destruct H as [H1 H2]. rewrite H1.
  rewrite int_digits_all by exact H2. reflexivity.
Qed.

Lemma digits_val_app : forall a b acc,
  digits_val acc (a ++ b) = digits_val (digits_val acc a) b.
Proof. intros. unfold digits_val. apply fold_left_app. Qed.

Lemma digit_val_dec : forall n : N, digit_val (48 + n mod 10)%N = Z.of_N (n mod 10)%N.
Proof. intro n. unfold digit_val. generalize (n mod 10)%N. intro m. lia. Qed.

Lemma dec_fuel_val : forall f n, (n < 2 ^ N.of_nat f)%N ->
  digits_val 0 (dec_fuel f n []) = Z.of_N n.
Proof.
  induction f as [|f IH]; intros n Hn.
  - simpl in Hn. assert (n = 0%N) by lia. subst. reflexivity.
  - cbn [dec_fuel]. pose proof (N.div_mod n 10 ltac:(lia)) as Hd.
    destruct (N.eqb_spec (n / 10) 0) as [E|E].
    + unfold digits_val. cbn [fold_left]. rewrite digit_val_dec. rewrite E in Hd. lia.
    + rewrite dec_fuel_app, digits_val_app.
      rewrite IH.
      * unfold digits_val. cbn [fold_left]. rewrite digit_val_dec. lia.
      * rewrite Nat2N.inj_succ, N.pow_succ_r' in Hn.
        apply N.div_lt_upper_bound; lia.
Qed.

Lemma N_size_nat_bound : forall n, (n < 2 ^ N.of_nat (N.size_nat n))%N.
Proof.
  intros [|p]; [reflexivity|]. change (N.size_nat (N.pos p)) with (Pos.size_nat p).
  induction p as [p IH|p IH|]; cbn [Pos.size_nat];
    try rewrite Nat2N.inj_succ, N.pow_succ_r'; try lia; reflexivity.
Qed.

Lemma str_of_N_val : forall n, digits_val 0 (str_of_N n) = Z.of_N n.
Proof. intro n. apply dec_fuel_val, N_size_nat_bound. Qed.

Lemma str_of_N_digits : forall n, forallb is_digit (str_of_N n) = true.
Proof. intro n. apply dec_fuel_digits. reflexivity. Qed.

Lemma str_of_N_not_nil : forall n, str_of_N n <> [].
Proof. intro n. apply dec_fuel_not_nil. Qed.

Lemma is_digit_range : forall c, is_digit c = true -> (48 <= c <= 57)%N.
Proof.
  intros c H. apply andb_true_iff in H. destruct H as [H1 H2].
  apply N.leb_le in H1. apply N.leb_le in H2. lia.
Qed.

Lemma is_digit_not_space : forall c, is_digit c = true -> is_space c = false.
Proof.
  intros c H. apply is_digit_range in H. unfold is_space.
  repeat (apply orb_false_iff; split); try apply N.eqb_neq; try lia;
    apply andb_false_iff; right; apply N.leb_gt; lia.
Qed.

Lemma drop_while_none : forall f s, (forall c, In c s -> f c = false) -> drop_while f s = s.
Proof.
  intros f [|c s] H; [reflexivity|]. simpl. rewrite H by (left; reflexivity). reflexivity.
Qed.

Lemma strip_no_space : forall s, (forall c, In c s -> is_space c = false) -> strip s = s.
Proof.
  intros s H. unfold strip. rewrite (drop_while_none _ s H).
  rewrite drop_while_none; [apply rev_involutive|].
  intros c Hc. apply H. apply in_rev. exact Hc.
Qed.

Lemma all_digits_no_space : forall s, forallb is_digit s = true ->
  forall c, In c s -> is_space c = false.
Proof.
  intros s H c Hc. apply is_digit_not_space. rewrite forallb_forall in H. auto.
Qed.

Lemma py_int_digits : forall s, s <> [] -> forallb is_digit s = true ->
  py_int s = Some (digits_val 0 s).
Proof.
  intros s Hn Hd. unfold py_int.
  rewrite strip_no_space by (apply all_digits_no_space; exact Hd).
  destruct s as [|c s]; [congruence|].
  assert (Hc : is_digit c = true).
  { simpl in Hd. apply andb_true_iff in Hd. tauto. }
  apply is_digit_range in Hc.
  destruct (N.eqb_spec c 45); [lia|]. destruct (N.eqb_spec c 43); [lia|].
  apply int_unsigned_all; assumption.
Qed.

Lemma py_int_str_of_N : forall n, py_int (str_of_N n) = Some (Z.of_N n).
Proof.
  intro n. rewrite py_int_digits.
  - rewrite str_of_N_val. reflexivity.
  - apply str_of_N_not_nil.
  - apply str_of_N_digits.
Qed.

Lemma py_int_neg_digits : forall s, s <> [] -> forallb is_digit s = true ->
  py_int (45%N :: s) = Some (- digits_val 0 s)%Z.
Proof.
  intros s Hn Hd. unfold py_int. rewrite strip_no_space.
  - rewrite N.eqb_refl. rewrite int_unsigned_all by assumption. reflexivity.
  - intros c [<-|Hc]; [reflexivity|]. eapply all_digits_no_space; eassumption.
Qed.

Lemma py_int_str_of_Z : forall z, py_int (str_of_Z z) = Some z.
Proof.
  intro z. unfold str_of_Z. destruct (Z.ltb_spec z 0).
  - rewrite py_int_neg_digits.
    + rewrite str_of_N_val. f_equal. lia.
    + apply str_of_N_not_nil.
    + apply str_of_N_digits.
  - rewrite py_int_str_of_N. f_equal. lia.
Qed.

(** ** Dicts *)

Section DictProofs.
  Context {K V : Type} (keqb : K -> K -> bool).
  Context (keqb_eq : forall a b, keqb a b = true <-> a = b).

  Lemma keqb_refl_ : forall a, keqb a a = true.
  Proof. intro a. apply keqb_eq. reflexivity. Qed.

  Lemma keqb_neq_ : forall a b, a <> b -> keqb a b = false.
  Proof.
    intros a b H. destruct (keqb a b) eqn:E; [|reflexivity].
    apply keqb_eq in E. contradiction.
  Qed.

  Lemma dget_dset_eq : forall k v (d : list (K * V)), dget keqb k (dset keqb k v d) = Some v.
  Proof.
    induction d as [|[k' v'] d IH]; simpl.
    - rewrite keqb_refl_. reflexivity.
    - destruct (keqb k k') eqn:E; simpl; rewrite E; [reflexivity|exact IH].
  Qed.

  Lemma dget_dset_neq : forall k k' v (d : list (K * V)), k <> k' ->
    dget keqb k' (dset keqb k v d) = dget keqb k' d.
  Proof.
    intros k k' v d Hn. induction d as [|[k2 v2] d IH]; simpl.
    - rewrite keqb_neq_ by congruence. reflexivity.
    - destruct (keqb k k2) eqn:E; simpl.
      + apply keqb_eq in E; subst. rewrite keqb_neq_ by congruence. reflexivity.
      + destruct (keqb k' k2); [reflexivity|exact IH].
  Qed.

  Lemma dget_ddel_eq : forall k (d : list (K * V)), dget keqb k (ddel keqb k d) = None.
  Proof.
    induction d as [|[k' v'] d IH]; simpl; [reflexivity|].
    destruct (keqb k k') eqn:E; [exact IH|]. simpl. rewrite E. exact IH.
  Qed.

  Lemma dget_ddel_neq : forall k k' (d : list (K * V)), k <> k' ->
    dget keqb k' (ddel keqb k d) = dget keqb k' d.
  Proof.
    intros k k' d Hn. induction d as [|[k2 v2] d IH]; simpl; [reflexivity|].
    destruct (keqb k k2) eqn:E; simpl.
    - apply keqb_eq in E; subst. rewrite (keqb_neq_ k' k2) by congruence. exact IH.
    - destruct (keqb k' k2); [reflexivity|exact IH].
  Qed.

  Lemma dget_Some_In : forall k v (d : list (K * V)), dget keqb k d = Some v -> In (k, v) d.
  Proof.
    induction d as [|[k' v'] d IH]; simpl; intro H; [discriminate|].
    destruct (keqb k k') eqn:E.
    - apply keqb_eq in E. inversion H; subst. left; reflexivity.
    - right; auto.
  Qed.

  Lemma dget_None_notin : forall k (d : list (K * V)),
    dget keqb k d = None <-> ~ In k (map fst d).
  Proof.
    induction d as [|[k' v'] d IH]; simpl; [tauto|].
    destruct (keqb k k') eqn:E.
    - apply keqb_eq in E; subst. split; [discriminate|tauto].
    - rewrite IH. split; intros H; [|tauto].
      intros [H2|H2]; [|tauto]. subst. rewrite keqb_refl_ in E. discriminate.
  Qed.

  Lemma dget_In_NoDup : forall k v (d : list (K * V)),
    NoDup (map fst d) -> In (k, v) d -> dget keqb k d = Some v.
  Proof.
    induction d as [|[k' v'] d IH]; simpl; intros Hnd Hin; [tauto|].
    inversion Hnd as [|x xs Hx Hxs]; subst.
    destruct Hin as [H|H].
    - inversion H; subst. rewrite keqb_refl_. reflexivity.
    - rewrite keqb_neq_; [auto|]. intros ->. apply Hx.
      apply (in_map fst) in H. exact H.
  Qed.

  Lemma dget_app : forall k (a b : list (K * V)),
    dget keqb k (a ++ b) = match dget keqb k a with Some v => Some v | None => dget keqb k b end.
  Proof.
    induction a as [|[k' v'] a IH]; intro b; simpl; [reflexivity|].
    destruct (keqb k k'); [reflexivity|apply IH].
  Qed.

  Lemma dkeys_dset_in : forall k v (d : list (K * V)), In k (map fst d) ->
    map fst (dset keqb k v d) = map fst d.
  Proof.
    induction d as [|[k' v'] d IH]; simpl; intro H; [tauto|].
    destruct (keqb k k') eqn:E; simpl; [reflexivity|].
    f_equal. apply IH. destruct H as [H|H]; [|exact H].
    subst. rewrite keqb_refl_ in E. discriminate.
  Qed.

  Lemma dkeys_dset_notin : forall k v (d : list (K * V)), ~ In k (map fst d) ->
    dset keqb k v d = d ++ [(k, v)].
  Proof.
    induction d as [|[k' v'] d IH]; simpl; intro H; [reflexivity|].
    rewrite keqb_neq_ by (intro; subst; tauto). f_equal. apply IH. tauto.
  Qed.

  Lemma NoDup_dset : forall k v (d : list (K * V)),
    NoDup (map fst d) -> NoDup (map fst (dset keqb k v d)).
  Proof.
    intros k v d H.
    destruct (dget keqb k d) as [v'|] eqn:E.
    - rewrite dkeys_dset_in; [exact H|].
      apply dget_Some_In in E. apply (in_map fst) in E. exact E.
    - apply dget_None_notin in E. rewrite dkeys_dset_notin by exact E.
      rewrite map_app. simpl.
      clear - H E. induction (map fst d) as [|x xs IH]; simpl.
      + constructor; [tauto|constructor].
      + inversion H; subst. constructor.
        * rewrite in_app_iff. simpl. intros [Hx|[Hx|[]]]; [tauto|]. subst. apply E. left; reflexivity.
        * apply IH; [assumption|]. intro; apply E; right; assumption.
  Qed.

  Lemma dset_same : forall k v (d : list (K * V)), dget keqb k d = Some v -> dset keqb k v d = d.
  Proof.
    induction d as [|[k' v'] d IH]; simpl; intro H; [discriminate|].
    destruct (keqb k k') eqn:E.
    - inversion H; subst. reflexivity.
    - f_equal. auto.
  Qed.
End DictProofs.

(** ** Lists *)

Lemma list_update_length : forall A (l : list A) i v, length (list_update l i v) = length l.
Proof. induction l as [|x l IH]; destruct i; simpl; congruence || auto. Qed.

Lemma nth_error_update_eq : forall A (l : list A) i v, (i < length l)%nat ->
  nth_error (list_update l i v) i = Some v.
Proof.
  induction l as [|x l IH]; intros i v H; [simpl in H; lia|].
  destruct i; simpl; [reflexivity|]. apply IH. simpl in H. lia.
Qed.

Lemma nth_error_update_neq : forall A (l : list A) i j v, i <> j ->
  nth_error (list_update l i v) j = nth_error l j.
Proof.
  induction l as [|x l IH]; intros i j v H.
  - destruct i; reflexivity.
  - destruct i, j; simpl; try reflexivity; [congruence|]. apply IH. congruence.
Qed.

Lemma list_index_bound : forall A (l : list A) z i, list_index l z = Some i -> (i < length l)%nat.
Proof.
  intros A l z i H. unfold list_index in H.
  destruct (Z.leb_spec 0 z).
  - destruct (Z.ltb_spec z (Z.of_nat (length l))); inversion H; subst. lia.
  - destruct (Z.leb_spec (- Z.of_nat (length l)) z); inversion H; subst. lia.
Qed.

Lemma list_index_length : forall A B (l : list A) (l' : list B) z,
  length l = length l' -> list_index l z = list_index l' z.
Proof. intros. unfold list_index. rewrite H. reflexivity. Qed.

Lemma list_getitem_Some : forall A (l : list A) z i, list_index l z = Some i ->
  exists v, list_getitem l z = Some v /\ nth_error l i = Some v.
Proof.
  intros A l z i H. unfold list_getitem. rewrite H.
  pose proof (list_index_bound _ _ _ _ H) as Hb. apply nth_error_Some in Hb.
  destruct (nth_error l i) as [v|]; [|congruence]. exists v; split; reflexivity.
Qed.
