(** Lemmas for C16-C18. *)
From Coq Require Import String.
From Verif Require Import PyBase PyBase_Proofs Coords_Model Coords_Spec.
Open Scope Z_scope.

(** ** Bijective base 26 *)

Definition isU (s : pystr) : Prop := forall c, In c s -> is_upper c = true.

Fixpoint val (acc : Z) (s : pystr) : Z :=
  match s with
  | [] => acc
  | c :: s' => val (acc * 26 + (Z.of_N c - 64)) s'
  end.

Lemma is_upper_range : forall c, is_upper c = true -> 65 <= Z.of_N c <= 90.
Proof.
  intros c H. unfold is_upper in H. apply andb_true_iff in H. destruct H as [H1 H2].
  apply N.leb_le in H1, H2. lia.
Qed.

Lemma range_is_upper : forall c, (65 <= c <= 90)%N -> is_upper c = true.
Proof. intros c H. unfold is_upper. apply andb_true_iff. split; apply N.leb_le; lia. Qed.

Lemma val_cons : forall c s acc, val acc (c :: s) = val (acc * 26 + (Z.of_N c - 64)) s.
Proof. reflexivity. Qed.

Lemma val_app : forall a b acc, val acc (a ++ b) = val (val acc a) b.
Proof. induction a as [|c a IH]; intros; cbn; [reflexivity|apply IH]. Qed.

Lemma val_snoc : forall p c, val 0 (p ++ [c]) = val 0 p * 26 + (Z.of_N c - 64).
Proof. intros. rewrite val_app. reflexivity. Qed.

Lemma isU_app : forall a b, isU (a ++ b) <-> isU a /\ isU b.
Proof.
  intros a b. split.
  - intro H. split; intros c Hc; apply H; apply in_or_app; auto.
  - intros [H1 H2] c Hc. apply in_app_or in Hc. destruct Hc; auto.
Qed.

Lemma isU_1 : forall c, isU [c] <-> is_upper c = true.
Proof. intro c. split; [intro H; apply H; left; reflexivity|intros H d [<-|[]]; exact H]. Qed.

Lemma val_nonneg : forall s, isU s -> 0 <= val 0 s /\ (s <> [] -> 1 <= val 0 s).
Proof.
  induction s as [|c p IH] using rev_ind; intro H; [split; [cbn; lia|congruence]|].
  apply isU_app in H. destruct H as [Hp Hc]. apply isU_1 in Hc. apply is_upper_range in Hc.
  rewrite val_snoc. destruct (IH Hp). lia.
Qed.

Lemma val_inj : forall s t, isU s -> isU t -> val 0 s = val 0 t -> s = t.
Proof.
  induction s as [|c p IH] using rev_ind; intros t Hs Ht E.
  - destruct t as [|d t]; [reflexivity|]. destruct (val_nonneg (d :: t) Ht) as [_ H].
    assert (1 <= val 0 (d :: t)) by (apply H; discriminate). change (0 = val 0 (d :: t)) in E. lia.
  - destruct t as [|d q _] using rev_ind.
    + destruct (val_nonneg (p ++ [c]) Hs) as [_ H].
      assert (1 <= val 0 (p ++ [c])) by (apply H; destruct p; discriminate). change (val 0 (p ++ [c]) = 0) in E. lia.
    + apply isU_app in Hs, Ht. destruct Hs as [Hp Hc], Ht as [Hq Hd].
      apply isU_1 in Hc, Hd. apply is_upper_range in Hc, Hd. rewrite !val_snoc in E.
      assert (E1 : val 0 p = val 0 q) by lia. assert (E2 : c = d) by lia.
      rewrite (IH q Hp Hq E1), E2. reflexivity.
Qed.

Lemma next_name_val : forall s t, next_name s t -> val 0 t = val 0 s + 1.
Proof.
  intros s t H. induction H as [p c Hc| |p p' H IH].
  - rewrite !val_snoc. lia.
  - reflexivity.
  - change (lit "Z") with [90%N]. change (lit "A") with [65%N]. rewrite !val_snoc. lia.
Qed.

Lemma next_name_isU : forall s t, next_name s t -> (isU s <-> isU t) /\ s <> [] /\ t <> [].
Proof.
  intros s t H. induction H as [p c Hc| |p p' H [IH _]].
  - split; [|split; destruct p; discriminate].
    rewrite !isU_app, !isU_1. split; intros [H1 _]; split; try exact H1; apply range_is_upper; lia.
  - split; [|split; discriminate]. split; intros _ c Hc; cbn in Hc; intuition subst; reflexivity.
  - split; [|split; [destruct p|destruct p']; discriminate].
    rewrite !isU_app. split; intros [H1 _]; (split; [apply IH; exact H1|]);
      intros c Hc; cbn in Hc; intuition subst; reflexivity.
Qed.

Lemma next_name_exists : forall s, isU s -> s <> [] -> exists t, next_name s t.
Proof.
  induction s as [|c p IH] using rev_ind; intros H Hn; [congruence|].
  apply isU_app in H. destruct H as [Hp Hc]. apply isU_1 in Hc. apply is_upper_range in Hc.
  destruct (Z.eq_dec (Z.of_N c) 90) as [E|E].
  - assert (c = 90%N) by lia. subst c. destruct p as [|d p].
    + eexists. apply Next_Z.
    + destruct (IH Hp) as (t & Ht); [discriminate|]. eexists. apply (Next_carry _ _ Ht).
  - eexists. apply Next_last. lia.
Qed.

Lemma names_val : forall n s, names n s -> val 0 s = Z.of_nat n + 1 /\ isU s /\ s <> [].
Proof.
  intros n s H. induction H as [|n s s' H (IH1 & IH2 & IH3) Hn].
  - split; [reflexivity|]. split; [|discriminate]. intros c Hc. cbn in Hc. intuition subst; reflexivity.
  - pose proof (next_name_val _ _ Hn). destruct (next_name_isU _ _ Hn) as (Hu & _ & Hx).
    split; [lia|]. split; [apply Hu; exact IH2|exact Hx].
Qed.

Lemma names_exists : forall n, exists s, names n s.
Proof.
  induction n as [|n (s & Hs)]; [eexists; constructor|].
  destruct (names_val _ _ Hs) as (_ & Hu & Hn). destruct (next_name_exists s Hu Hn) as (t & Ht).
  exists t. econstructor; eassumption.
Qed.

Lemma names_iff : forall n s, names n s <-> isU s /\ val 0 s = Z.of_nat n + 1.
Proof.
  intros n s. split.
  - intro H. apply names_val in H. tauto.
  - intros [Hu Hv]. destruct (names_exists n) as (t & Ht). destruct (names_val _ _ Ht) as (H1 & H2 & _).
    rewrite (val_inj s t Hu H2) by lia. exact Ht.
Qed.

Lemma colname_fuel_spec : forall f n acc, (n < 2 ^ N.of_nat f)%N -> isU acc ->
  isU (colname_fuel f n acc) /\ forall s, colname_fuel f n acc = s ->
  val 0 s = val (Z.of_N n + 1) acc.
Proof.
  assert (Hm : forall n, (n mod 26 < 26)%N) by (intro n; apply N.mod_lt; discriminate).
  induction f as [|f IH]; intros n acc Hf Ha.
  - cbn in Hf. assert (n = 0)%N by lia. subst. cbn [colname_fuel].
    change (65 + 0 mod 26)%N with 65%N. split.
    + intros c [<-|Hc]; [reflexivity|apply Ha; exact Hc].
    + intros s <-. reflexivity.
  - cbn [colname_fuel].
    assert (Ha' : isU ((65 + n mod 26)%N :: acc)).
    { intros c [<-|Hc]; [apply range_is_upper; specialize (Hm n); clear - Hm; set (x := (n mod 26)%N) in *; clearbody x; lia|apply Ha; exact Hc]. }
    destruct (N.leb_spec n 25).
    + split; [exact Ha'|]. intros s <-. rewrite val_cons. rewrite N.mod_small by lia. f_equal. lia.
    + assert (Hd : (n / 26 - 1 < 2 ^ N.of_nat f)%N).
      { rewrite Nat2N.inj_succ, N.pow_succ_r' in Hf.
        assert (n / 26 <= n / 2)%N by (apply N.div_le_compat_l; lia).
        assert (n / 2 < 2 ^ N.of_nat f)%N by (apply N.div_lt_upper_bound; lia). lia. }
      destruct (IH (n / 26 - 1)%N _ Hd Ha') as [H1 H2]. split; [exact H1|].
      intros s Hs. rewrite (H2 s Hs). rewrite val_cons. f_equal.
      pose proof (N.div_mod n 26) as Hdm. specialize (Hm n).
      assert (1 <= n / 26)%N by (apply N.div_le_lower_bound; lia). lia.
Qed.

Lemma colname_names : forall n, names (N.to_nat n) (colname n).
Proof.
  intro n. apply names_iff. unfold colname.
  destruct (colname_fuel_spec (N.size_nat n) n []) as [H1 H2].
  - apply N_size_nat_bound.
  - intros c [].
  - split; [exact H1|]. rewrite (H2 _ eq_refl). cbn [val]. lia.
Qed.

(** ** Letters *)

Lemma up_alpha : forall c, is_upper (up c) = is_alpha c.
Proof.
  intro c. unfold up, is_alpha. destruct (is_lower c) eqn:E; [|rewrite orb_false_r; reflexivity].
  rewrite orb_true_r. apply range_is_upper. unfold is_lower in E.
  apply andb_true_iff in E. destruct E as [E1 E2]. apply N.leb_le in E1, E2. lia.
Qed.

Lemma up_upper : forall c, is_upper c = true -> up c = c.
Proof.
  intros c H. unfold up. destruct (is_lower c) eqn:E; [|reflexivity]. exfalso.
  apply is_upper_range in H. unfold is_lower in E.
  apply andb_true_iff in E. destruct E as [E1 E2]. apply N.leb_le in E1, E2. lia.
Qed.

Lemma up_up : forall c, up (up c) = up c.
Proof.
  intro c. unfold up at 2 3. destruct (is_lower c) eqn:E; [|unfold up; rewrite E; reflexivity].
  apply up_upper. rewrite <- (up_alpha c) || idtac. unfold is_lower in E.
  apply andb_true_iff in E. destruct E as [E1 E2]. apply N.leb_le in E1, E2.
  apply range_is_upper. lia.
Qed.

Lemma upper_upper : forall s, upper (upper s) = upper s.
Proof. intro s. unfold upper. rewrite map_map. apply map_ext. exact up_up. Qed.

Lemma isU_upper_id : forall s, isU s -> upper s = s.
Proof.
  induction s as [|c s IH]; intro H; [reflexivity|]. cbn. rewrite up_upper by (apply H; left; reflexivity).
  f_equal. apply IH. intros d Hd. apply H. right. exact Hd.
Qed.

Lemma letters2num_val : forall s acc,
  letters2num acc s = if forallb is_alpha s then Ok (val acc (upper s)) else Raise ValueError.
Proof.
  induction s as [|c s IH]; intro acc; cbn [letters2num forallb upper map val]; [reflexivity|].
  rewrite up_alpha. destruct (is_alpha c); cbn [andb]; [|reflexivity].
  rewrite IH. destruct (forallb is_alpha s); [|reflexivity]. f_equal. unfold upper. f_equal. lia.
Qed.

Lemma forallb_letters : forall s, s <> [] -> (letters s <-> forallb is_alpha s = true).
Proof.
  intros s Hn. unfold letters. rewrite forallb_forall. tauto.
Qed.

Lemma letters_isU : forall s, letters s -> isU (upper s) /\ upper s <> [].
Proof.
  intros s [Hn H]. split; [|destruct s; [congruence|discriminate]].
  intros c Hc. unfold upper in Hc. apply in_map_iff in Hc. destruct Hc as (d & <- & Hd).
  rewrite up_alpha. apply H. exact Hd.
Qed.

Lemma is_alpha_ranges : forall c, is_alpha c = true -> (65 <= c <= 90)%N \/ (97 <= c <= 122)%N.
Proof.
  intros c H. unfold is_alpha, is_upper, is_lower in H. apply orb_true_iff in H.
  destruct H as [H|H]; apply andb_true_iff in H; destruct H as [H1 H2]; apply N.leb_le in H1, H2; lia.
Qed.

Lemma is_alpha_not_space : forall c, is_alpha c = true -> is_space c = false.
Proof.
  intros c H. apply is_alpha_ranges in H. unfold is_space.
  repeat (apply orb_false_iff; split);
    try (apply andb_false_iff); try apply N.eqb_neq; try lia.
  - right. apply N.leb_gt. lia.
  - right. apply N.leb_gt. lia.
Qed.

Lemma is_alpha_not_digit : forall c, is_alpha c = true -> is_digit c = false.
Proof.
  intros c H. apply is_alpha_ranges in H. unfold is_digit. apply andb_false_iff. right.
  apply N.leb_gt. lia.
Qed.

Lemma py_int_letters : forall s, letters s -> py_int s = None.
Proof.
  intros s [Hn H]. unfold py_int. rewrite strip_no_space by (intros c Hc; apply is_alpha_not_space, H, Hc).
  destruct s as [|c s]; [congruence|]. pose proof (H c (or_introl eq_refl)) as Hc.
  pose proof (is_alpha_ranges _ Hc). destruct (N.eqb_spec c 45); [lia|]. destruct (N.eqb_spec c 43); [lia|].
  unfold int_unsigned. rewrite is_alpha_not_digit by exact Hc. reflexivity.
Qed.

Lemma col2num_letters : forall s, letters s -> col2num (CStr s) = Ok (val 0 (upper s) - 1).
Proof.
  intros s H. unfold col2num, int_of. rewrite py_int_letters by exact H. rewrite letters2num_val.
  rewrite (proj1 (forallb_letters s (proj1 H)) H). reflexivity.
Qed.

Lemma col2num_names : forall s n, letters s ->
  (col2num (CStr s) = Ok (Z.of_nat n) <-> names n (upper s)).
Proof.
  intros s n H. rewrite col2num_letters by exact H. rewrite names_iff.
  destruct (letters_isU s H) as [Hu _]. split.
  - intro E. inversion E. split; [exact Hu|lia].
  - intros [_ E]. rewrite E. f_equal. lia.
Qed.

Lemma names_letters : forall n s, names n s -> letters s /\ upper s = s.
Proof.
  intros n s H. destruct (names_val _ _ H) as (_ & Hu & Hn). split; [|apply isU_upper_id; exact Hu].
  split; [exact Hn|]. intros c Hc. unfold is_alpha. rewrite (Hu c Hc). reflexivity.
Qed.

Lemma col2num_colname : forall n, col2num (CStr (colname n)) = Ok (Z.of_N n).
Proof.
  intro n. pose proof (colname_names n) as H. destruct (names_letters _ _ H) as [Hl Hu].
  rewrite <- (N2Nat.id n) at 2. rewrite nat_N_Z. apply col2num_names; [exact Hl|]. rewrite Hu. exact H.
Qed.

Lemma letters_one_column : forall s, letters s ->
  exists n, col2num (CStr s) = Ok (Z.of_nat n) /\ names n (upper s)
            /\ forall n', names n' (upper s) -> n' = n.
Proof.
  intros s H. destruct (letters_isU s H) as [Hu Hn].
  destruct (val_nonneg _ Hu) as [_ Hp]. specialize (Hp Hn).
  set (n := Z.to_nat (val 0 (upper s) - 1)).
  assert (Hnm : names n (upper s)) by (apply names_iff; split; [exact Hu|lia]).
  exists n. split; [apply col2num_names; assumption|]. split; [exact Hnm|].
  intros n' H'. apply names_iff in H'. lia.
Qed.

Lemma col2num_case : forall s t, letters s -> same_letters s t -> col2num (CStr t) = col2num (CStr s).
Proof.
  intros s t H E. unfold same_letters in E.
  assert (Ht : letters t).
  { destruct (letters_isU s H) as [Hu Hn]. rewrite E in Hu, Hn. split; [destruct t; [exact (fun _ => Hn eq_refl)|discriminate]|].
    intros c Hc. rewrite <- up_alpha. apply Hu. apply in_map. exact Hc. }
  rewrite !col2num_letters by assumption. rewrite E. reflexivity.
Qed.

Lemma row2num_name : forall n, 0 <= n -> row2num (CStr (str_of_Z (n + 1))) = Ok n.
Proof.
  intros n H. unfold row2num, int_of. rewrite py_int_str_of_Z. cbn [rbind]. unfold zero_based.
  destruct (Z.eqb_spec (n + 1) 0); [lia|]. destruct (Z.ltb_spec 0 (n + 1)); [|lia]. f_equal. lia.
Qed.

(** ** Resolution *)

Lemma special_cases : forall s, is_special s = true ->
  s = lit "^" \/ s = lit "_" \/ s = lit ".".
Proof.
  intros s H. unfold is_special in H. apply orb_true_iff in H. rewrite orb_true_iff, !str_eqb_eq in H. tauto.
Qed.

Lemma special_py_int : forall s, is_special s = true -> py_int s = None.
Proof. intros s H. apply special_cases in H. destruct H as [-> |[-> | ->]]; reflexivity. Qed.

Lemma int_not_special : forall s z, py_int s = Some z -> is_special s = false.
Proof.
  intros s z H. destruct (is_special s) eqn:E; [|reflexivity]. rewrite special_py_int in H by exact E. discriminate.
Qed.

Lemma letters_not_special : forall s, letters s -> is_special s = false.
Proof.
  intros s [_ H]. destruct (is_special s) eqn:E; [|reflexivity]. exfalso.
  apply special_cases in E. destruct E as [-> |[-> | ->]];
    specialize (H _ (or_introl eq_refl)); vm_compute in H; discriminate.
Qed.

Definition fix_neg (dn r : Z) : Z := if r <? 0 then dn + r + 1 else r.

Lemma resolve_plain : forall cfunc c up dn base r,
  (forall s, c = CStr s -> is_special s = false) ->
  (resolve_coord cfunc c up dn base = Ok r <-> exists z, cfunc c = Ok z /\ r = fix_neg dn z).
Proof.
  intros cfunc c u dn base r H. unfold resolve_coord.
  assert (E : match c with
         | CStr s =>
             if is_special s then
               if str_eqb s (lit "^") then Ok u
               else if str_eqb s (lit "_") then Ok dn
               else match base with Some b => Ok b | None => Raise KeyError end
             else do r <- cfunc c; Ok (if (r <? 0)%Z then dn + r + 1 else r)%Z
         | _ => do r <- cfunc c; Ok (if (r <? 0)%Z then dn + r + 1 else r)%Z
         end = do r <- cfunc c; Ok (fix_neg dn r)).
  { destruct c; [rewrite (H _ eq_refl); reflexivity|reflexivity|reflexivity]. }
  rewrite E. clear E. destruct (cfunc c) as [z|e]; cbn [rbind].
  - split; [intro E; inversion E; eauto|intros (z' & E & ->); inversion E; reflexivity].
  - split; [discriminate|]. intros (z & E & _). discriminate.
Qed.

Lemma resolve_coord_raise : forall cfunc c up dn base e,
  resolve_coord cfunc c up dn base = Raise e -> e = ValueError.
Proof.
  intros cfunc c u dn base e. unfold resolve_coord.
  match goal with |- context [match ?x with Ok _ => _ | Raise _ => _ end = _] => destruct x end; congruence.
Qed.

Lemma row2num_spec : forall c z, row2num c = Ok z <->
  (exists n, int_of c = Ok n /\ ((0 < n /\ z = n - 1) \/ (n < 0 /\ z = n))).
Proof.
  intros c z. unfold row2num. destruct (int_of c) as [n|e]; cbn [rbind].
  - unfold zero_based. split.
    + destruct (Z.eqb_spec n 0); [discriminate|]. destruct (Z.ltb_spec 0 n); intro E; injection E as <-;
        exists n; (split; [reflexivity|lia]).
    + intros (m & Em & H). inversion Em; subst. destruct (Z.eqb_spec m 0); [lia|].
      destruct (Z.ltb_spec 0 m); f_equal; lia.
  - split; [discriminate|]. intros (n & E & _). discriminate.
Qed.

Lemma denotes_int : forall up dn base c n, int_of c = Ok n ->
  (forall s, c = CStr s -> is_special s = false) ->
  forall r, denotes up dn base c r <-> (0 < n /\ r = n - 1) \/ (n < 0 /\ r = fix_neg dn n).
Proof.
  intros u dn base c n Hi Hs r. split.
  - intro H. inversion H; subst; try (specialize (Hs _ eq_refl); discriminate).
    + cbn in Hi. rewrite H0 in Hi. inversion Hi; subst. lia.
    + cbn in Hi. rewrite H0 in Hi. inversion Hi; subst. right. unfold fix_neg.
      destruct (Z.ltb_spec (- z) 0); lia.
    + inversion Hi; subst. lia.
    + inversion Hi; subst. right. unfold fix_neg. destruct (Z.ltb_spec (- z) 0); lia.
  - intros [[Hp ->]|[Hn ->]]; destruct c as [s|z|]; try discriminate; cbn in Hi.
    + destruct (py_int s) as [m|] eqn:E; inversion Hi; subst. apply Dn_pos; assumption.
    + inversion Hi; subst. apply Dn_ipos; assumption.
    + destruct (py_int s) as [m|] eqn:E; inversion Hi; subst. unfold fix_neg.
      destruct (Z.ltb_spec n 0); [|lia]. replace (dn + n + 1) with (dn - (- n - 1)) by lia.
      apply Dn_neg; [rewrite E; f_equal; lia|lia].
    + inversion Hi; subst. unfold fix_neg. destruct (Z.ltb_spec n 0); [|lia].
      replace (dn + n + 1) with (dn - (- n - 1)) by lia.
      replace (CInt n) with (CInt (- - n)) by (f_equal; lia). apply Dn_ineg. lia.
Qed.

Lemma denotes_no_int : forall up dn base c r, (forall n, int_of c <> Ok n) ->
  (forall s, c = CStr s -> is_special s = false) -> ~ denotes up dn base c r.
Proof.
  intros u dn base c r Hi Hs H. inversion H; subst; try (specialize (Hs _ eq_refl); discriminate).
  - apply (Hi z). cbn. rewrite H0. reflexivity.
  - apply (Hi (- z)). cbn. rewrite H0. reflexivity.
  - apply (Hi z). reflexivity.
  - apply (Hi (- z)). reflexivity.
Qed.

Lemma resolve_special : forall cfunc s up dn base r, is_special s = true ->
  (resolve_coord cfunc (CStr s) up dn base = Ok r <-> denotes up dn base (CStr s) r).
Proof.
  intros cfunc s u dn base r H. unfold resolve_coord. rewrite H.
  assert (Hn : py_int s = None) by (apply special_py_int; exact H).
  apply special_cases in H. destruct H as [-> |[-> | ->]]; cbn.
  - split; [intro E; inversion E; subst; apply Dn_first|intro D; inversion D; try reflexivity; subst; try discriminate; congruence].
  - split; [intro E; inversion E; subst; apply Dn_last|intro D; inversion D; try reflexivity; subst; try discriminate; congruence].
  - split.
    + destruct base; intro E; inversion E; subst. apply Dn_base. reflexivity.
    + intro D; inversion D; subst; try discriminate; try reflexivity; congruence.
Qed.

Lemma coord_special_dec : forall c,
  (exists s, c = CStr s /\ is_special s = true) \/ (forall s, c = CStr s -> is_special s = false).
Proof.
  intros [s|z|]; [destruct (is_special s) eqn:E|..].
  - left. eauto.
  - right. intros t Et. inversion Et; subst. exact E.
  - right. discriminate.
  - right. discriminate.
Qed.

Lemma resolve_row_denotes : forall c up dn base r,
  resolve_coord row2num c up dn base = Ok r <-> denotes up dn base c r.
Proof.
  intros c u dn base r. destruct (coord_special_dec c) as [(s & -> & H)|H]; [apply resolve_special; exact H|].
  rewrite resolve_plain by exact H. destruct (int_of c) as [n|e] eqn:E.
  - rewrite (denotes_int _ _ _ _ _ E H). split.
    + intros (z & Hz & ->). apply row2num_spec in Hz. destruct Hz as (m & Em & Hz).
      rewrite E in Em. inversion Em; subst. unfold fix_neg. destruct Hz as [[H1 ->]|[H1 ->]]; [|right; auto].
      left. split; [exact H1|]. destruct (Z.ltb_spec (m - 1) 0); lia.
    + intros [[Hp ->]|[Hn ->]].
      * exists (n - 1). split; [apply row2num_spec; exists n; auto|]. unfold fix_neg.
        destruct (Z.ltb_spec (n - 1) 0); lia.
      * exists n. split; [apply row2num_spec; exists n; auto|reflexivity].
  - split.
    + intros (z & Hz & _). apply row2num_spec in Hz. destruct Hz as (m & Em & _). congruence.
    + intro D. exfalso. apply (denotes_no_int u dn base c r); [congruence|exact H|exact D].
Qed.

Lemma denotes_col_int : forall up dn base c r n, int_of c = Ok n ->
  (denotes_col up dn base c r <-> denotes up dn base c r).
Proof.
  intros u dn base c r n E. split; [|apply Dc_same]. intro H. inversion H; subst; [assumption|].
  exfalso. cbn in E. rewrite py_int_letters in E by assumption. discriminate.
Qed.

Lemma resolve_col_denotes : forall c up dn base r, c <> CStr [] ->
  (resolve_coord col2num c up dn base = Ok r <-> denotes_col up dn base c r).
Proof.
  intros c u dn base r Hne. destruct (coord_special_dec c) as [(s & -> & H)|H].
  - rewrite resolve_special by exact H. split; [apply Dc_same|]. intro D. inversion D; subst; [assumption|].
    exfalso. rewrite letters_not_special in H by assumption. discriminate.
  - destruct (int_of c) as [n|e] eqn:E.
    + rewrite (denotes_col_int _ _ _ _ _ _ E), <- resolve_row_denotes, !resolve_plain by exact H.
      assert (Er : col2num c = row2num c) by (unfold col2num, row2num; rewrite E; reflexivity).
      rewrite Er. reflexivity.
    + rewrite resolve_plain by exact H. split.
      * intros (z & Hz & ->). unfold col2num in Hz. rewrite E in Hz.
        destruct c as [s| |]; cbn in E.
        -- assert (Ee : e = ValueError) by (destruct (py_int s); congruence). subst e.
           rewrite letters2num_val in Hz. destruct (forallb is_alpha s) eqn:Ea; [|discriminate].
           cbn in Hz. inversion Hz; subst. assert (Hl : letters s) by (apply forallb_letters; [congruence|exact Ea]).
           destruct (letters_one_column s Hl) as (n & Hn & Hm & _). rewrite col2num_letters in Hn by exact Hl.
           inversion Hn as [Hn']. rewrite Hn'. unfold fix_neg. destruct (Z.ltb_spec (Z.of_nat n) 0); [lia|].
           apply Dc_name; assumption.
        -- discriminate.
        -- inversion E; subst. discriminate.
      * intro D. inversion D; subst.
        -- exfalso. apply (denotes_no_int u dn base c r); [congruence|exact H|assumption].
        -- exists (Z.of_nat n). split; [apply col2num_names; assumption|].
           unfold fix_neg. destruct (Z.ltb_spec (Z.of_nat n) 0); lia.
Qed.

Lemma resolve_cell_spec : forall c u d base r k, c_col c <> CStr [] ->
  (resolve_cell c u d base = Ok (r, k) <->
   denotes (fst u) (fst d) (option_map fst base) (c_row c) r
   /\ denotes_col (snd u) (snd d) (option_map snd base) (c_col c) k).
Proof.
  intros c u d base r k Hne. rewrite <- resolve_row_denotes, <- resolve_col_denotes by exact Hne.
  unfold resolve_cell. destruct (resolve_coord row2num _ _ _ _) as [r'|e]; cbn [rbind].
  - destruct (resolve_coord col2num _ _ _ _) as [k'|e]; cbn [rbind].
    + split; [intro E; inversion E; auto|intros [E1 E2]; inversion E1; inversion E2; reflexivity].
    + split; [discriminate|intros [_ E]; discriminate].
  - split; [discriminate|intros [E _]; discriminate].
Qed.

Lemma resolve_cell_raise : forall c u d base e, resolve_cell c u d base = Raise e -> e = ValueError.
Proof.
  intros c u d base e. unfold resolve_cell.
  match goal with |- context [match ?x with Ok _ => _ | Raise _ => _ end = _] => destruct x end; congruence.
Qed.

Lemma coords2Cell_resolves : forall r k u d base, 0 <= r -> 0 <= k ->
  exists c, coords2Cell (CInt r) (CInt k) = Ok c /\ resolve_cell c u d base = Ok (r, k).
Proof.
  intros r k u d base Hr Hk. unfold coords2Cell, row_name, col_name.
  destruct (Z.leb_spec 0 r); [|lia]. destruct (Z.leb_spec 0 k); [|lia]. cbn [rbind].
  eexists. split; [reflexivity|]. pose proof (colname_names (Z.to_N k)) as Hn.
  destruct (names_letters _ _ Hn) as [Hl Hu].
  apply resolve_cell_spec; cbn [c_row c_col].
  - intro E. inversion E as [E']. rewrite E' in Hl. destruct Hl as [Hl _]. congruence.
  - split.
    + replace r with (r + 1 - 1) at 2 by lia. apply Dn_pos; [apply py_int_str_of_Z|lia].
    + replace k with (Z.of_nat (N.to_nat (Z.to_N k))) at 2 by lia. apply Dc_name; [exact Hl|].
      rewrite Hu. exact Hn.
Qed.

(** ** Never negative *)

Lemma denotes_nonneg : forall u d base c r, 0 <= u -> 0 <= d -> (forall b, base = Some b -> 0 <= b) ->
  denotes u d base c r ->
  (0 <= r \/ exists z, int_of c = Ok (- z) /\ d + 1 < z).
Proof.
  intros u d base c r Hu Hd Hb H. inversion H; subst; try (left; lia).
  - left. apply Hb. reflexivity.
  - destruct (Z_le_gt_dec z (d + 1)); [left; lia|]. right. exists z. split; [cbn; rewrite H0; reflexivity|lia].
  - destruct (Z_le_gt_dec z (d + 1)); [left; lia|]. right. exists z. split; [reflexivity|lia].
Qed.

Lemma denotes_negative : forall u d base c r z,
  (forall s, c = CStr s -> is_special s = false) ->
  int_of c = Ok (- z) -> 0 < z -> denotes u d base c r -> r = d - (z - 1).
Proof.
  intros u d base c r z Hs Hi Hz H. apply (denotes_int _ _ _ _ _ Hi Hs) in H.
  unfold fix_neg in H. destruct (Z.ltb_spec (- z) 0); lia.
Qed.

Lemma int_of_counts_back : forall c z, int_of c = Ok (- z) <-> counts_back c z.
Proof.
  intros [s|n|] z; cbn.
  - split.
    + destruct (py_int s) eqn:E; intro H; inversion H; subst. right. eauto.
    + intros [H|(s' & H & Hp)]; [discriminate|]. inversion H; subst. rewrite Hp. reflexivity.
  - split; [intro H; inversion H; left; congruence|].
    intros [H|(s & H & _)]; [inversion H; reflexivity|discriminate].
  - split; [discriminate|]. intros [H|(s & H & _)]; discriminate.
Qed.

Lemma resolve_cell_nonneg : forall c u d base r k,
  0 <= fst u -> 0 <= snd u -> 0 <= fst d -> 0 <= snd d ->
  (forall b, base = Some b -> 0 <= fst b /\ 0 <= snd b) -> c_col c <> CStr [] ->
  resolve_cell c u d base = Ok (r, k) ->
  (0 <= r \/ exists z, counts_back (c_row c) z /\ fst d + 1 < z)
  /\ (0 <= k \/ exists z, counts_back (c_col c) z /\ snd d + 1 < z).
Proof.
  intros c u d base r k H1 H2 H3 H4 Hb Hne H. apply resolve_cell_spec in H; [|exact Hne].
  destruct H as [Hr Hk].
  assert (Hb1 : forall b, option_map fst base = Some b -> 0 <= b)
    by (intros b E; destruct base as [b'|]; inversion E; subst; apply (Hb b' eq_refl)).
  assert (Hb2 : forall b, option_map snd base = Some b -> 0 <= b)
    by (intros b E; destruct base as [b'|]; inversion E; subst; apply (Hb b' eq_refl)).
  split.
  - destruct (denotes_nonneg _ _ _ _ _ H1 H3 Hb1 Hr) as [|(z & Hz & Hlt)]; [auto|].
    right. exists z. rewrite <- int_of_counts_back. auto.
  - inversion Hk; subst.
    + destruct (denotes_nonneg _ _ _ _ _ H2 H4 Hb2 H) as [|(z & Hz & Hlt)]; [auto|].
      right. exists z. rewrite <- int_of_counts_back. auto.
    + left. lia.
Qed.

Lemma resolve_row_back : forall c u d base r z, 0 < z -> counts_back c z ->
  resolve_coord row2num c u d base = Ok r -> r = d - (z - 1).
Proof.
  intros c u d base r z Hz Hc H. apply resolve_row_denotes in H. apply int_of_counts_back in Hc.
  apply (denotes_negative u d base c r z); try assumption.
  intros s ->. destruct (is_special s) eqn:E; [|reflexivity]. cbn in Hc. rewrite special_py_int in Hc by exact E. discriminate.
Qed.
