(** Lemmas for C22-C24: expansions. *)
From Coq Require Import String.
From Verif Require Import PyBase PyBase_Proofs Regex Regex_Proofs Coords_Model Coords_Proofs
  ExpMoves_Model ExpMoves_Spec ExpMoves_Proofs Capture_Model Capture_Spec Target_Proofs.
Open Scope Z_scope.

(** ** Lines of the sheet *)

Lemma slice_in : forall n a b i, 0 <= b -> 0 <= a \/ (a = -1 /\ b = 0) ->
  (In i (slice n (Some a) (Some b)) <-> (i < n)%nat /\ a <= Z.of_nat i < b).
Proof.
  intros n a b i Hb Ha. unfold slice. rewrite in_seq. rewrite (slice_pos_pos n b Hb).
  destruct Ha as [Ha|[-> ->]].
  - rewrite (slice_pos_pos n a Ha). lia.
  - unfold slice_pos. cbn [Z.ltb Z.compare]. lia.
Qed.

Lemma slice_line : forall n k i, In i (slice n (Some k) (Some (k + 1))) -> - Z.of_nat n <= k < Z.of_nat n.
Proof.
  intros n k i. unfold slice, slice_pos. rewrite in_seq.
  destruct (Z.ltb_spec k 0); destruct (Z.ltb_spec (k + 1) 0); lia.
Qed.

Lemma any_in_exists : forall m a b c d, any_in m a b c d = true <->
  exists i j, In i (slice (rows m) (Some a) (Some b)) /\ In j (slice (cols m) (Some c) (Some d)) /\ at_ m i j = true.
Proof.
  intros. unfold any_in. rewrite existsb_exists. split.
  - intros (i & Hi & H). apply existsb_exists in H. destruct H as (j & Hj & H). exists i, j. auto.
  - intros (i & j & Hi & Hj & H). exists i. split; [exact Hi|]. apply existsb_exists. exists j. auto.
Qed.

Lemma any_in_full : forall m a b c d, 0 <= b -> 0 <= a \/ (a = -1 /\ b = 0) -> 0 <= d -> 0 <= c \/ (c = -1 /\ d = 0) ->
  (any_in m a b c d = true <-> exists p, full m p /\ a <= fst p < b /\ c <= snd p < d).
Proof.
  intros m a b c d Hb Ha Hd Hc. rewrite any_in_exists. split.
  - intros (i & j & Hi & Hj & H). apply slice_in in Hi; [|assumption|assumption]. apply slice_in in Hj; [|assumption|assumption].
    exists (Z.of_nat i, Z.of_nat j). split; [apply at_full; tauto|]. cbn [fst snd]. tauto.
  - intros (p & (F1 & F2 & F3) & Hr & Hk). exists (Z.to_nat (fst p)), (Z.to_nat (snd p)).
    rewrite !slice_in by assumption. repeat split; try lia. exact F3.
Qed.

(** ** One letter *)

Lemma try_expand_letter : forall m d x, sorted x -> positive x -> letter m d x (try_expand m d x).
Proof.
  intros m d [a b c e] [S1 S2] [P1 P2]. cbn [r1 r2 c1 c2] in *.
  destruct d; cbn [try_expand r1 r2 c1 c2];
    match goal with |- context [if ?t then _ else _] => destruct t eqn:E end.
  all: try match goal with
    | |- letter _ ?d _ (Rect ?p ?q ?r ?s) =>
        first [ change (Rect p q r s) with (grown d (Rect a b c e)); apply Le_grow | apply Le_stay; intro H; apply Bool.not_true_iff_false in E; apply E ]
    end.
  all: try (apply any_in_full in E; [|lia|lia|lia|lia]; destruct E as (p & Hf & Hr & Hc); exists p;
            split; [exact Hf|]; unfold inside; cbn [grown r1 r2 c1 c2]; split; lia).
  all: destruct H as (p & Hf & Hi & Hn); unfold inside in *; cbn [grown r1 r2 c1 c2] in *;
    apply any_in_full; [lia|lia|lia|lia|]; exists p; split; [exact Hf|]; lia.
Qed.

Lemma letter_sorted : forall m d x y, letter m d x y -> sorted x -> sorted y.
Proof.
  intros m d [a b c e] y H [S1 S2]. inversion H; subst; [|split; assumption].
  cbn [r1 r2 c1 c2] in *. destruct d; split; cbn [grown r1 r2 c1 c2]; lia.
Qed.
Lemma letter_positive : forall m d x y, letter m d x y -> positive x -> positive y.
Proof.
  intros m d [a b c e] y H [S1 S2]. inversion H as [(p & (F1 & F2 & F3) & Hi & Hn)|]; subst; [|split; assumption].
  unfold inside in *. cbn [r1 r2 c1 c2] in *. destruct d; split; cbn [grown r1 r2 c1 c2] in *; lia.
Qed.
Lemma letter_unique : forall m d x y z, letter m d x y -> letter m d x z -> y = z.
Proof. intros m d x y z H1 H2. inversion H1; inversion H2; subst; congruence. Qed.

Lemma try_expand_cases : forall m d x, try_expand m d x = x \/ try_expand m d x = grown d x.
Proof. intros m d x. destruct d; cbn [try_expand]; match goal with |- context [if ?t then _ else _] => destruct t end; auto. Qed.

Lemma try_expand_sorted : forall m d x, sorted x -> sorted (try_expand m d x).
Proof.
  intros m d [a b c e] [S1 S2]. cbn [r1 r2 c1 c2] in *. destruct (try_expand_cases m d (Rect a b c e)) as [->| ->].
  - split; assumption.
  - destruct d; split; cbn [grown r1 r2 c1 c2]; lia.
Qed.

(** ** Rounds *)

Lemma round_one : forall m ds x, sorted x -> positive x ->
  one_round m ds x (round m ds x) /\ sorted (round m ds x) /\ positive (round m ds x).
Proof.
  intros m ds. induction ds as [|d ds IH]; intros x S P.
  - split; [constructor|]. auto.
  - unfold round. cbn [fold_left]. fold (round m ds (try_expand m d x)).
    pose proof (try_expand_letter m d x S P) as H.
    destruct (IH (try_expand m d x) (letter_sorted _ _ _ _ H S) (letter_positive _ _ _ _ H P)) as (H1 & H2 & H3).
    split; [|auto]. econstructor; eassumption.
Qed.

Lemma one_round_unique : forall m ds x y z, one_round m ds x y -> one_round m ds x z -> y = z.
Proof.
  intros m ds x y z H. revert z. induction H as [x|d ds x y1 y Hl Hr IH]; intros z Hz.
  - inversion Hz. reflexivity.
  - inversion Hz as [|d' ds' x' z1 z' Hl' Hr']; subst. rewrite (letter_unique _ _ _ _ _ Hl Hl') in *. apply IH. exact Hr'.
Qed.

Lemma rect_eqb_eq : forall x y, rect_eqb x y = true <-> x = y.
Proof.
  intros [a b c d] [a' b' c' d']. unfold rect_eqb. cbn [r1 r2 c1 c2]. rewrite !andb_true_iff, !Z.eqb_eq.
  split; [intros [[[-> ->] ->] ->]; reflexivity|intro E; inversion E; auto].
Qed.

Lemma n_rounds_fix : forall m ds n x, one_round m ds x x -> n_rounds m ds n x x.
Proof. induction n as [|n IH]; intros x H; [constructor|]. econstructor; [exact H|apply IH; exact H]. Qed.

Lemma rounds_count : forall m ds n x y, sorted x -> positive x -> rounds n false m ds x = Ok y ->
  n_rounds m ds n x y /\ sorted y /\ positive y.
Proof.
  intros m ds. induction n as [|n IH]; intros x y S P H; cbn [rounds] in H.
  - injection H as <-. split; [constructor|auto].
  - destruct (round_one m ds x S P) as (H1 & H2 & H3). destruct (rect_eqb (round m ds x) x) eqn:E.
    + apply rect_eqb_eq in E. injection H as <-. rewrite E in *. split; [|auto]. apply n_rounds_fix. exact H1.
    + destruct (IH _ _ H2 H3 H) as (H4 & H5 & H6). split; [econstructor; eassumption|auto].
Qed.

Lemma rounds_count_ok : forall m ds n x, exists y, rounds n false m ds x = Ok y.
Proof.
  intros m ds. induction n as [|n IH]; intros x; cbn [rounds]; [eauto|].
  destruct (rect_eqb _ _); eauto.
Qed.

Lemma rounds_ever : forall m ds n x y, sorted x -> positive x -> rounds n true m ds x = Ok y ->
  (exists k, n_rounds m ds k x y) /\ one_round m ds y y /\ sorted y /\ positive y.
Proof.
  intros m ds. induction n as [|n IH]; intros x y S P H; cbn [rounds] in H; [discriminate|].
  destruct (round_one m ds x S P) as (H1 & H2 & H3). destruct (rect_eqb (round m ds x) x) eqn:E.
  - apply rect_eqb_eq in E. injection H as <-. rewrite E in *. split; [exists O; constructor|auto].
  - destruct (IH _ _ H2 H3 H) as ((k & H4) & H5 & H6). split; [eexists (Datatypes.S k); econstructor; eassumption|auto].
Qed.

(** ** Termination, for any rect *)

Definition mu (m : mat) (x : rect) : nat :=
  let n := Z.of_nat (rows m) in let k := Z.of_nat (cols m) in
  (Z.to_nat (Z.min (r1 x) n + n) + Z.to_nat (n - 1 - Z.max (r2 x) (- n - 1))
   + Z.to_nat (Z.min (c1 x) k + k) + Z.to_nat (k - 1 - Z.max (c2 x) (- k - 1)))%nat.

Lemma mu_bound : forall m x, (mu m x <= 4 * rows m + 4 * cols m)%nat.
Proof. intros m x. unfold mu. lia. Qed.

Lemma try_expand_mu : forall m d x, try_expand m d x = x \/ (mu m (try_expand m d x) < mu m x)%nat.
Proof.
  intros m d x.
  destruct d; cbn [try_expand]; match goal with |- context [if ?t then _ else _] => destruct t eqn:E end; auto; right;
    apply any_in_exists in E; destruct E as (i & j & Hi & Hj & _); unfold mu; cbn [r1 r2 c1 c2].
  - apply slice_line in Hj. lia.
  - apply slice_line in Hi. lia.
  - apply slice_line in Hj. lia.
  - apply slice_line in Hi. lia.
Qed.

Lemma round_mu : forall m ds x, round m ds x = x \/ (mu m (round m ds x) < mu m x)%nat.
Proof.
  intros m ds. induction ds as [|d ds IH]; intro x; [left; reflexivity|].
  unfold round. cbn [fold_left]. fold (round m ds (try_expand m d x)).
  destruct (IH (try_expand m d x)) as [->|H1]; [apply try_expand_mu|].
  destruct (try_expand_mu m d x) as [H2|H2].
  - rewrite H2 in *. right. exact H1.
  - right. lia.
Qed.

Lemma rounds_terminate : forall m ds n x, (mu m x < n)%nat -> exists y, rounds n true m ds x = Ok y.
Proof.
  intros m ds. induction n as [|n IH]; intros x H; [lia|]. cbn [rounds].
  destruct (rect_eqb (round m ds x) x) eqn:E; [eauto|]. apply IH.
  destruct (round_mu m ds x) as [H1|H1]; [|lia]. rewrite H1 in E.
  assert (rect_eqb x x = true) by (apply rect_eqb_eq; reflexivity). congruence.
Qed.

(** ** Groups *)

Lemma dir_of_letter : forall d, dir_of (dir_letter d) = Ok d.
Proof. destruct d; reflexivity. Qed.
Lemma dir_of_letters : forall ds, rmap dir_of (map dir_letter ds) = Ok ds.
Proof. induction ds as [|d ds IH]; [reflexivity|]. cbn [map rmap]. rewrite dir_of_letter. cbn [rbind]. rewrite IH. reflexivity. Qed.
Lemma dirletter_dir : forall c, dirletter c -> exists d, c = dir_letter d.
Proof.
  intros c H. apply dirletter_cases in H. destruct H as [->|[->|[->| ->]]]; [exists dL|exists dU|exists dR|exists dD]; reflexivity.
Qed.

Lemma expand_group_total : forall m x ds n, exists y, expand_group m x (map dir_letter ds, n) = Ok y.
Proof.
  intros m x ds n. unfold expand_group. cbn [fst snd]. rewrite dir_of_letters. cbn [rbind]. destruct n as [n|].
  - apply rounds_count_ok.
  - apply rounds_terminate. pose proof (mu_bound m x). lia.
Qed.

Lemma expand_groups_total : forall m gs x, exists y, expand_groups m x (groups_of gs) = Ok y.
Proof.
  intros m gs. induction gs as [|[ds n] gs IH]; intro x; [exists x; reflexivity|].
  cbn [groups_of map expand_groups fst snd]. destruct (expand_group_total m x ds n) as (y & ->). cbn [rbind]. apply IH.
Qed.

Lemma expand_group_spec : forall m x ds n y, sorted x -> positive x ->
  expand_group m x (map dir_letter ds, n) = Ok y ->
  group_expands m (ds, n) x y /\ sorted y /\ positive y.
Proof.
  intros m x ds n y S P H. unfold expand_group in H. cbn [fst snd] in H. rewrite dir_of_letters in H. cbn [rbind] in H.
  destruct n as [n|].
  - destruct (rounds_count _ _ _ _ _ S P H) as (H1 & H2). split; [constructor; exact H1|exact H2].
  - destruct (rounds_ever _ _ _ _ _ S P H) as ((k & H1) & H2 & H3). split; [econstructor; eassumption|exact H3].
Qed.

Lemma expand_groups_spec : forall m gs x y, sorted x -> positive x ->
  expand_groups m x (groups_of gs) = Ok y -> groups_expand m gs x y /\ sorted y /\ positive y.
Proof.
  intros m gs. induction gs as [|[ds n] gs IH]; intros x y S P H.
  - cbn in H. injection H as <-. split; [constructor|auto].
  - cbn [groups_of map expand_groups fst snd] in H. destruct (expand_group m x (map dir_letter ds, n)) as [z|e] eqn:E; [|discriminate].
    cbn [rbind] in H. destruct (expand_group_spec _ _ _ _ _ S P E) as (H1 & H2 & H3).
    destruct (IH z y H2 H3 H) as (H4 & H5). split; [econstructor; eassumption|exact H5].
Qed.

Lemma sort_rect_sorted : forall a b, let (s, e) := sort_rect a b in fst s <= fst e /\ snd s <= snd e.
Proof. intros a b. cbn. lia. Qed.

(** ** What a group does, in general terms *)

Lemma letter_grows : forall m ds d x y, In d ds -> letter m d x y -> grows m ds x y.
Proof. intros m ds d x y Hd H. inversion H; subst; [eapply Gr_step; [exact Hd|assumption|constructor]|constructor]. Qed.
Lemma grows_trans : forall m ds x y z, grows m ds x y -> grows m ds y z -> grows m ds x z.
Proof. intros m ds x y z H. induction H; intro Hz; [exact Hz|]. eapply Gr_step; eauto. Qed.
Lemma grows_incl : forall m ds ds' x y, incl ds ds' -> grows m ds x y -> grows m ds' x y.
Proof. intros m ds ds' x y Hi H. induction H; [constructor|]. eapply Gr_step; eauto. Qed.
Lemma one_round_grows : forall m ds x y, one_round m ds x y -> grows m ds x y.
Proof.
  intros m ds x y H. induction H; [constructor|]. eapply grows_trans.
  - eapply letter_grows; [left; reflexivity|eassumption].
  - eapply grows_incl; [|exact IHone_round]. intros a Ha. right. exact Ha.
Qed.
Lemma n_rounds_grows : forall m ds n x y, n_rounds m ds n x y -> grows m ds x y.
Proof. intros m ds n x y H. induction H; [constructor|]. eapply grows_trans; [apply one_round_grows; eassumption|assumption]. Qed.
Lemma group_grows : forall m g x y, group_expands m g x y -> grows m (fst g) x y.
Proof. intros m g x y H. inversion H; subst; eapply n_rounds_grows; eassumption. Qed.
Lemma groups_grow : forall m gs x y, groups_expand m gs x y -> grows m (flat_map fst gs) x y.
Proof.
  intros m gs x y H. induction H; [constructor|]. cbn [flat_map]. eapply grows_trans.
  - eapply grows_incl; [|apply group_grows; eassumption]. apply incl_appl, incl_refl.
  - eapply grows_incl; [|eassumption]. apply incl_appr, incl_refl.
Qed.

Lemma grown_inside : forall d p x, inside p x -> inside p (grown d x).
Proof. intros d p x [H1 H2]. unfold inside in *. destruct d; cbn [grown r1 r2 c1 c2]; lia. Qed.
Lemma grows_contains : forall m ds x y, grows m ds x y -> forall p, inside p x -> inside p y.
Proof. intros m ds x y H. induction H; intros p Hp; [exact Hp|]. apply IHgrows. apply grown_inside. exact Hp. Qed.

(** Sides not asked for do not move. *)
Lemma grows_sides : forall m ds x y d, grows m ds x y -> 0 <= lines_added d x y /\ (~ In d ds -> lines_added d x y = 0).
Proof.
  intros m ds x y d H. induction H as [x|e x y He Hb Hg IH].
  - destruct d; cbn [lines_added]; split; lia.
  - destruct x as [a b c f]. destruct IH as [IH1 IH2]. split.
    + destruct d, e; cbn [lines_added grown r1 r2 c1 c2] in *; lia.
    + intro Hn. specialize (IH2 Hn). destruct d, e; cbn [lines_added grown r1 r2 c1 c2] in *; try lia; contradiction.
Qed.

Lemma beside_inside : forall m d x, data_beside m d x -> side_inside m d (grown d x).
Proof.
  intros m d [a b c e] (p & (F1 & F2 & _) & Hi & Hn). unfold inside in *. cbn [r1 r2 c1 c2] in *.
  destruct d; cbn [side_inside grown r1 r2 c1 c2] in *; lia.
Qed.

Lemma grows_in_sheet : forall m ds x y d, grows m ds x y ->
  lines_added d x y = 0 \/ side_inside m d y.
Proof.
  intros m ds x y d H. induction H as [x|e x y He Hb Hg IH].
  - left. destruct d; cbn [lines_added]; lia.
  - destruct IH as [IH|IH]; [|right; exact IH].
    destruct (dir_eq_dec d e) as [->|Hn].
    + right. apply beside_inside in Hb. destruct x as [a b c f]. destruct e; cbn [side_inside lines_added grown r1 r2 c1 c2] in *; lia.
    + left. destruct x as [a b c f]. destruct d, e; cbn [lines_added grown r1 r2 c1 c2] in *; try lia; congruence.
Qed.

(** Fixpoints and counts. *)
Lemma letter_same : forall m d x, letter m d x x -> ~ data_beside m d x.
Proof.
  intros m d x H. inversion H as [Hb E|]; [|assumption]. exfalso. destruct x as [a b c e].
  destruct d; cbn [grown r1 r2 c1 c2] in E; inversion E; lia.
Qed.

Lemma lines_added_letter : forall m d e x y, letter m e x y ->
  0 <= lines_added d x y <= (if dir_eq_dec e d then 1 else 0).
Proof.
  intros m d e [a b c f] y H. inversion H; subst; destruct d, e; cbn [lines_added grown r1 r2 c1 c2];
    destruct (dir_eq_dec _ _); try congruence; lia.
Qed.

Lemma lines_added_trans : forall d x y z, lines_added d x z = lines_added d x y + lines_added d y z.
Proof. intros d x y z. destruct d; cbn [lines_added]; lia. Qed.

Lemma one_round_lines : forall m ds x y d, one_round m ds x y ->
  0 <= lines_added d x y <= Z.of_nat (count_occ dir_eq_dec ds d).
Proof.
  intros m ds x y d H. induction H as [x|e ds x y z Hl Hr IH].
  - destruct d; cbn [lines_added count_occ]; lia.
  - rewrite (lines_added_trans d x y z). apply (lines_added_letter m d) in Hl. cbn [count_occ].
    destruct (dir_eq_dec e d); lia.
Qed.

Lemma one_round_same : forall m ds x, one_round m ds x x -> forall d, In d ds -> ~ data_beside m d x.
Proof.
  intros m ds. 
  assert (G : forall ds x y, one_round m ds x y -> (forall d, lines_added d x y = 0) -> x = y /\ forall d, In d ds -> ~ data_beside m d x).
  { clear ds. intros ds x y H. induction H as [x|e ds x y z Hl Hr IH]; intros H0; [split; [reflexivity|intros d []]|].
    assert (y = x).
    { inversion Hl; subst; [|reflexivity]. exfalso. specialize (H0 e). rewrite (lines_added_trans e x (grown e x) z) in H0.
      apply one_round_lines with (d := e) in Hr. destruct x as [a b c f]. destruct e; cbn [lines_added grown r1 r2 c1 c2] in *; lia. }
    subst y. destruct (IH H0) as [<- H1]. split; [reflexivity|]. intros d [<-|Hd]; [|apply H1; exact Hd].
    eapply letter_same. exact Hl. }
  intros x H. apply (G ds x x H). intro d. destruct d; cbn [lines_added]; lia.
Qed.

Lemma n_rounds_lines : forall m ds n x y d, n_rounds m ds n x y ->
  0 <= lines_added d x y <= Z.of_nat n * Z.of_nat (count_occ dir_eq_dec ds d).
Proof.
  intros m ds n x y d H. induction H as [x|n x y z Hr Hn IH].
  - destruct d; cbn [lines_added]; lia.
  - rewrite (lines_added_trans d x y z). apply one_round_lines with (d := d) in Hr. nia.
Qed.

(** ** Parsed expansions have only direction letters *)

Lemma split_fuel_chars : forall r fuel cur s v c, In v (split_fuel fuel r cur s) -> In c v -> In c cur \/ In c s.
Proof.
  intros r. induction fuel as [|f IH]; intros cur s v c Hv Hc; cbn [split_fuel] in Hv.
  - destruct Hv as [<-|[]]. left. apply in_rev. exact Hc.
  - destruct (re_rest r s) as [s'|] eqn:E.
    + destruct Hv as [<-|[<-|Hv]].
      * left. apply in_rev. exact Hc.
      * right. unfold between in Hc. rewrite <- (firstn_skipn (length s - length s') s). apply in_or_app. left. exact Hc.
      * destruct (IH [] s' v c Hv Hc) as [[]|Hs]. right.
        unfold re_rest in E. destruct (rmatch_inv _ _ _ _ _ _ E) as (s1 & g1 & Hm & E1). injection E1 as <-.
        destruct (mt_prefix _ _ _ _ _ Hm) as (a & ->). apply in_or_app. right. exact Hs.
    + destruct s as [|d s]; [destruct Hv as [<-|[]]; left; apply in_rev; exact Hc|].
      destruct (IH (d :: cur) s v c Hv Hc) as [[<-|H]|H]; [right; left; reflexivity|left; exact H|right; right; exact H].
Qed.

Lemma parse_token_moves : forall v ms n, parse_token v = Ok (ms, n) -> forall c, In c ms -> lurd c = true /\ In c v.
Proof.
  intros v ms n H c Hc. unfold parse_token in H. destruct (re_match exp_moves_parser v) as [g|] eqn:E; [|discriminate].
  destruct (group "moves" g) as [ms'|] eqn:Eg; [|discriminate].
  assert (ms' = ms). { unfold repeat_moves in H. destruct (group "times" g) as [t|]; [destruct (py_int t)|]; congruence. }
  subst ms'. clear H. unfold re_match in E. destruct (rmatch_inv _ _ _ _ _ _ E) as (s1 & g1 & Hm & E1). injection E1 as ->.
  unfold exp_moves_parser in Hm. cbn [RSeqs] in Hm.
  inversion Hm as [| |? ? ? ? s2 g2 ? ? M1 M2| | | | | |]; subst. clear Hm.
  inversion M1 as [| | | | | |? ? ? ? ? g3 M3| |]; subst. clear M1.
  inversion M3 as [| |? ? ? ? s4 g4 ? ? M4 M5| | | | | |]; subst. clear M3.
  inversion M4; subst. inversion M5; subst.
  assert (Eg' : group "moves" g = Some (c0 :: a)).
  { inversion M2 as [| |? ? ? ? s5 g5 ? ? M6 M7| | | | | |]; subst. inversion M7; subst.
    unfold ROpt in M6. inversion M6 as [| | |? ? ? ? ? ? M8|? ? ? ? ? ? M8| | | |]; subst.
    - inversion M8; subst. cbn [group String.eqb]. 
      match goal with Hr : mt (RAlt _ _) _ _ _ _ |- _ => apply mt_nogrp in Hr; [|reflexivity]; subst end.
      rewrite between_cons. reflexivity.
    - inversion M8; subst. cbn [group String.eqb]. rewrite between_cons. reflexivity. }
  rewrite Eg in Eg'. injection Eg' as ->. cbn [In] in Hc. destruct Hc as [<-|Hc].
  - split; [assumption|left; reflexivity].
  - split; [auto|]. right. apply in_or_app. left. exact Hc.
Qed.

Lemma lurd_upper : forall c, lurd (q2one (up c)) = true -> dirletter (q2one (up c)).
Proof.
  intros c H. unfold q2one in *. destruct (up c =? chr "?")%N eqn:E; [discriminate|].
  unfold lurd, in_class_ci in H. apply existsb_exists in H. destruct H as (d & Hd & H).
  apply N.eqb_eq in H. unfold dirletter. 
  assert (up (up c) = up c) as Hu. { unfold up, is_lower. destruct (N.leb_spec 97 c), (N.leb_spec c 122); cbn [andb]; try reflexivity;
    repeat match goal with |- context [(?a <=? ?b)%N] => destruct (N.leb_spec a b) end; cbn [andb]; lia. }
  rewrite Hu in H. rewrite H. cbn in Hd. destruct Hd as [<-|[<-|[<-|[<-|[]]]]]; cbn; tauto.
Qed.

Lemma rmap_inv : forall A B (f : A -> res B) l bs, rmap f l = Ok bs -> forall b, In b bs -> exists a, In a l /\ f a = Ok b.
Proof.
  intros A B f. induction l as [|a l IH]; intros bs H b Hb.
  - injection H as <-. destruct Hb.
  - cbn in H. destruct (f a) as [b0|] eqn:E; [|discriminate]. cbn in H. destruct (rmap f l) as [bs0|] eqn:El; [|discriminate].
    cbn in H. injection H as <-. destruct Hb as [<-|Hb]; [exists a; split; [left; reflexivity|exact E]|].
    destruct (IH bs0 eq_refl b Hb) as (a' & Ha & Ea). exists a'. split; [right; exact Ha|exact Ea].
Qed.

Lemma parse_groups_of : forall em l, parse_expansion_moves em = Ok l -> exists gs, l = groups_of gs.
Proof.
  intros em l H. unfold parse_expansion_moves in H.
  destruct (rmap parse_token _) as [l'|] eqn:E; [|discriminate]. injection H as ->.
  assert (G : forall g, In g l -> forall c, In c (fst g) -> dirletter c).
  { intros [ms n] Hg c Hc. destruct (rmap_inv _ _ _ _ _ E _ Hg) as (v & Hv & Ev).
    destruct (parse_token_moves _ _ _ Ev c Hc) as [H1 H2]. apply filter_In in Hv. destruct Hv as [Hv _].
    unfold re_split in Hv. destruct (split_fuel_chars _ _ _ _ _ c Hv H2) as [[]|H3].
    rewrite replace1_map in H3. apply in_map_iff in H3. destruct H3 as (c1 & <- & H3).
    unfold upper in H3. apply in_map_iff in H3. destruct H3 as (c2 & <- & H3). apply lurd_upper. exact H1. }
  clear E. induction l as [|[ms n] l IH].
  - exists []. reflexivity.
  - destruct IH as (gs & ->). { intros g Hg. apply G. right. exact Hg. }
    assert (exists ds, ms = map dir_letter ds) as (ds & ->).
    { assert (Hm : forall c, In c ms -> dirletter c) by (apply (G (ms, n)); left; reflexivity).
      clear -Hm. induction ms as [|c ms IH]; [exists []; reflexivity|].
      destruct IH as (ds & ->). { intros d Hd. apply Hm. right. exact Hd. }
      destruct (dirletter_dir c) as (d & ->); [apply Hm; left; reflexivity|]. exists (d :: ds). reflexivity. }
    exists ((ds, n) :: gs). reflexivity.
Qed.

Lemma expand_groups_sorted : forall m gs x y, sorted x -> expand_groups m x gs = Ok y -> sorted y.
Proof.
  intros m gs.
  assert (R : forall ds x, sorted x -> sorted (round m ds x)).
  { induction ds as [|d ds IH]; intros x S; [exact S|]. unfold round. cbn [fold_left]. apply IH. apply try_expand_sorted. exact S. }
  assert (N : forall n b ds x y, sorted x -> rounds n b m ds x = Ok y -> sorted y).
  { induction n as [|n IH]; intros b ds x y S H; cbn [rounds] in H.
    - destruct b; [discriminate|]. injection H as <-. exact S.
    - destruct (rect_eqb _ _); [injection H as <-; apply R; exact S|]. eapply IH; [|exact H]. apply R. exact S. }
  induction gs as [|g gs IH]; intros x y S H; cbn [expand_groups] in H; [injection H as <-; exact S|].
  destruct (expand_group m x g) as [z|] eqn:E; [|discriminate]. cbn [rbind] in H. apply (IH z y); [|exact H].
  unfold expand_group in E. destruct (rmap dir_of (fst g)); [|discriminate]. cbn [rbind] in E.
  destruct (snd g); eapply N; eassumption.
Qed.

Lemma expand_rect_cases : forall m a b em,
  (parse_expansion_moves em = Raise ValueError /\ expand_rect m a b em = Raise ValueError)
  \/ exists gs x, parse_expansion_moves em = Ok (groups_of gs) /\ sorted x
     /\ expand_rect m a b em = Ok ((r1 x, c1 x), (r2 x, c2 x))
     /\ (0 <= fst a -> 0 <= snd a -> 0 <= fst b -> 0 <= snd b ->
         groups_expand m gs (Rect (Z.min (fst a) (fst b)) (Z.max (fst a) (fst b)) (Z.min (snd a) (snd b)) (Z.max (snd a) (snd b))) x).
Proof.
  intros m a b em. unfold expand_rect. destruct (parse_expansion_moves em) as [l|e] eqn:E.
  - right. destruct (parse_groups_of _ _ E) as (gs & ->). cbn [rbind sort_rect fst snd].
    set (x := Rect _ _ _ _). assert (S : sorted x) by (split; cbn; lia).
    destruct (expand_groups_total m gs x) as (y & Ey). exists gs, y. rewrite Ey. cbn [rbind].
    split; [reflexivity|]. split; [eapply expand_groups_sorted; [|exact Ey]; exact S|]. split; [reflexivity|].
    intros. eapply expand_groups_spec in Ey; [apply Ey|exact S|]. split; cbn; lia.
  - left. apply parse_raises in E as E'. subst e. auto.
Qed.
