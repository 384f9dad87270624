(** * The schemas of steps: proofs *)
From Coq Require Import String Lia.
From Verif Require Import PyBase PyBase_Proofs Json Pandel_Proofs Tables_Proofs Jschema_Model Jschema_Spec.

Lemma nth_set_eq : forall A (l : list A) i x d, i < length l -> nth i (set_nth i x l) d = x.
Proof. induction l as [|y l IH]; intros [|i] x d H; cbn in *; try lia; [reflexivity|apply IH; lia]. Qed.
Lemma nth_set_neq : forall A (l : list A) i j x d, i <> j -> nth j (set_nth i x l) d = nth j l d.
Proof. induction l as [|y l IH]; intros [|i] [|j] x d H; cbn; try reflexivity; try lia. apply IH. lia. Qed.
Lemma length_set : forall A (l : list A) i x, length (set_nth i x l) = length l.
Proof. induction l as [|y l IH]; intros [|i] x; cbn; congruence. Qed.

(** The world is as told by: the number of steps, their families, which of these were looked at, and
    what was said to them. *)
Record right (n : nat) (F : nat -> nat) (L : nat -> bool) (D : nat -> pystr -> option aval) (w : world) : Prop := Right {
  r_count : length (w_steps w) = n;
  r_founder : forall i, i < n -> F i < n;
  r_looked : forall f, L f = true -> f < n;
  r_some : forall i, i < n -> (L (F i) = true <-> exists a, nth i (w_steps w) None = Some a);
  r_bound : forall i a, nth i (w_steps w) None = Some a -> a < length (w_schemas w);
  r_same : forall i j a b, i < n -> j < n -> nth i (w_steps w) None = Some a -> nth j (w_steps w) None = Some b -> (a = b <-> F i = F j);
  r_said : forall i a, i < n -> nth i (w_steps w) None = Some a ->
    NoDup (map fst (schema_at w a)) /\ forall k, sget k (schema_at w a) = D (F i) k;
  r_unsaid : forall f k, L f = false -> D f k = None;
  r_alone : forall i j, i < n -> j < n -> F i = F j -> L (F i) = false -> i = j }.

Lemma right_ext : forall n F L D w F' L' D', right n F L D w ->
  (forall i, i < n -> F' i = F i) -> (forall f, L' f = L f) -> (forall f k, D' f k = D f k) -> right n F' L' D' w.
Proof.
  intros n F L D w F' L' D' R HF HL HD. constructor.
  - apply R.
  - intros i Hi. rewrite HF by exact Hi. now apply R.
  - intros f. rewrite HL. apply R.
  - intros i Hi. rewrite HL, HF by exact Hi. now apply R.
  - apply R.
  - intros i j a b Hi Hj. rewrite !HF by assumption. now apply R.
  - intros i a Hi Ha. destruct (r_said _ _ _ _ _ R i a Hi Ha) as (X & Y). split; [exact X|]. intros k. rewrite HF, HD by exact Hi. apply Y.
  - intros f k. rewrite HL, HD. apply R.
  - intros i j Hi Hj. rewrite HL, !HF by assumption. now apply R.
Qed.

Lemma right_in : forall n F L D w i a, right n F L D w -> nth i (w_steps w) None = Some a -> i < n.
Proof.
  intros n F L D w i a R H. rewrite <- (r_count _ _ _ _ _ R). destruct (Nat.lt_ge_cases i (length (w_steps w))) as [X|X]; [exact X|].
  rewrite nth_overflow in H by exact X. discriminate.
Qed.

Lemma schema_ref_some : forall n F L D w i, right n F L D w -> i < n -> L (F i) = true ->
  exists a, nth i (w_steps w) None = Some a /\ schema_ref w i = (w, a).
Proof.
  intros n F L D w i R Hi Hl. apply (r_some _ _ _ _ _ R i Hi) in Hl. destruct Hl as (a & E). exists a. split; [exact E|].
  unfold schema_ref. now rewrite E.
Qed.

Lemma look_right : forall n F L D w i, right n F L D w -> i < n ->
  right n F (fun f => L f || Nat.eqb (F i) f) D (fst (schema_ref w i)) /\
  nth i (w_steps (fst (schema_ref w i))) None = Some (snd (schema_ref w i)).
Proof.
  intros n F L D w i R Hi. destruct (L (F i)) eqn:EL.
  - destruct (schema_ref_some _ _ _ _ _ i R Hi EL) as (a & E & S). rewrite S. cbn. split; [|exact E].
    apply (right_ext _ _ _ _ _ F (fun f => L f || Nat.eqb (F i) f) D R); auto. intros f.
    destruct (Nat.eqb_spec (F i) f) as [<-|]; [rewrite EL; reflexivity|apply Bool.orb_false_r].
  - assert (E : nth i (w_steps w) None = None).
    { destruct (nth i (w_steps w) None) as [a|] eqn:E; [|reflexivity].
      assert (X : L (F i) = true) by (apply (r_some _ _ _ _ _ R i Hi); eauto). congruence. }
    unfold schema_ref. rewrite E. cbn.
    assert (Hi' : i < length (w_steps w)) by (rewrite (r_count _ _ _ _ _ R); exact Hi).
    split; [|now apply nth_set_eq].
    assert (EX : forall j b, nth j (set_nth i (Some (length (w_schemas w))) (w_steps w)) None = Some b ->
      j = i /\ b = length (w_schemas w) \/ j <> i /\ nth j (w_steps w) None = Some b).
    { intros j b H. destruct (Nat.eq_dec i j) as [<-|N].
      - rewrite nth_set_eq in H by exact Hi'. injection H as <-. auto.
      - rewrite nth_set_neq in H by exact N. auto. }
    constructor; cbn.
    + rewrite length_set. apply R.
    + apply R.
    + intros f H. apply Bool.orb_true_iff in H. destruct H as [H|H]; [now apply (r_looked _ _ _ _ _ R)|].
      apply Nat.eqb_eq in H. subst f. now apply R.
    + intros j Hj. destruct (Nat.eq_dec i j) as [<-|N].
      * rewrite nth_set_eq by exact Hi'. rewrite Nat.eqb_refl, Bool.orb_true_r. split; eauto.
      * rewrite nth_set_neq by exact N. rewrite <- (r_some _ _ _ _ _ R j Hj). destruct (Nat.eqb_spec (F i) (F j)) as [X|X].
        -- destruct (N (r_alone _ _ _ _ _ R i j Hi Hj X EL)).
        -- now rewrite Bool.orb_false_r.
    + intros j b H. rewrite app_length. cbn. destruct (EX j b H) as [(-> & ->)|(_ & X)]; [lia|].
      pose proof (r_bound _ _ _ _ _ R j b X). lia.
    + intros j k a b Hj Hk Ha Hb. destruct (EX _ _ Ha) as [(-> & ->)|(Nj & Xj)], (EX _ _ Hb) as [(-> & ->)|(Nk & Xk)].
      * split; reflexivity.
      * pose proof (r_bound _ _ _ _ _ R k b Xk). split; [lia|]. intros X. destruct (Nk (eq_sym (r_alone _ _ _ _ _ R i k Hi Hk X EL))).
      * pose proof (r_bound _ _ _ _ _ R j a Xj). split; [lia|]. intros X. destruct (Nj (eq_sym (r_alone _ _ _ _ _ R i j Hi Hj (eq_sym X) EL))).
      * exact (r_same _ _ _ _ _ R j k a b Hj Hk Xj Xk).
    + intros j a Hj Ha. unfold schema_at. cbn. destruct (EX _ _ Ha) as [(-> & ->)|(Nj & Xj)].
      * rewrite nth_middle. split; [constructor|]. intros k. rewrite (r_unsaid _ _ _ _ _ R _ k EL). reflexivity.
      * pose proof (r_bound _ _ _ _ _ R j a Xj). rewrite app_nth1 by assumption. exact (r_said _ _ _ _ _ R j a Hj Xj).
    + intros f k H. apply Bool.orb_false_iff in H. apply R, H.
    + intros j k Hj Hk X H. apply Bool.orb_false_iff in H. now apply (r_alone _ _ _ _ _ R).
Qed.

Lemma write_right : forall n F L D w i a s k o, right n F L D w -> nth i (w_steps w) None = Some a ->
  NoDup (map fst s) -> sget k s = o -> (forall k', k' <> k -> sget k' s = sget k' (schema_at w a)) ->
  right n F L (fun f k' => if Nat.eqb (F i) f && str_eqb k' k then o else D f k') (update w a s).
Proof.
  intros n F L D w i a s k o R Ha ND Hk Ho. pose proof (right_in _ _ _ _ _ _ _ R Ha) as Hi.
  pose proof (r_bound _ _ _ _ _ R i a Ha) as Hb.
  constructor; cbn; try apply R.
  - intros j b Hj. rewrite length_set. now apply (r_bound _ _ _ _ _ R j).
  - intros j b Hj Hjb. unfold schema_at, update. cbn. destruct (Nat.eq_dec a b) as [<-|N].
    + rewrite nth_set_eq by exact Hb. split; [exact ND|]. intros k'.
      pose proof (proj1 (r_same _ _ _ _ _ R i j a a Hi Hj Ha Hjb) eq_refl) as X. rewrite X, Nat.eqb_refl. cbn.
      destruct (str_eqb k' k) eqn:E; [apply str_eqb_eq in E; now subst|]. apply str_eqb_neq in E. rewrite Ho by exact E.
      exact (proj2 (r_said _ _ _ _ _ R j a Hj Hjb) k').
    + rewrite nth_set_neq by exact N. destruct (r_said _ _ _ _ _ R j b Hj Hjb) as (X & Y). split; [exact X|]. intros k'.
      destruct (Nat.eqb_spec (F i) (F j)) as [Z|_]; [|apply Y].
      destruct (N (proj2 (r_same _ _ _ _ _ R i j a b Hi Hj Ha Hjb) Z)).
  - intros f k' H. destruct (Nat.eqb_spec (F i) f) as [<-|_]; [|cbn; now apply (r_unsaid _ _ _ _ _ R)].
    assert (X : L (F i) = true) by (apply (r_some _ _ _ _ _ R i Hi); eauto). congruence.
Qed.

Definition righth (h : list deed) (w : world) : Prop := right (count h) (founder h) (looked h) (said h) w.

Lemma sdel_none : forall V k (d : list (pystr * V)), smem k d = false -> sget k d = None.
Proof.
  intros V k d H. apply sget_none. intros X. apply smem_in in X. congruence.
Qed.

Lemma act_right : forall h w d, righth h w -> sensible (d :: h) -> righth (d :: h) (fst (act w d)).
Proof.
  intros h w d R (_ & Hd). unfold righth in *. destruct d as [|j|i|i k v|i k|i k j k']; cbn [act].
  - (* Make *)
    constructor; cbn [fst w_steps w_schemas count].
    + rewrite app_length, (r_count _ _ _ _ _ R). cbn. lia.
    + intros i Hi. cbn. destruct (Nat.eq_dec i (count h)) as [->|N].
      * clear - R. enough (X : forall i, count h <= i -> founder h i = i) by (rewrite X; lia).
        clear R. induction h as [|d h IH]; intros i Hi; [reflexivity|]. cbn. destruct d; cbn in Hi; try (apply IH; lia).
        destruct (Nat.eqb_spec i (count h)); [lia|apply IH; lia].
      * pose proof (r_founder _ _ _ _ _ R i). lia.
    + cbn. intros f H. rewrite Bool.orb_false_r in H. apply (r_looked _ _ _ _ _ R) in H. lia.
    + cbn. intros i Hi. rewrite Bool.orb_false_r. destruct (Nat.eq_dec i (count h)) as [->|N].
      * assert (X : founder h (count h) = count h).
        { assert (Y : forall i, count h <= i -> founder h i = i); [|now apply Y].
          clear. induction h as [|d h IH]; intros i Hi; [reflexivity|]. cbn. destruct d; cbn in Hi; try (apply IH; lia).
          destruct (Nat.eqb_spec i (count h)); [lia|apply IH; lia]. }
        rewrite X. assert (M : nth (count h) (w_steps w ++ [None]) None = None) by (rewrite <- (r_count _ _ _ _ _ R); apply nth_middle).
        rewrite M. split.
        -- intros H. apply (r_looked _ _ _ _ _ R) in H. lia.
        -- intros (a & H). discriminate.
      * rewrite app_nth1 by (rewrite (r_count _ _ _ _ _ R); lia). apply (r_some _ _ _ _ _ R). lia.
    + cbn. intros i a H. destruct (Nat.lt_ge_cases i (length (w_steps w))) as [X|X].
      * rewrite app_nth1 in H by exact X. now apply (r_bound _ _ _ _ _ R i).
      * rewrite app_nth2 in H by exact X. destruct (i - length (w_steps w)) as [|[|z]]; discriminate.
    + cbn. intros i j a b Hi Hj Ha Hb.
      assert (G : forall i a, i < S (count h) -> nth i (w_steps w ++ [None]) None = Some a -> i < count h /\ nth i (w_steps w) None = Some a).
      { intros i0 a0 H0 H. destruct (Nat.lt_ge_cases i0 (length (w_steps w))) as [X|X].
        - rewrite app_nth1 in H by exact X. rewrite (r_count _ _ _ _ _ R) in X. auto.
        - rewrite app_nth2 in H by exact X. destruct (i0 - length (w_steps w)) as [|[|z]]; discriminate. }
      destruct (G _ _ Hi Ha), (G _ _ Hj Hb). now apply (r_same _ _ _ _ _ R).
    + cbn. intros i a Hi Ha. destruct (Nat.lt_ge_cases i (length (w_steps w))) as [X|X].
      * rewrite app_nth1 in Ha by exact X. apply (r_said _ _ _ _ _ R i a); [|exact Ha]. rewrite <- (r_count _ _ _ _ _ R). exact X.
      * rewrite app_nth2 in Ha by exact X. destruct (i - length (w_steps w)) as [|[|z]]; discriminate.
    + cbn. intros f k H. rewrite Bool.orb_false_r in H. now apply (r_unsaid _ _ _ _ _ R).
    + cbn. intros i j Hi Hj E H. rewrite Bool.orb_false_r in H.
      assert (Y : forall i, count h <= i -> founder h i = i).
      { clear. induction h as [|d h IH]; intros i Hi; [reflexivity|]. cbn. destruct d; cbn in Hi; try (apply IH; lia).
        destruct (Nat.eqb_spec i (count h)); [lia|apply IH; lia]. }
      destruct (Nat.eq_dec i (count h)) as [->|Ni], (Nat.eq_dec j (count h)) as [->|Nj]; auto.
      * rewrite (Y (count h)) in E by lia. pose proof (r_founder _ _ _ _ _ R j). lia.
      * rewrite (Y (count h)) in E by lia. pose proof (r_founder _ _ _ _ _ R i). lia.
      * apply (r_alone _ _ _ _ _ R); auto; lia.
  - (* Clone *)
    cbn in Hd.
    assert (Z : forall i, i < S (count h) -> i <> count h -> Nat.eqb i (count h) = false) by (intros; now apply Nat.eqb_neq).
    assert (NL : forall i a, nth i (w_steps w ++ [nth j (w_steps w) None]) None = Some a ->
      i < count h /\ nth i (w_steps w) None = Some a \/ i = count h /\ nth j (w_steps w) None = Some a).
    { intros i a H. destruct (Nat.lt_ge_cases i (length (w_steps w))) as [X|X].
      - rewrite app_nth1 in H by exact X. rewrite (r_count _ _ _ _ _ R) in X. auto.
      - rewrite app_nth2 in H by exact X. destruct (i - length (w_steps w)) as [|[|z]] eqn:E; cbn in H; try discriminate.
        right. rewrite (r_count _ _ _ _ _ R) in *. split; [lia|exact H]. }
    constructor; cbn [fst w_steps w_schemas count founder looked said]; rewrite ?Bool.orb_false_r.
    + rewrite app_length, (r_count _ _ _ _ _ R). cbn. lia.
    + intros i Hi. destruct (Nat.eqb_spec i (count h)) as [->|N].
      * destruct (looked h (founder h j)); [|lia]. pose proof (r_founder _ _ _ _ _ R j Hd). lia.
      * pose proof (r_founder _ _ _ _ _ R i). lia.
    + intros f H. rewrite Bool.orb_false_r in H. apply (r_looked _ _ _ _ _ R) in H. lia.
    + intros i Hi. rewrite Bool.orb_false_r. destruct (Nat.eqb_spec i (count h)) as [->|N].
      * assert (M : nth (count h) (w_steps w ++ [nth j (w_steps w) None]) None = nth j (w_steps w) None)
          by (rewrite <- (r_count _ _ _ _ _ R); apply nth_middle).
        rewrite M. destruct (looked h (founder h j)) eqn:E.
        -- rewrite E. split; [|reflexivity]. intros _. now apply (r_some _ _ _ _ _ R j Hd).
        -- split.
           ++ intros H. apply (r_looked _ _ _ _ _ R) in H. lia.
           ++ intros H. apply (r_some _ _ _ _ _ R j Hd) in H. congruence.
      * rewrite app_nth1 by (rewrite (r_count _ _ _ _ _ R); lia). apply (r_some _ _ _ _ _ R). lia.
    + intros i a H. destruct (NL _ _ H) as [(_ & X)|(_ & X)]; now apply (r_bound _ _ _ _ _ R) in X.
    + intros i1 i2 a b Hi Hj Ha Hb.
      assert (G : forall i a, nth i (w_steps w ++ [nth j (w_steps w) None]) None = Some a ->
        exists i', i' < count h /\ nth i' (w_steps w) None = Some a /\
          (if Nat.eqb i (count h) then if looked h (founder h j) then founder h j else i else founder h i) = founder h i').
      { intros i c H. destruct (NL _ _ H) as [(X & Y)|(-> & Y)].
        - exists i. rewrite (Z i) by lia. auto.
        - exists j. rewrite Nat.eqb_refl. assert (L : looked h (founder h j) = true) by (apply (r_some _ _ _ _ _ R j Hd); eauto). rewrite L. auto. }
      destruct (G _ _ Ha) as (x & X1 & X2 & ->), (G _ _ Hb) as (y & Y1 & Y2 & ->). now apply (r_same _ _ _ _ _ R).
    + intros i a Hi H. unfold schema_at. cbn. destruct (NL _ _ H) as [(X & Y)|(-> & Y)].
      * rewrite (Z i) by lia. exact (r_said _ _ _ _ _ R i a X Y).
      * rewrite Nat.eqb_refl. assert (L : looked h (founder h j) = true) by (apply (r_some _ _ _ _ _ R j Hd); eauto). rewrite L.
        exact (r_said _ _ _ _ _ R j a Hd Y).
    + intros f k H. rewrite Bool.orb_false_r in H. now apply (r_unsaid _ _ _ _ _ R).
    + intros i1 i2 H1 H2 E H. rewrite Bool.orb_false_r in H.
      assert (N : forall i, i < count h -> founder h i <> count h) by (intros i X; pose proof (r_founder _ _ _ _ _ R i X); lia).
      destruct (Nat.eqb_spec i1 (count h)) as [->|N1], (Nat.eqb_spec i2 (count h)) as [->|N2]; auto.
      * destruct (looked h (founder h j)) eqn:L; [congruence|]. destruct (N i2); [lia|congruence].
      * destruct (looked h (founder h j)) eqn:L; [congruence|]. destruct (N i1); [lia|congruence].
      * apply (r_alone _ _ _ _ _ R); auto; lia.
  - (* Look *)
    destruct (look_right _ _ _ _ _ i R) as (X & _); [apply Hd; now left|]. exact X.
  - (* Set *)
    destruct (look_right _ _ _ _ _ i R) as (X & Y); [apply Hd; now left|].
    destruct (schema_ref w i) as (w1, a) eqn:E. cbn [fst snd] in *.
    apply (write_right _ _ _ _ _ i a (setattr (schema_at w1 a) k v) k (Some v) X Y).
    + apply sset_nodup. exact (proj1 (r_said _ _ _ _ _ X i a (right_in _ _ _ _ _ _ _ X Y) Y)).
    + unfold setattr. now rewrite sget_sset_eq.
    + intros k' N. unfold setattr. rewrite sget_sset_neq; [reflexivity|congruence].
  - (* Del *)
    destruct (look_right _ _ _ _ _ i R) as (X & Y); [apply Hd; now left|].
    destruct (schema_ref w i) as (w1, a) eqn:E. cbn [fst snd] in *.
    pose proof (r_said _ _ _ _ _ X i a (right_in _ _ _ _ _ _ _ X Y) Y) as (ND & SD).
    unfold delattr. destruct (smem k (schema_at w1 a)) eqn:M; cbn [fst].
    + apply (write_right _ _ _ _ _ i a (sdel k (schema_at w1 a)) k None X Y).
      * now apply NoDup_sdel.
      * apply sget_sdel_eq.
      * intros k' N. apply sget_sdel_neq. congruence.
    + apply sdel_none in M. apply (right_ext _ _ _ _ _ (founder (Del_ i k :: h)) (looked (Del_ i k :: h)) (said (Del_ i k :: h)) X); auto.
      intros f k'. cbn. destruct (Nat.eqb_spec (founder h i) f) as [<-|]; [|reflexivity]. cbn. destruct (str_eqb k' k) eqn:Ek; [|reflexivity].
      apply str_eqb_eq in Ek. subst k'. rewrite <- M. apply SD.
  - (* Copy *)
    destruct (look_right _ _ _ _ _ j R) as (X & Y); [apply Hd; right; now left|].
    destruct (schema_ref w j) as (w1, b) eqn:E. cbn [fst snd] in *.
    pose proof (r_said _ _ _ _ _ X j b (right_in _ _ _ _ _ _ _ X Y) Y) as (ND & SD).
    assert (G : forall v, match said h (founder h j) k' with Some v' => v' = v | None => existsb (str_eqb k') class_attrs = true /\ v = Tupled end ->
      right (count (Copy i k j k' :: h)) (founder (Copy i k j k' :: h)) (looked (Copy i k j k' :: h)) (said (Copy i k j k' :: h))
        (fst (let (w2, a) := schema_ref w1 i in (update w2 a (setattr (schema_at w2 a) k v), Ok tt)))).
    { intros v Hv. destruct (look_right _ _ _ _ _ i X) as (X1 & Y1); [apply Hd; now left|].
      destruct (schema_ref w1 i) as (w2, a) eqn:E2. cbn [fst snd] in *.
      assert (W : right (count h) (founder h) (fun f => looked h f || Nat.eqb (founder h j) f || Nat.eqb (founder h i) f)
        (fun f k1 => if Nat.eqb (founder h i) f && str_eqb k1 k then Some v else said h f k1) (update w2 a (setattr (schema_at w2 a) k v))).
      { apply (write_right _ _ _ _ _ i a (setattr (schema_at w2 a) k v) k (Some v) X1 Y1).
        - apply sset_nodup. exact (proj1 (r_said _ _ _ _ _ X1 i a (right_in _ _ _ _ _ _ _ X1 Y1) Y1)).
        - unfold setattr. now rewrite sget_sset_eq.
        - intros k1 N. unfold setattr. rewrite sget_sset_neq; [reflexivity|congruence]. }
      apply (right_ext _ _ _ _ _ (founder (Copy i k j k' :: h)) (looked (Copy i k j k' :: h)) (said (Copy i k j k' :: h)) W); auto.
      - intros f. cbn [looked]. rewrite <- Bool.orb_assoc. f_equal. f_equal. destruct (said h (founder h j) k'); [apply Bool.andb_true_r|].
        destruct Hv as (-> & _). apply Bool.andb_true_r.
      - intros f k1. cbn [said]. destruct (Nat.eqb (founder h i) f && str_eqb k1 k); [|reflexivity].
        destruct (said h (founder h j) k'); [now rewrite Hv|]. destruct Hv as (-> & ->). reflexivity. }
    unfold getattr. rewrite (SD k'). destruct (said h (founder h j) k') as [v|] eqn:Es; [exact (G v eq_refl)|].
    destruct (existsb (str_eqb k') class_attrs) eqn:Ec; [exact (G Tupled (conj eq_refl eq_refl))|]. clear G. cbn [fst].
    apply (right_ext _ _ _ _ _ (founder (Copy i k j k' :: h)) (looked (Copy i k j k' :: h)) (said (Copy i k j k' :: h)) X); auto.
    + intros f. cbn [looked]. rewrite Es, Ec, Bool.andb_false_r, Bool.orb_false_r. reflexivity.
    + intros f k1. cbn [said]. rewrite Es, Ec. now destruct (Nat.eqb (founder h i) f && str_eqb k1 k).
Qed.

Lemma acts_app : forall l w d, acts w (l ++ [d]) = fst (act (acts w l) d).
Proof. intros l w d. unfold acts. now rewrite fold_left_app. Qed.

Lemma after_right : forall h, sensible h -> righth h (after h).
Proof.
  induction h as [|d h IH]; intros H.
  - constructor; cbn; try reflexivity; try (intros; lia); try discriminate. intros i a X. destruct i; discriminate.
  - unfold after. cbn [rev]. rewrite acts_app. apply act_right; [apply IH, H|exact H].
Qed.
