(** * The "sr" filter: proofs *)
From Coq Require Import QArith Lia.
From Verif Require Import PyBase PyBase_Proofs ReadRect_Model Sr_Model Sr_Spec.
Open Scope Z_scope.

Lemma number_counts : forall a p, number a = Some p <-> counts a p.
Proof.
  intros a p. split.
  - destruct a; try discriminate; cbn; intros H; injection H as <-; try constructor. destruct b; constructor.
  - intros H. destruct H; reflexivity.
Qed.

Lemma key_eqb_same : forall a b, key_eqb a b = true <-> same a b.
Proof.
  intros a b. split.
  - assert (N : match number a, number b with Some p, Some q => Qeq_bool p q | _, _ => false end = true -> same a b).
    { destruct (number a) as [p|] eqn:A; [|discriminate]. destruct (number b) as [q|] eqn:B; [|discriminate].
      intros H. apply Qeq_bool_iff in H. apply number_counts in A, B. exact (same_num a b p q A B H). }
    destruct a as [|z|q|s|x| |d|t], b as [|z'|q'|s'|x'| |d'|t']; intros H; try (apply N; exact H); try discriminate H; cbn in H.
    + constructor.
    + apply str_eqb_eq in H. subst. constructor.
    + destruct d as [((y, m), dd) (((h, mi), s), u)], d' as [((y', m'), dd') (((h', mi'), s'), u')]. cbn in H.
      repeat match goal with X : _ && _ = true |- _ => apply andb_prop in X; destruct X end.
      repeat match goal with X : (_ =? _) = true |- _ => apply Z.eqb_eq in X end. subst. constructor.
    + destruct t as (((h, mi), s), u), t' as (((h', mi'), s'), u'). cbn in H.
      repeat match goal with X : _ && _ = true |- _ => apply andb_prop in X; destruct X end.
      repeat match goal with X : (_ =? _) = true |- _ => apply Z.eqb_eq in X end. subst. constructor.
  - intros H. destruct H as [|s|d|t|a b p q A B E].
    + reflexivity.
    + cbn. apply str_eqb_refl.
    + destruct d as [((y, m), dd) (((h, mi), s), u)]. cbn. now rewrite !Z.eqb_refl.
    + destruct t as (((h, mi), s), u). cbn. now rewrite !Z.eqb_refl.
    + apply number_counts in A, B. apply Qeq_bool_iff in E.
      destruct a, b; try discriminate A; try discriminate B; cbn in *; injection A as ->; injection B as ->; exact E.
Qed.

Lemma key_eqb_not : forall a b, key_eqb a b = false <-> ~ same a b.
Proof. intros a b. rewrite <- key_eqb_same. destruct (key_eqb a b); split; congruence. Qed.

Lemma counts_inj : forall a p q, counts a p -> counts a q -> p = q.
Proof. intros a p q A B. apply number_counts in A, B. congruence. Qed.

Lemma same_sym : forall a b, same a b -> same b a.
Proof. intros a b H. destruct H; try constructor. econstructor; eauto. now symmetry. Qed.
Lemma same_trans : forall a b c, same a b -> same b c -> same a c.
Proof.
  intros a b c H1 H2. destruct H1 as [|s|d|t|a b p q A B E]; try exact H2.
  destruct H2 as [|s|d|t|b c p' q' B' C E']; try solve [inversion B].
  rewrite (counts_inj _ _ _ B B') in E. econstructor; eauto. etransitivity; eauto.
Qed.
Lemma same_refl : forall k, k <> VNan -> same k k.
Proof.
  intros k H. destruct k as [|z|q|s|x| |d|t]; try now constructor; try (now destruct H).
  - econstructor; [constructor|constructor|reflexivity].
  - econstructor; [constructor|constructor|reflexivity].
  - destruct x; econstructor; try constructor; reflexivity.
  - now destruct H.
Qed.
Lemma same_nan : forall k, ~ same VNan k /\ ~ same k VNan.
Proof. intros k. split; intros H; inversion H; match goal with X : counts VNan _ |- _ => inversion X end. Qed.

(** ** Putting *)
Lemma put_absent : forall d k v, (forall r, In r d -> ~ same (fst r) k) -> put k v d = d ++ [(k, v)].
Proof.
  induction d as [|(k', v') d IH]; intros k v H; [reflexivity|]. cbn.
  destruct (key_eqb k' k) eqn:E.
  - apply key_eqb_same in E. destruct (H (k', v')); [now left|exact E].
  - f_equal. apply IH. intros r Hr. apply H. now right.
Qed.

Lemma put_present : forall d k v, (exists r, In r d /\ same (fst r) k) ->
  exists d1 k' v' d2, d = d1 ++ (k', v') :: d2 /\ same k' k /\ (forall r, In r d1 -> ~ same (fst r) k) /\ put k v d = d1 ++ (k', v) :: d2.
Proof.
  induction d as [|(k', v') d IH]; intros k v (r & Hr & S); [destruct Hr|]. cbn.
  destruct (key_eqb k' k) eqn:E.
  - exists [], k', v', d. apply key_eqb_same in E. refine (conj eq_refl (conj E (conj _ eq_refl))). intros ? [].
  - apply key_eqb_not in E. destruct Hr as [<-|Hr]; [now destruct E|].
    destruct (IH k v) as (d1 & k1 & v1 & d2 & A & B & C & D); [eauto|].
    exists ((k', v') :: d1), k1, v1, d2. rewrite A, <- A, D. refine (conj _ (conj B (conj _ eq_refl))).
    + cbn. now rewrite <- A.
    + intros r' [<-|X]; [exact E|now apply C].
Qed.

Lemma present_dec : forall (d : list (xvalue * val)) k, (exists r, In r d /\ same (fst r) k) \/ (forall r, In r d -> ~ same (fst r) k).
Proof.
  intros d k. destruct (existsb (fun r => key_eqb (fst r) k) d) eqn:E.
  - left. apply existsb_exists in E. destruct E as (r & A & B). apply key_eqb_same in B. eauto.
  - right. intros r Hr S. apply key_eqb_same in S.
    assert (X : existsb (fun r => key_eqb (fst r) k) d = true) by (apply existsb_exists; eauto). congruence.
Qed.

(** ** Tables *)
Definition puts (d t : list row) : list row := fold_left (fun d r => put (fst r) (snd r) d) t d.

Lemma fill_table : forall t d, fill d (map (fun r => Seq [Cell (fst r); snd r]) t) = Ok (puts d t).
Proof. induction t as [|(k, v) t IH]; intros d; [reflexivity|]. cbn. apply IH. Qed.

Lemma puts_snoc : forall d t r, puts d (t ++ [r]) = put (fst r) (snd r) (puts d t).
Proof. intros d t r. unfold puts. now rewrite fold_left_app. Qed.

Lemma sub_app : forall A (l m n o : list A), sub l m -> sub n o -> sub (l ++ n) (m ++ o).
Proof. intros A l m n o H. induction H; intros X; cbn; [exact X|apply sub_skip; auto|apply sub_take; auto]. Qed.
Lemma sub_refl : forall A (l : list A), sub l l.
Proof. induction l; [constructor|now apply sub_take]. Qed.
Lemma sub_none : forall A (l : list A), sub [] l.
Proof. induction l; [constructor|now apply sub_skip]. Qed.
Lemma sub_in : forall A (l m : list A), sub l m -> forall x, In x l -> In x m.
Proof. intros A l m H. induction H; intros y Hy; [exact Hy|right; auto|destruct Hy as [->|Hy]; [now left|right; auto]]. Qed.

Lemma apart_snoc : forall A (R : A -> A -> Prop) l x, apart R l -> (forall y, In y l -> ~ R y x) -> apart R (l ++ [x]).
Proof.
  intros A R l x H. induction H as [|y l N H IH]; intros X; cbn.
  - constructor; [intros ? []|constructor].
  - constructor.
    + intros z Hz. apply in_app_or in Hz. destruct Hz as [Hz|[<-|[]]]; [now apply N|]. apply X. now left.
    + apply IH. intros z Hz. apply X. now right.
Qed.

Lemma labels_put : forall k v d,
  (exists r, In r d /\ same (fst r) k) /\ map fst (put k v d) = map fst d \/
  (forall r, In r d -> ~ same (fst r) k) /\ put k v d = d ++ [(k, v)].
Proof.
  intros k v d. destruct (present_dec d k) as [H|H].
  - left. split; [exact H|]. destruct (put_present d k v H) as (d1 & k' & v' & d2 & A & B & C & D).
    rewrite D, A. rewrite !map_app. reflexivity.
  - right. split; [exact H|]. now apply put_absent.
Qed.

Lemma puts_sub : forall t, sub (map fst (puts [] t)) (map fst t).
Proof.
  induction t as [|r t IH] using rev_ind; [constructor|]. rewrite puts_snoc, map_app.
  destruct (labels_put (fst r) (snd r) (puts [] t)) as [(_ & E)|(_ & E)]; rewrite E.
  - rewrite <- (app_nil_r (map fst (puts [] t))). apply sub_app; [exact IH|apply sub_none].
  - rewrite map_app. apply sub_app; [exact IH|apply sub_refl].
Qed.

Lemma puts_apart : forall t, apart same (map fst (puts [] t)).
Proof.
  induction t as [|r t IH] using rev_ind; [constructor|]. rewrite puts_snoc.
  destruct (labels_put (fst r) (snd r) (puts [] t)) as [(_ & E)|(N & E)]; rewrite E; [exact IH|].
  rewrite map_app. apply apart_snoc; [exact IH|]. intros y Hy. apply in_map_iff in Hy. destruct Hy as (x & <- & Hx). now apply N.
Qed.

Lemma puts_has : forall (t : list row) k, (exists r, In r t /\ same (fst r) k) <-> (exists r, In r (puts [] t) /\ same (fst r) k).
Proof.
  induction t as [|r t IH] using rev_ind; intros k; [reflexivity|]. rewrite puts_snoc.
  assert (G : (exists r', In r' (put (fst r) (snd r) (puts [] t)) /\ same (fst r') k) <->
              (exists r', In r' (puts [] t) /\ same (fst r') k) \/ same (fst r) k).
  { assert (M : forall d : list row, (exists r', In r' d /\ same (fst r') k) <-> exists y, In y (map fst d) /\ same y k).
    { intros d. split.
      - intros (r' & A & B). exists (fst r'). split; [now apply in_map|exact B].
      - intros (y & A & B). apply in_map_iff in A. destruct A as (x & <- & A). eauto. }
    rewrite M. destruct (labels_put (fst r) (snd r) (puts [] t)) as [(P & E)|(_ & E)]; rewrite E.
    - rewrite <- M. split; [now left|]. intros [X|X]; [exact X|]. destruct P as (r' & A & B). exists r'. split; [exact A|]. eapply same_trans; eauto.
    - rewrite map_app, (M (puts [] t)). split.
      + intros (y & A & B). apply in_app_or in A. destruct A as [A|[<-|[]]]; [left; eauto|now right].
      + intros [(y & A & B)|X]; [exists y; split; [apply in_or_app; now left|exact B]|].
        exists (fst r). split; [apply in_or_app; right; now left|exact X]. }
  rewrite G, <- IH. split.
  - intros (r' & A & B). apply in_app_or in A. destruct A as [A|[<-|[]]]; [left; eauto|now right].
  - intros [(r' & A & B)|X]; [exists r'; split; [apply in_or_app; now left|exact B]|].
    exists r. split; [apply in_or_app; right; now left|exact X].
Qed.

Lemma puts_first : forall t k, In k (map fst (puts [] t)) <-> first_with t k.
Proof.
  induction t as [|r t IH] using rev_ind; intros k.
  - split; [intros []|]. intros (t1 & v & t2 & E & _). now destruct t1.
  - rewrite puts_snoc. destruct r as (k0, v0). cbn [fst snd].
    assert (F : first_with (t ++ [(k0, v0)]) k <-> first_with t k \/ k = k0 /\ forall r, In r t -> ~ same (fst r) k).
    { split.
      - intros (t1 & v & t2 & E & N). destruct t2 as [|x t2] using rev_ind.
        + apply app_inj_tail in E. destruct E as (-> & E). injection E as -> ->. right. auto.
        + clear IHt2. rewrite app_comm_cons, app_assoc in E. apply app_inj_tail in E. destruct E as (-> & _). left. exists t1, v, t2. auto.
      - intros [(t1 & v & t2 & -> & N)|(-> & N)].
        + exists t1, v, (t2 ++ [(k0, v0)]). split; [now rewrite <- app_assoc|exact N].
        + exists t, v0, []. auto. }
    rewrite F, <- IH.
    destruct (labels_put k0 v0 (puts [] t)) as [(P & E)|(N & E)]; rewrite E.
    + split; [now left|]. intros [X|(-> & N)]; [exact X|]. apply puts_has in P. destruct P as (x & A & B). destruct (N x A B).
    + rewrite map_app, in_app_iff. cbn. split.
      * intros [X|[<-|[]]]; [now left|right]. split; [reflexivity|]. intros x A B.
        destruct (proj1 (puts_has t k0)) as (y & Y & Z); [eauto|]. exact (N y Y Z).
      * intros [X|(-> & _)]; auto.
Qed.

Lemma apart_app : forall A (R : A -> A -> Prop) l m, apart R (l ++ m) -> forall x y, In x l -> In y m -> ~ R x y.
Proof.
  intros A R l m H. induction l as [|a l IH]; intros x y Hx Hy; [destruct Hx|]. inversion H; subst.
  destruct Hx as [<-|Hx]; [match goal with X : forall y, In y _ -> _ |- _ => apply X, in_or_app; now right end|now apply IH].
Qed.

Lemma apart_tail : forall A (R : A -> A -> Prop) l m, apart R (l ++ m) -> apart R m.
Proof. induction l as [|a l IH]; intros m H; [exact H|]. inversion H; subst. now apply IH. Qed.

Lemma puts_last : forall t k v, (exists k', In (k', v) (puts [] t) /\ same k' k) <-> last_with t k v.
Proof.
  induction t as [|r t IH] using rev_ind; intros k v.
  - split; [intros (k' & [] & _)|]. intros (t1 & k' & t2 & E & _). now destruct t1.
  - rewrite puts_snoc. destruct r as (k0, v0). cbn [fst snd].
    assert (F : last_with (t ++ [(k0, v0)]) k v <-> same k0 k /\ v = v0 \/ ~ same k0 k /\ last_with t k v).
    { split.
      - intros (t1 & k' & t2 & E & S & N). destruct t2 as [|x t2] using rev_ind.
        + apply app_inj_tail in E. destruct E as (-> & E). injection E as -> ->. now left.
        + clear IHt2. rewrite app_comm_cons, app_assoc in E. apply app_inj_tail in E. destruct E as (-> & <-). right. split.
          * apply (N (k0, v0)). apply in_or_app; right; now left.
          * exists t1, k', t2. split; [reflexivity|]. split; [exact S|]. intros r Hr. apply N, in_or_app. now left.
      - intros [(S & ->)|(N0 & t1 & k' & t2 & -> & S & N)].
        + exists t, k0, []. split; [reflexivity|]. split; [exact S|intros ? []].
        + exists t1, k', (t2 ++ [(k0, v0)]). split; [now rewrite <- app_assoc|]. split; [exact S|].
          intros r Hr. apply in_app_or in Hr. destruct Hr as [Hr|[<-|[]]]; [now apply N|exact N0]. }
    rewrite F, <- IH. pose proof (puts_apart t) as AP.
    destruct (present_dec (puts [] t) k0) as [P|P].
    + destruct (put_present _ k0 v0 P) as (d1 & k1 & v1 & d2 & E & S & N & D). rewrite D. rewrite E in *.
      rewrite map_app in AP. cbn in AP. split.
      * intros (k' & A & B). apply in_app_or in A. destruct A as [A|[A|A]].
        -- right. split.
           ++ intros X. apply (N _ A). eapply same_trans; [exact B|]. now apply same_sym.
           ++ exists k'. split; [apply in_or_app; now left|exact B].
        -- injection A as -> ->. left. split; [|reflexivity]. eapply same_trans; [apply same_sym; exact S|exact B].
        -- right. split.
           ++ intros X. apply apart_tail in AP. inversion AP; subst.
              match goal with Y : forall y, In y (map fst d2) -> _ |- _ => apply (Y k' (in_map fst _ _ A)) end.
              eapply same_trans; [exact S|]. eapply same_trans; [exact X|]. now apply same_sym.
           ++ exists k'. split; [apply in_or_app; right; now right|exact B].
      * intros [(X & ->)|(X & k' & A & B)].
        -- exists k1. split; [apply in_or_app; right; now left|]. eapply same_trans; eauto.
        -- exists k'. split; [|exact B]. apply in_app_or in A. apply in_or_app. destruct A as [A|[A|A]]; [now left| |right; now right].
           injection A as -> ->. destruct X. eapply same_trans; [apply same_sym; exact S|exact B].
    + rewrite (put_absent _ _ _ P). split.
      * intros (k' & A & B). apply in_app_or in A. destruct A as [A|[A|[]]].
        -- right. split; [|eauto]. intros X. apply (P _ A). eapply same_trans; [exact B|]. now apply same_sym.
        -- injection A as -> ->. now left.
      * intros [(X & ->)|(X & k' & A & B)].
        -- exists k0. split; [apply in_or_app; right; now left|exact X].
        -- exists k'. split; [apply in_or_app; now left|exact B].
Qed.

Lemma puts_nan : forall t v, In (VNan, v) (puts [] t) <-> In (VNan, v) t.
Proof.
  induction t as [|r t IH] using rev_ind; intros v; [reflexivity|]. rewrite puts_snoc. destruct r as (k0, v0). cbn [fst snd].
  rewrite in_app_iff, <- IH. cbn.
  destruct (present_dec (puts [] t) k0) as [P|P].
  - destruct (put_present _ k0 v0 P) as (d1 & k1 & v1 & d2 & E & S & N & D). rewrite D, E, !in_app_iff. cbn.
    split.
    + intros [X|[X|X]]; auto. injection X as -> ->. destruct (proj1 (same_nan k0) S).
    + intros [[X|[X|X]]|[X|[]]]; auto.
      * injection X as -> ->. destruct (proj1 (same_nan k0) S).
      * injection X as -> ->. destruct (proj2 (same_nan k1) S).
  - rewrite (put_absent _ _ _ P), in_app_iff. reflexivity.
Qed.

Lemma puts_all : forall t, apart same (map fst t) -> puts [] t = t.
Proof.
  induction t as [|r t IH] using rev_ind; intros H; [reflexivity|]. rewrite map_app in H. rewrite puts_snoc, IH.
  - rewrite put_absent; [now destruct r|]. intros x Hx. apply (apart_app _ _ _ _ H); [now apply in_map|now left].
  - clear IH. induction t as [|a t IHt]; [constructor|]. cbn in H. inversion H; subst. cbn. constructor; [|now apply IHt].
    intros y Hy. match goal with X : forall y, In y _ -> _ |- _ => apply X, in_or_app; now left end.
Qed.

(** ** What is accepted *)
Lemma pair_paired : forall v, (exists p, pair_of v = Ok p) <-> paired v.
Proof.
  intros v. split.
  - intros (p & H). destruct v as [x|l].
    + destruct x as [|z|q|s|b| |d|t]; try discriminate H. destruct s as [|a [|b [|c s]]]; try discriminate H. constructor.
    + destruct l as [|[k|k] [|x [|y l]]]; try discriminate H. constructor.
  - intros H. destruct H; cbn; eauto.
Qed.

Lemma fill_paired : forall l d, (exists d', fill d l = Ok d') <-> Forall paired l.
Proof.
  induction l as [|v l IH]; intros d; cbn; [split; [constructor|eauto]|]. split.
  - intros (d' & H). destruct (pair_of v) as [(k, x)|e] eqn:E; [|discriminate]. constructor; [apply pair_paired; eauto|].
    apply (IH (put k x d)). eauto.
  - intros H. inversion H; subst. destruct (proj2 (pair_paired v)) as ((k, x) & E); [assumption|]. rewrite E. cbn [rbind]. now apply IH.
Qed.

Lemma fill_raises : forall l d e, fill d l = Raise e -> e = TypeError \/ e = ValueError.
Proof.
  induction l as [|v l IH]; intros d e H; [discriminate|]. cbn in H. destruct (pair_of v) as [(k, x)|e'] eqn:E; [exact (IH _ _ H)|].
  injection H as ->. clear - E. destruct v as [x|l].
  - destruct x as [|z|q|s|b| |d|t]; try (injection E as <-; now left). destruct s as [|a [|b [|c s]]]; try discriminate E; injection E as <-; now right.
  - destruct l as [|[k|k] [|x [|y l]]]; try discriminate E; injection E as <-; auto.
Qed.
