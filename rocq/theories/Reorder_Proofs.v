(** * Models: the order of the keywords *)
From Coq Require Import String Lia Permutation.
From Verif Require Import PyBase Json Pandel_Model Pandel_Spec Pandel_Proofs.

Lemma distinct_inv : forall s, distinct s -> NoDup (map word s) /\ forall ps p sub, In (KProps ps) s -> In (p, sub) ps -> distinct sub.
Proof. intros s H. inversion H; auto. Qed.

Lemma distinct_perm : forall s s', Permutation s s' -> distinct s -> distinct s'.
Proof.
  intros s s' P D. apply distinct_inv in D. destruct D as (N & S). constructor.
  - apply (Permutation_NoDup (l := map word s)); [now apply Permutation_map|exact N].
  - intros ps p sub A B. apply (S ps p sub); [|exact B]. apply (Permutation_in _ (Permutation_sym P) A).
Qed.

(** One keyword only *)
Lemma word_one : forall s k k', NoDup (map word s) -> In k s -> In k' s -> word k = word k' -> k = k'.
Proof.
  induction s as [|x s IH]; intros k k' N A B E; [destruct A|]. cbn in N. inversion N as [|? ? X Y]; subst.
  destruct A as [->|A], B as [->|B]; auto.
  - destruct X. rewrite E. now apply in_map.
  - destruct X. rewrite <- E. now apply in_map.
Qed.

Lemma no_more_props : forall s1 ps s2, NoDup (map word (s1 ++ KProps ps :: s2)) ->
  (forall k, In k s1 -> not_props k) /\ (forall k, In k s2 -> not_props k).
Proof.
  intros s1 ps s2 N. rewrite map_app in N. cbn in N. apply NoDup_remove in N. destruct N as (_ & N). split; intros k H.
  - destruct k; cbn; try exact I. apply N. apply in_or_app. left. apply (in_map word) in H. exact H.
  - destruct k; cbn; try exact I. apply N. apply in_or_app. right. apply (in_map word) in H. exact H.
Qed.

Lemma props_or_not : forall s, (forall k, In k s -> not_props k) \/ exists s1 ps s2, s = s1 ++ KProps ps :: s2.
Proof.
  induction s as [|k s IH]; [left; intros k []|]. destruct k as [|?|ps| | | | |];
    try (destruct IH as [IH|(s1 & qs & s2 & ->)];
         [left; intros k' [<-|H]; [exact I|now apply IH]|right; match goal with |- exists _ _ _, ?k :: _ = _ => exists (k :: s1), qs, s2; reflexivity end]).
  right. exists [], ps, s. reflexivity.
Qed.

(** *** What is asked of the keywords *)
Definition by_word {A} (sel : kw -> option A) : Prop := forall k k' a a', sel k = Some a -> sel k' = Some a' -> word k = word k'.

Lemma kw_get_perm : forall A (sel : kw -> option A) s s', by_word sel -> NoDup (map word s) -> Permutation s s' ->
  kw_get sel s = kw_get sel s'.
Proof.
  intros A sel s s' B N P. induction P as [|k s s' P IH|a b s|s s' s'' P IH P' IH'].
  - reflexivity.
  - cbn. inversion N; subst. now rewrite IH.
  - cbn. destruct (sel a) as [x|] eqn:Ea; [|reflexivity]. destruct (sel b) as [y|] eqn:Eb; [|reflexivity].
    exfalso. cbn in N. inversion N as [|? ? X Y]; subst. apply X. left. exact (B _ _ _ _ Ea Eb).
  - rewrite IH by exact N. apply IH'. apply (Permutation_NoDup (Permutation_map word P) N).
Qed.

Lemma kw_get_inside : forall A (sel : kw -> option A) s1 ps ps' s2, (forall ps, sel (KProps ps) = None) ->
  kw_get sel (s1 ++ KProps ps :: s2) = kw_get sel (s1 ++ KProps ps' :: s2).
Proof.
  intros A sel s1 ps ps' s2 H. induction s1 as [|k s1 IH]; cbn; [now rewrite !H|]. now rewrite IH.
Qed.

Lemma reordered_distinct : forall s s', reordered s s' -> distinct s -> distinct s'.
Proof.
  intros s s' R. induction R as [s s' P|s1 ps1 p sub sub' ps2 s2 R IH|s s' s'' R IH R' IH']; intros D; auto.
  - exact (distinct_perm _ _ P D).
  - apply distinct_inv in D. destruct D as (N & S). constructor.
    + rewrite map_app in *. exact N.
    + intros qs q sb A B. apply in_app_or in A. destruct A as [A|[A|A]].
      * apply (S qs q sb); [apply in_or_app; now left|exact B].
      * injection A as <-. assert (X : In (KProps (ps1 ++ (p, sub) :: ps2)) (s1 ++ KProps (ps1 ++ (p, sub) :: ps2) :: s2)) by (apply in_or_app; right; now left).
        apply in_app_or in B. destruct B as [B|[B|B]].
        -- apply (S _ q sb X). apply in_or_app. now left.
        -- injection B as <- <-. apply IH. apply (S _ p sub X). apply in_or_app. right. now left.
        -- apply (S _ q sb X). apply in_or_app. right. now right.
      * apply (S qs q sb); [apply in_or_app; right; now right|exact B].
Qed.

Lemma reordered_get : forall A (sel : kw -> option A) s s', by_word sel -> (forall ps, sel (KProps ps) = None) ->
  reordered s s' -> distinct s -> kw_get sel s = kw_get sel s'.
Proof.
  intros A sel s s' B H R. induction R as [s s' P|s1 ps1 p sub sub' ps2 s2 R IH|s s' s'' R IH R' IH']; intros D.
  - apply kw_get_perm; auto. apply (distinct_inv _ D).
  - now apply kw_get_inside.
  - rewrite IH by exact D. apply IH'. exact (reordered_distinct _ _ R D).
Qed.

Section Order.
  Variables auto_default auto_default_nulls auto_remove_nulls : bool.
  Variable other : nat -> json -> list nat.
  Notation fill_prop' := (fill_prop auto_default auto_default_nulls auto_remove_nulls).
  Notation fill' := (fill auto_default auto_default_nulls auto_remove_nulls).
  Notation visit_kw' := (visit_kw auto_default auto_default_nulls auto_remove_nulls other).
  Notation visit' := (visit auto_default auto_default_nulls auto_remove_nulls other).
  Notation visit_props' := (visit_props auto_default auto_default_nulls auto_remove_nulls other).

  Lemma fill_prop_reordered : forall p sub sub' d, reordered sub sub' -> distinct sub -> fill_prop' p sub d = fill_prop' p sub' d.
  Proof.
    intros p sub sub' d R D. unfold fill_prop.
    assert (G : forall A (sel : kw -> option A), by_word sel -> (forall ps, sel (KProps ps) = None) -> kw_get sel sub = kw_get sel sub')
      by (intros; now apply reordered_get).
    unfold get_default, get_auto, get_auto_null, get_remove_null, get_type.
    rewrite !(G _ _); try reflexivity; intros [] [] a a'; try discriminate; reflexivity.
  Qed.

  Lemma fill_inside : forall ps1 p sub sub' ps2 d, reordered sub sub' -> distinct sub ->
    fill' (ps1 ++ (p, sub) :: ps2) d = fill' (ps1 ++ (p, sub') :: ps2) d.
  Proof.
    intros ps1 p sub sub' ps2 d R D. unfold fill. destruct (installed _ _ _); [|reflexivity]. rewrite !fold_left_app. cbn [fold_left fst snd].
    now rewrite (fill_prop_reordered p sub sub' _ R D).
  Qed.

  Lemma props_inside : forall ps1 p sub sub' ps2 d, (forall x, fst (visit' sub x) = fst (visit' sub' x)) ->
    fst (visit_props' (ps1 ++ (p, sub) :: ps2) d) = fst (visit_props' (ps1 ++ (p, sub') :: ps2) d).
  Proof.
    induction ps1 as [|(q, sb) ps1 IH]; intros p sub sub' ps2 d H; cbn [app visit_props].
    - destruct (sget p d) as [x|]; [|reflexivity]. specialize (H x). destruct (visit' sub x) as [y es], (visit' sub' x) as [y' es']. cbn in H. subst y'.
      destruct (visit_props' ps2 (sset p y d)). reflexivity.
    - destruct (sget q d) as [x|]; [|now apply IH]. destruct (visit' sb x) as [y es]. specialize (IH p sub sub' ps2 (sset q y d) H).
      destruct (visit_props' (ps1 ++ (p, sub) :: ps2) (sset q y d)), (visit_props' (ps1 ++ (p, sub') :: ps2) (sset q y d)). exact IH.
  Qed.

  Lemma visit_perm : forall s s' v, NoDup (map word s) -> Permutation s s' -> fst (visit' s v) = fst (visit' s' v).
  Proof.
    intros s s' v N P. assert (N' : NoDup (map word s')) by (apply (Permutation_NoDup (Permutation_map word P) N)).
    destruct (props_or_not s) as [H|(s1 & ps & s2 & ->)].
    - rewrite !visit_none; [reflexivity| |exact H]. intros k K. apply H. apply (Permutation_in _ (Permutation_sym P) K).
    - destruct (props_or_not s') as [H|(s1' & ps' & s2' & ->)].
      + exfalso. apply (H (KProps ps)). apply (Permutation_in _ P). apply in_or_app. right. now left.
      + assert (ps' = ps) as ->.
        { assert (E : KProps ps' = KProps ps); [|now injection E].
          apply (word_one (s1 ++ KProps ps :: s2)); [exact N| | |reflexivity].
          - apply (Permutation_in _ (Permutation_sym P)). apply in_or_app. right. now left.
          - apply in_or_app. right. now left. }
        destruct (no_more_props _ _ _ N), (no_more_props _ _ _ N'). now rewrite !visit_one_props.
  Qed.

  Lemma visit_reordered : forall s s', reordered s s' -> distinct s -> forall v, fst (visit' s v) = fst (visit' s' v).
  Proof.
    intros s s' R. induction R as [s s' P|s1 ps1 p sub sub' ps2 s2 R IH|s s' s'' R IH R' IH']; intros D v.
    - apply visit_perm; [apply (distinct_inv _ D)|exact P].
    - pose proof (distinct_inv _ D) as (N & S). assert (Ds : distinct sub).
      { apply (S (ps1 ++ (p, sub) :: ps2) p sub); [apply in_or_app; right; now left|apply in_or_app; right; now left]. }
      destruct (no_more_props _ _ _ N) as (A & B). rewrite !visit_one_props by assumption.
      destruct v as [| | | | |d]; try reflexivity. rewrite !visit_kw_props.
      rewrite <- (fill_inside ps1 p sub sub' ps2 d R Ds). set (d0 := fill' (ps1 ++ (p, sub) :: ps2) d).
      pose proof (props_inside ps1 p sub sub' ps2 d0 (IH Ds)) as X.
      destruct (visit_props' (ps1 ++ (p, sub) :: ps2) d0), (visit_props' (ps1 ++ (p, sub') :: ps2) d0). cbn in *. now rewrite X.
    - rewrite IH by exact D. apply IH'. exact (reordered_distinct _ _ R D).
  Qed.

  (** *** Errors *)
  Lemma errors_none : forall s v, (forall k, In k s -> not_props k) -> snd (visit' s v) = flat_map (fun k => snd (visit_kw' k v)) s.
  Proof.
    induction s as [|k s IH]; intros v H; [reflexivity|]. rewrite visit_cons_errors, visit_kw_id by (apply H; now left). cbn [flat_map]. f_equal.
    apply IH. intros k' K. apply H. now right.
  Qed.

  Lemma not_asked : forall k ps v, not_props k -> ~ asks k -> snd (visit_kw' k v) = snd (visit_kw' k (fst (visit_kw' (KProps ps) v))).
  Proof.
    intros k ps v H A. destruct v as [| | | | |d]; try reflexivity. rewrite visit_kw_props. destruct (visit_props' ps (fill' ps d)) as [d' es]. cbn [fst].
    destruct k; try reflexivity; try (destruct A; exact I). destruct H.
  Qed.

  (** In schemas of good order: the errors of the properties, and of the other keywords on what these left *)
  Lemma errors_late : forall s1 ps s2 v, NoDup (map word (s1 ++ KProps ps :: s2)) -> late (s1 ++ KProps ps :: s2) ->
    Permutation (snd (visit' (s1 ++ KProps ps :: s2) v))
      (snd (visit_kw' (KProps ps) v) ++ flat_map (fun k => snd (visit_kw' k (fst (visit_kw' (KProps ps) v)))) (s1 ++ s2)).
  Proof.
    intros s1 ps s2 v N L. destruct (no_more_props _ _ _ N) as (A & B). rewrite visit_app_errors, visit_none by exact A.
    rewrite visit_cons_errors, !errors_none by assumption. rewrite flat_map_app, app_assoc.
    rewrite (Permutation_app_comm (flat_map _ s1) (snd (visit_kw' (KProps ps) v))), <- app_assoc. apply Permutation_app_head.
    apply Permutation_app_tail.
    assert (E : forall s, incl s s1 -> flat_map (fun k => snd (visit_kw' k v)) s = flat_map (fun k => snd (visit_kw' k (fst (visit_kw' (KProps ps) v)))) s).
    { induction s as [|k s IH]; intros I; [reflexivity|]. cbn [flat_map]. f_equal; [|apply IH; intros x X; apply I; now right].
      apply not_asked; [apply A, I; now left|]. apply (L s1 ps s2 k eq_refl). apply I. now left. }
    rewrite (E s1 (incl_refl _)). reflexivity.
  Qed.

  Lemma flat_map_perm : forall A B (f : A -> list B) l l', Permutation l l' -> Permutation (flat_map f l) (flat_map f l').
  Proof.
    intros A B f l l' P. induction P; cbn [flat_map].
    - constructor.
    - now apply Permutation_app_head.
    - rewrite !app_assoc. apply Permutation_app_tail, Permutation_app_comm.
    - eapply perm_trans; eassumption.
  Qed.

  Lemma errors_perm : forall s s' v, NoDup (map word s) -> late s -> late s' -> Permutation s s' ->
    Permutation (snd (visit' s v)) (snd (visit' s' v)).
  Proof.
    intros s s' v N L L' P. assert (N' : NoDup (map word s')) by (apply (Permutation_NoDup (Permutation_map word P) N)).
    destruct (props_or_not s) as [H|(s1 & ps & s2 & ->)].
    - rewrite !errors_none; [now apply flat_map_perm| |exact H]. intros k K. apply H. apply (Permutation_in _ (Permutation_sym P) K).
    - destruct (props_or_not s') as [H|(s1' & ps' & s2' & ->)].
      + exfalso. apply (H (KProps ps)). apply (Permutation_in _ P). apply in_or_app. right. now left.
      + assert (ps' = ps) as ->.
        { assert (E : KProps ps' = KProps ps); [|now injection E].
          apply (word_one (s1 ++ KProps ps :: s2)); [exact N| | |reflexivity].
          - apply (Permutation_in _ (Permutation_sym P)). apply in_or_app. right. now left.
          - apply in_or_app. right. now left. }
        rewrite (errors_late s1 ps s2 v N L), (errors_late s1' ps s2' v N' L'). apply Permutation_app_head. apply flat_map_perm.
        apply Permutation_app_inv with (a := KProps ps). exact P.
  Qed.

  Lemma errors_kw : forall k v e, not_props k -> (In e (snd (visit_kw' k v)) <-> complains other k v e).
  Proof.
    intros k v e H. destruct k; try destruct H; cbn [visit_kw snd complains]; try tauto.
    - destruct (existsb (is_type v) ts) eqn:E.
      + split; [intros []|]. intros [A _]. apply existsb_exists in E. destruct E as [t [Hin E]]. apply is_type_spec in E. destruct (A t Hin E).
      + split.
        * intros [<-|[]]. split; [|reflexivity]. intros t Hin HT. apply is_type_spec in HT.
          assert (X : existsb (is_type v) ts = true) by (apply existsb_exists; eauto). congruence.
        * intros [_ ->]. now left.
    - destruct v as [| | | | |d]; try (split; [intros []|intros (d & p & E & _); discriminate]). rewrite in_flat_map. split.
      + intros (p & Hin & X). exists d, p. split; [reflexivity|]. split; [exact Hin|]. revert X. unfold smem, dmem, sget.
        destruct (dget str_eqb p d); [intros []|]. intros [<-|[]]. now split.
      + intros (d' & p & E & Hin & N & ->). injection E as <-. exists p. split; [exact Hin|]. revert N. unfold smem, dmem, sget. intros ->. now left.
    - rewrite in_map_iff. split; intros (m & A & B); exists m; [now split|now split].
  Qed.
  Lemma errors_exact : forall s1 ps s2 v e, NoDup (map word (s1 ++ KProps ps :: s2)) ->
    (In e (snd (visit' (s1 ++ KProps ps :: s2) v)) <->
     (exists k, In k s1 /\ complains other k v e) \/ In e (snd (visit' [KProps ps] v)) \/
     (exists k, In k s2 /\ complains other k (fst (visit' (s1 ++ KProps ps :: s2) v)) e)).
  Proof.
    intros s1 ps s2 v e N. destruct (no_more_props _ _ _ N) as (A & B). rewrite (visit_one_props _ _ _ _ _ _ _ _ A B).
    rewrite visit_app_errors, visit_none by exact A. rewrite !visit_cons_errors, !errors_none by (assumption || intros k []).
    rewrite !in_app_iff, !in_flat_map. cbn [flat_map]. 
    assert (X : forall s w, (forall k, In k s -> not_props k) ->
      ((exists k, In k s /\ In e (snd (visit_kw' k w))) <-> exists k, In k s /\ complains other k w e)).
    { intros s w Hs. split; intros (k & K & C); exists k; (split; [exact K|]); apply (errors_kw k w e (Hs k K)); exact C. }
    rewrite (X s1 v A), (X s2 _ B). cbn [In].
    assert (Y : forall P : kw -> Prop, ~ exists x, False /\ P x) by (intros P (x & [] & _)).
    specialize (Y (fun x => In e (snd (visit_kw' x (fst (visit_kw' (KProps ps) v)))))). clear X. tauto.
  Qed.
  Lemma errors_moved : forall s1 s1' ps s2 s2' v e, NoDup (map word (s1 ++ KProps ps :: s2)) ->
    Permutation (s1 ++ KProps ps :: s2) (s1' ++ KProps ps :: s2') -> In e (snd (visit' (s1 ++ KProps ps :: s2) v)) ->
    In e (snd (visit' (s1' ++ KProps ps :: s2') v)) \/
    exists k, asks k /\ ((In k s1 /\ In k s2' /\ complains other k v e) \/
      (In k s2 /\ In k s1' /\ complains other k (fst (visit' (s1 ++ KProps ps :: s2) v)) e)).
  Proof.
    intros s1 s1' ps s2 s2' v e N P. assert (N' : NoDup (map word (s1' ++ KProps ps :: s2'))) by (apply (Permutation_NoDup (Permutation_map word P) N)).
    rewrite (errors_exact s1 ps s2 v e N), (errors_exact s1' ps s2' v e N').
    rewrite <- (visit_perm _ _ v N P). set (v' := fst (visit' (s1 ++ KProps ps :: s2) v)).
    destruct (no_more_props _ _ _ N) as (A & B).
    assert (Q : forall k, In k (s1 ++ s2) -> In k (s1' ++ s2')).
    { intros k. apply Permutation_in. apply Permutation_app_inv with (a := KProps ps). exact P. }
    assert (T : forall k, not_props k -> ~ asks k -> complains other k v e <-> complains other k v' e).
    { intros k K K'. rewrite <- !errors_kw by exact K. unfold v'. rewrite (visit_one_props _ _ _ _ _ _ _ _ A B).
      rewrite <- not_asked by assumption. tauto. }
    assert (Dk : forall k, asks k \/ ~ asks k) by (intros []; cbn; auto).
    intros [(k & K & C)|[C|(k & K & C)]].
    - destruct (proj1 (in_app_iff _ _ _) (Q k ltac:(apply in_or_app; auto))); [left; left; eauto|].
      destruct (Dk k) as [a|a]; [right; exists k; split; [exact a|left; auto]|]. left. right. right. exists k. split; [assumption|]. apply (T k); auto.
    - left. right. now left.
    - destruct (proj1 (in_app_iff _ _ _) (Q k ltac:(apply in_or_app; auto))); [ |left; right; right; eauto].
      destruct (Dk k) as [a|a]; [right; exists k; split; [exact a|right; auto]|]. left. left. exists k. split; [assumption|]. apply (T k); auto.
  Qed.
End Order.
