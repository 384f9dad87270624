(** * Proofs about the paths of steps *)
From Coq Require Import String Lia Permutation.
From Verif Require Import PyBase PyBase_Proofs Json JsonPointer_Model JsonPointer_Spec JsonPointer_Proofs
  Paths_Model Paths_Spec Paths_Proofs Pmod_Model Pmod_Spec Pmod_Proofs PmodMap_Proofs PmodTuples_Proofs Pstep_Model Pstep_Spec PstepPmod_Proofs
  Pstep_Proofs PstepTree_Proofs PstepHist_Proofs.

(** ** The order of texts *)
Lemma str_leb_iff : forall a b, str_leb a b = true <-> a = b \/ str_lt a b.
Proof.
  induction a as [|x a IH]; destruct b as [|y b]; cbn; split; intro H.
  - now left.
  - reflexivity.
  - right. constructor.
  - reflexivity.
  - discriminate.
  - destruct H as [H|H]; [discriminate|inversion H].
  - destruct (N.ltb_spec x y); [right; now constructor|]. destruct (N.ltb_spec y x); [discriminate|].
    assert (x = y) by lia. subst y. apply IH in H. destruct H as [->|H]; [now left|right; now apply Lt_tail].
  - destruct (N.ltb_spec x y); [reflexivity|]. destruct (N.ltb_spec y x).
    + exfalso. destruct H as [[= -> _]|H]; [lia|]. inversion H; subst; lia.
    + apply IH. destruct H as [[= _ ->]|H]; [now left|]. inversion H; subst; [lia|now right].
Qed.

Lemma str_leb_total : forall a b, str_leb a b = false -> str_lt b a.
Proof.
  induction a as [|x a IH]; destruct b as [|y b]; cbn; intro H; try discriminate; [constructor|].
  destruct (N.ltb_spec x y); [discriminate|]. destruct (N.ltb_spec y x); [now constructor|].
  assert (x = y) by lia. subst y. apply Lt_tail. auto.
Qed.

Lemma str_lt_trans : forall a b c, str_lt a b -> str_lt b c -> str_lt a c.
Proof.
  intros a b c H. revert c. induction H; intros c Hc; inversion Hc; subst.
  - constructor.
  - constructor.
  - apply Lt_head. lia.
  - now apply Lt_head.
  - now apply Lt_head.
  - apply Lt_tail. auto.
Qed.

Section Sort.
  Variable A : Type.
  Variable k : A -> pystr.
  Inductive sorted : list A -> Prop :=
  | So_nil : sorted []
  | So_cons : forall x l, (forall y, In y l -> k x = k y \/ str_lt (k x) (k y)) -> sorted l -> sorted (x :: l).

  Lemma insert_perm : forall x l, Permutation (x :: l) (insert_str k x l).
  Proof.
    induction l as [|y l IH]; cbn; [auto|]. destruct (str_leb (k x) (k y)); auto.
    transitivity (y :: x :: l); [constructor|now constructor].
  Qed.
  Lemma sort_perm : forall l, Permutation l (sort_str k l).
  Proof.
    induction l as [|x l IH]; cbn; [auto|]. transitivity (x :: sort_str k l); [now constructor|apply insert_perm].
  Qed.
  Lemma insert_sorted : forall x l, sorted l -> sorted (insert_str k x l).
  Proof.
    induction l as [|y l IH]; cbn; intro H; [constructor; [intros ? []|constructor]|].
    destruct (str_leb (k x) (k y)) eqn:E.
    - constructor; auto. apply str_leb_iff in E. inversion H as [|? ? H1 H2]; subst. intros z [<-|Hz]; auto.
      destruct (H1 z Hz) as [<-|Hyz]; auto. right. destruct E as [->|E]; auto. eapply str_lt_trans; eauto.
    - apply str_leb_total in E. inversion H as [|? ? H1 H2]; subst. constructor; auto.
      intros z Hz. apply (Permutation_in _ (Permutation_sym (insert_perm x l))) in Hz.
      destruct Hz as [<-|Hz]; auto.
  Qed.
  Lemma sort_sorted : forall l, sorted (sort_str k l).
  Proof. induction l; cbn; [constructor|now apply insert_sorted]. Qed.
  Lemma sorted_nondecreasing : forall l, sorted l -> nondecreasing (map k l).
  Proof.
    intros l H. induction H as [|z l Hz H IH]; intros l1 x l2 y l3 E.
    - destruct l1; discriminate.
    - destruct l1 as [|w l1]; cbn in E; injection E as <- E.
      + assert (Hy : In y (map k l)) by (rewrite E; apply in_or_app; right; now left).
        apply in_map_iff in Hy. destruct Hy as [v [<- Hv]]. auto.
      + eapply IH. exact E.
  Qed.
End Sort.

Lemma sorted_ascending : forall l, sorted pystr (fun x => x) l -> NoDup l -> ascending l.
Proof.
  intros l H. induction H as [|x l Hx H IH]; intro N; [constructor|]. inversion N; subst.
  constructor; auto. intros y Hy. destruct (Hx y Hy) as [E|E]; auto. cbn in E. subst. contradiction.
Qed.

Lemma add_tags_In : forall new ts x, In x (add_tags ts new) <-> In x ts \/ In x new.
Proof.
  induction new as [|t new IH]; intros ts x; cbn; [tauto|].
  change (In x (add_tags (if existsb (str_eqb t) ts then ts else ts ++ [t]) new) <-> In x ts \/ t = x \/ In x new).
  rewrite IH. destruct (existsb (str_eqb t) ts) eqn:E.
  - apply existsb_exists in E. destruct E as [y [Hy E]]. apply str_eqb_eq in E. subst y.
    split; [tauto|]. intros [H|[<-|H]]; auto.
  - rewrite in_app_iff. cbn. tauto.
Qed.

Lemma add_tags_spec : forall new ts, NoDup ts ->
  NoDup (add_tags ts new) /\ forall x, In x (add_tags ts new) <-> In x ts \/ In x new.
Proof.
  induction new as [|t new IH]; intros ts N; cbn; [split; auto; tauto|].
  unfold add_tags in *. cbn. destruct (existsb (str_eqb t) ts) eqn:E.
  - destruct (IH ts N) as [H1 H2]. split; auto. intro x. rewrite H2.
    apply existsb_exists in E. destruct E as [t' [Ht E]]. apply str_eqb_eq in E. subst t'.
    intuition (subst; auto).
  - assert (Ht : ~ In t ts).
    { intros Ht. enough (existsb (str_eqb t) ts = true) by congruence. apply existsb_exists. exists t.
      split; auto. now apply str_eqb_eq. }
    destruct (IH (ts ++ [t])) as [H1 H2].
    { apply (Permutation_NoDup (Permutation_cons_append ts t)). now constructor. }
    split; auto. intro x. rewrite H2, in_app_iff. cbn. intuition.
Qed.

(** ** The hierarchy *)
Lemma rmap_ok_iff : forall A B (f : A -> res B) l, (exists r, rmap f l = Ok r) <-> (forall a, In a l -> exists b, f a = Ok b).
Proof.
  induction l as [|a l [IH1 IH2]]; cbn; split.
  - intros _ a [].
  - eauto.
  - intros [r E] a' [<-|H]; destruct (f a) eqn:Ea; try discriminate; eauto. cbn in E.
    destruct (rmap f l) eqn:El; [|discriminate]. apply IH1; eauto.
  - intros H. destruct (H a) as [b ->]; auto. destruct IH2 as [r ->]; auto. cbn. eauto.
Qed.

Lemma rmap_in : forall A B (f : A -> res B) l r, rmap f l = Ok r ->
  forall b, In b r <-> exists a, In a l /\ f a = Ok b.
Proof.
  induction l as [|a l IH]; cbn; intros r E b.
  - injection E as <-. split; [intros []|intros [a [[] _]]].
  - destruct (f a) as [b0|] eqn:Ea; [|discriminate]. cbn in E. destruct (rmap f l) as [bs|] eqn:El; [|discriminate].
    injection E as <-. cbn. rewrite (IH bs eq_refl). split.
    + intros [<-|[x [H1 H2]]]; eauto.
    + intros [x [[<-|H1] H2]]; [left; congruence|right; eauto].
Qed.

Lemma rmap_raise : forall A B (f : A -> res B) l e, rmap f l = Raise e -> exists a, In a l /\ f a = Raise e.
Proof.
  induction l as [|a l IH]; cbn; intros e E; [discriminate|].
  destruct (f a) as [b|e'] eqn:Ea; cbn in E; [|injection E as <-; eauto].
  destruct (rmap f l) as [bs|e'] eqn:El; cbn in E; [discriminate|]. injection E as <-.
  destruct (IH _ eq_refl) as [x [H1 H2]]. eauto.
Qed.

Lemma iter_in : forall n h pre i l, iter_hierarchy n h pre i = Ok l ->
  forall w, In w l <-> exists p, walk h i p /\ w = pre ++ p.
Proof.
  induction n as [|n IH]; intros h pre i l E w; [discriminate|]. cbn in E.
  destruct (rmap (iter_hierarchy n h (pre ++ [i])) (map snd (children h i))) as [more|] eqn:Em; [|discriminate].
  injection E as <-. assert (Hr := rmap_in _ _ _ _ _ Em). split.
  - intros [<-|H]; [exists [i]; split; auto; constructor|]. apply in_concat in H. destruct H as [ws [H1 H2]].
    apply Hr in H1. destruct H1 as [c [Hc E]]. apply in_map_iff in Hc. destruct Hc as [[a c'] [<- Hc]].
    apply (IH _ _ _ _ E) in H2. destruct H2 as [p [Hp ->]]. exists (i :: p). split; [|now rewrite <- app_assoc].
    econstructor; eauto. apply children_child. exact Hc.
  - intros [p [Hp ->]]. inversion Hp as [|? a c q Hc Hq]; subst; [now left|]. right.
    apply in_concat. apply children_child in Hc.
    assert (Hin : In c (map snd (children h i))) by (apply in_map_iff; now exists (a, c)).
    destruct (proj1 (rmap_ok_iff _ _ _ _) (ex_intro _ _ Em) _ Hin) as [ws E].
    exists ws. split; [apply Hr; eauto|]. apply (IH _ _ _ _ E). exists q. split; auto. now rewrite <- app_assoc.
Qed.

Lemma iter_fuel : forall n h pre i e, iter_hierarchy n h pre i = Raise e -> e = OutOfFuel.
Proof.
  induction n as [|n IH]; intros h pre i e E; cbn in E; [now injection E as <-|].
  destruct (rmap (iter_hierarchy n h (pre ++ [i])) (map snd (children h i))) as [more|] eqn:Em; [discriminate|].
  injection E as <-. apply rmap_raise in Em. destruct Em as [a [_ E]]. eapply IH; eauto.
Qed.

Lemma iter_ends : forall n h pre i l, iter_hierarchy n h pre i = Ok l -> ends h i.
Proof.
  induction n as [|n IH]; intros h pre i l E; [discriminate|]. cbn in E.
  destruct (rmap (iter_hierarchy n h (pre ++ [i])) (map snd (children h i))) as [more|] eqn:Em; [|discriminate].
  constructor. intros a c Hc. apply children_child in Hc.
  assert (Hin : In c (map snd (children h i))) by (apply in_map_iff; now exists (a, c)).
  destruct (proj1 (rmap_ok_iff _ _ _ _) (ex_intro _ _ Em) _ Hin) as [ws E']. eapply IH; eauto.
Qed.

Lemma iter_more : forall n m h pre i l, (n <= m)%nat -> iter_hierarchy n h pre i = Ok l ->
  iter_hierarchy m h pre i = Ok l.
Proof.
  induction n as [|n IH]; intros m h pre i l L E; [discriminate|]. destruct m as [|m]; [lia|]. cbn in *.
  destruct (rmap (iter_hierarchy n h (pre ++ [i])) (map snd (children h i))) as [more|] eqn:Em; [|discriminate].
  assert (X : rmap (iter_hierarchy m h (pre ++ [i])) (map snd (children h i)) = Ok more).
  { clear E. revert more Em. induction (map snd (children h i)) as [|c cs IHc]; intros more Em; cbn in *; auto.
    destruct (iter_hierarchy n h (pre ++ [i]) c) as [x|] eqn:Ex; [|discriminate].
    rewrite (IH m _ _ _ _ ltac:(lia) Ex). cbn in *.
    destruct (rmap (iter_hierarchy n h (pre ++ [i])) cs) as [xs|] eqn:Exs; [|discriminate].
    rewrite (IHc _ eq_refl). exact Em. }
  rewrite X. exact E.
Qed.

Lemma ends_iter : forall h i, ends h i -> exists n, forall pre, exists l, iter_hierarchy n h pre i = Ok l.
Proof.
  intros h i H. induction H as [i H IH].
  assert (X : exists n, forall c, In c (map snd (children h i)) -> forall pre, exists l, iter_hierarchy n h pre c = Ok l).
  { assert (Y : forall c, In c (map snd (children h i)) ->
                exists n, forall pre, exists l, iter_hierarchy n h pre c = Ok l).
    { intros c Hc. apply in_map_iff in Hc. destruct Hc as [[a c'] [<- Hc]]. apply children_child in Hc. eauto. }
    induction (map snd (children h i)) as [|c cs IHc]; [exists 0%nat; intros c []|].
    destruct (Y c (or_introl eq_refl)) as [n1 H1]. destruct IHc as [n2 H2]; [intros; apply Y; now right|].
    exists (Nat.max n1 n2). intros c' [<-|Hc'] pre.
    - destruct (H1 pre) as [l E]. exists l. eapply iter_more; [|exact E]. lia.
    - destruct (H2 c' Hc' pre) as [l E]. exists l. eapply iter_more; [|exact E]. lia. }
  destruct X as [n X]. exists (S n). intro pre. cbn.
  destruct (proj2 (rmap_ok_iff _ _ (iter_hierarchy n h (pre ++ [i])) (map snd (children h i)))) as [r E].
  { intros c Hc. apply X. exact Hc. }
  rewrite E. cbn. eauto.
Qed.

Lemma shown_iff : forall h wo i x, shown h wo i x <-> (if wo then append_orig h else text_of h) i = x.
Proof.
  intros h wo i x. split.
  - intros [H|Ew H].
    + destruct wo; auto. unfold append_orig. destruct (str_eqb_spec (text_of h i) (orig_of h i)); auto.
      destruct H; congruence.
    + subst wo. unfold append_orig. apply str_eqb_neq in H. now rewrite H.
  - intros <-. destruct wo.
    + unfold append_orig. destruct (str_eqb_spec (text_of h i) (orig_of h i)) as [e|e].
      * apply Sh_text. now right.
      * now apply Sh_both.
    + apply Sh_text. now left.
Qed.

Lemma Forall2_shown : forall h wo w xs, Forall2 (shown h wo) w xs <-> map (if wo then append_orig h else text_of h) w = xs.
Proof.
  induction w as [|i w IH]; intros xs; cbn; split; intro H.
  - now inversion H.
  - subst. constructor.
  - inversion H as [|? ? ? ? H1 H2]; subst. apply shown_iff in H1. apply IH in H2. congruence.
  - subst. constructor; [now apply shown_iff|now apply IH].
Qed.

Lemma listed_iff : forall h t i, listed h t i = true <-> (t = [] /\ leaf_at h i) \/ (t <> [] /\ In t (tags_of h i)).
Proof.
  intros h t i. unfold listed. destruct t as [|x t].
  - rewrite leaf_children. destruct (children h i); split; auto; try discriminate; intros [[_ H]|[H _]]; congruence.
  - rewrite existsb_exists. split.
    + intros [t' [H1 H2]]. apply str_eqb_eq in H2. subst. right. split; auto. discriminate.
    + intros [[H _]|[_ H]]; [discriminate|]. eexists. split; [exact H|now apply str_eqb_eq].
Qed.

Lemma last_snoc_walk : forall h i p, walk h i p -> exists q j, p = q ++ [j] /\ last p 0%nat = j.
Proof.
  intros h i p H. assert (N : p <> []) by (inversion H; discriminate).
  destruct (exists_last N) as [q [j ->]]. exists q, j. now rewrite last_last.
Qed.

Lemma paths_spec : forall n h i wo t l, paths n h i wo t = Ok l ->
  ascending l /\ forall x, In x l <-> exists q j xs, walk h i (q ++ [j])
    /\ ((t = [] /\ leaf_at h j) \/ (t <> [] /\ In t (tags_of h j)))
    /\ Forall2 (shown h wo) (q ++ [j]) xs /\ x = join_paths xs.
Proof.
  intros n h i wo t l E. unfold paths in E. destruct (iter_hierarchy n h [] i) as [hier|] eqn:Eh; [|discriminate].
  cbn [rbind] in E. injection E as <-.
  set (ps := map _ _) in *. destruct (add_tags_spec ps [] (NoDup_nil _)) as [N I].
  assert (P := sort_perm _ (fun x : pystr => x) (add_tags [] ps)). split.
  - apply sorted_ascending; [apply sort_sorted|]. eapply Permutation_NoDup; eauto.
  - intro x. assert (In x (sort_str (fun x : pystr => x) (add_tags [] ps)) <-> In x ps) as ->.
    { split; intro H.
      - apply (Permutation_in _ (Permutation_sym P)) in H. apply I in H. destruct H as [[]|H]; auto.
      - apply (Permutation_in _ P). apply I. now right. }
    unfold ps. rewrite in_map_iff. split.
    + intros [w [<- Hw]]. apply filter_In in Hw. destruct Hw as [Hw Hl]. apply (iter_in _ _ _ _ _ Eh) in Hw.
      destruct Hw as [p [Hp ->]]. cbn in *. destruct (last_snoc_walk _ _ _ Hp) as [q [j [-> Ej]]]. rewrite Ej in Hl.
      apply listed_iff in Hl. exists q, j. eexists. split; auto. split; auto. split; [|reflexivity].
      now apply Forall2_shown.
    + intros [q [j [xs [Hw [Hl [Hs ->]]]]]]. exists (q ++ [j]). split.
      * f_equal. now apply Forall2_shown in Hs.
      * apply filter_In. split; [apply (iter_in _ _ _ _ _ Eh); eauto|]. rewrite last_last. now apply listed_iff.
Qed.

Lemma derive_spec : forall n h i l, derive_map_tuples n h i = Ok l ->
  nondecreasing (map fst l) /\ forall o t, In (o, t) l <-> exists q j, walk h i (q ++ [j])
    /\ o = join_paths (map (orig_of h) (q ++ [j])) /\ t = text_of h j.
Proof.
  intros n h i l E. unfold derive_map_tuples in E. destruct (iter_hierarchy n h [] i) as [hier|] eqn:Eh; [|discriminate].
  cbn [rbind] in E. injection E as <-.
  set (ps := map (fun p => (join_paths (map (orig_of h) p), text_of h (last p 0%nat))) hier) in *.
  assert (P := sort_perm _ fst ps). split.
  - apply sorted_nondecreasing. apply sort_sorted.
  - intros o t. assert (In (o, t) (sort_str fst ps) <-> In (o, t) ps) as ->.
    { split; intro H; [apply (Permutation_in _ (Permutation_sym P)); exact H|apply (Permutation_in _ P); exact H]. }
    unfold ps. rewrite in_map_iff. split.
    + intros [w [Ew Hw]]. apply (iter_in _ _ _ _ _ Eh) in Hw. destruct Hw as [p [Hp ->]]. cbn in *.
      destruct (last_snoc_walk _ _ _ Hp) as [q [j [-> Ej]]]. rewrite Ej in Ew. injection Ew as <- <-. eauto.
    + intros [q [j [Hw [-> ->]]]]. exists (q ++ [j]). rewrite last_last. split; auto.
      apply (iter_in _ _ _ _ _ Eh). eauto.
Qed.

Lemma paths_defined : forall h i wo t, (exists n l, paths n h i wo t = Ok l) <-> ends h i.
Proof.
  intros. unfold paths. split.
  - intros [n [l E]]. destruct (iter_hierarchy n h [] i) eqn:Eh; [|discriminate]. eapply iter_ends; eauto.
  - intros H. destruct (ends_iter _ _ H) as [n Hn]. destruct (Hn []) as [l E]. exists n. rewrite E. cbn. eauto.
Qed.

Lemma paths_fuel : forall n h i wo t e, paths n h i wo t = Raise e -> e = OutOfFuel.
Proof.
  intros n h i wo t e E. unfold paths in E. destruct (iter_hierarchy n h [] i) eqn:Eh; [discriminate|].
  cbn in E. injection E as <-. eapply iter_fuel; eauto.
Qed.

Lemma paths_more : forall n m h i wo t l, (n <= m)%nat -> paths n h i wo t = Ok l -> paths m h i wo t = Ok l.
Proof.
  intros n m h i wo t l L E. unfold paths in *. destruct (iter_hierarchy n h [] i) eqn:Eh; [|discriminate].
  rewrite (iter_more _ _ _ _ _ _ L Eh). exact E.
Qed.

Lemma derive_defined : forall h i, (exists n l, derive_map_tuples n h i = Ok l) <-> ends h i.
Proof.
  intros. unfold derive_map_tuples. split.
  - intros [n [l E]]. destruct (iter_hierarchy n h [] i) eqn:Eh; [|discriminate]. eapply iter_ends; eauto.
  - intros H. destruct (ends_iter _ _ H) as [n Hn]. destruct (Hn []) as [l E]. exists n. rewrite E. cbn. eauto.
Qed.

(** ** References, one below the other *)

(** A text and its parts. *)
Definition seg (t : pystr) (parts : list pystr) : Prop :=
  parts <> [] /\ Forall plain parts /\ t = join [47%N] parts.

Lemma join_cons : forall s x y l, join s (x :: y :: l) = x ++ s ++ join s (y :: l).
Proof. reflexivity. Qed.

Lemma join_app : forall s a b, a <> [] -> b <> [] -> join s (a ++ b) = join s a ++ s ++ join s b.
Proof.
  induction a as [|x a IH]; intros b Ha Hb; [congruence|]. destruct a as [|y a].
  - cbn [app]. destruct b; [congruence|]. reflexivity.
  - change ((x :: y :: a) ++ b) with (x :: y :: (a ++ b)). rewrite join_cons.
    change (y :: a ++ b) with ((y :: a) ++ b). rewrite IH by (auto; discriminate). rewrite join_cons.
    now rewrite <- !app_assoc.
Qed.

Lemma seg_plain : forall t parts, seg t parts -> plain t.
Proof.
  intros t parts [H1 [H2 ->]]. destruct parts as [|x [|y l]]; [congruence| |].
  - now inversion H2.
  - inversion H2 as [|? ? [Hx _] _]; subst. rewrite join_cons. destruct x as [|c x]; [contradiction|].
    assert (Hin : In 47%N ((c :: x) ++ [47%N] ++ join [47%N] (y :: l))).
    { apply in_or_app. right. now left. }
    split; [discriminate|]. split; intros E; rewrite E in Hin; cbn in Hin; intuition discriminate.
Qed.

Lemma fold_append_plain : forall l acc, Forall plain l -> fold_left append_step l acc = acc ++ l.
Proof.
  induction l as [|x l IH]; intros acc H; cbn; [now rewrite app_nil_r|]. inversion H; subst.
  rewrite append_plain by assumption. rewrite IH by assumption. now rewrite <- app_assoc.
Qed.

Lemma segs_join : forall ts segs, Forall2 seg ts segs -> ts <> [] ->
  join [47%N] ts = join [47%N] (concat segs) /\ concat segs <> [] /\ Forall plain (concat segs).
Proof.
  intros ts segs H. induction H as [|t ps ts segs Ht H IH]; [congruence|]. intros _. destruct Ht as [H1 [H2 ->]].
  cbn. destruct ts as [|t' ts].
  - inversion H; subst. cbn. rewrite app_nil_r. auto.
  - destruct IH as [I1 [I2 I3]]; [discriminate|]. rewrite join_app by auto. rewrite <- I1.
    split; [reflexivity|]. split; [now destruct ps|]. apply Forall_app. auto.
Qed.

(** The first text may be blank. *)
Lemma join_paths_segs : forall t0 s0 ts segs, (t0 = [] /\ s0 = [[]]) \/ seg t0 s0 -> Forall2 seg ts segs ->
  join_paths (t0 :: ts) = join_paths (s0 ++ concat segs).
Proof.
  intros t0 s0 ts segs H0 H. assert (Hts : Forall plain ts).
  { clear -H. induction H; constructor; auto. eapply seg_plain; eauto. }
  assert (Hc : Forall plain (concat segs)).
  { clear -H. induction H as [|? ? ? ? [_ [H1 _]]]; cbn; [constructor|]. apply Forall_app. auto. }
  unfold join_paths. destruct H0 as [[-> ->]|H0].
  - cbn [app fold_left]. change (append_step [] []) with [@nil N]. rewrite !fold_append_plain by assumption.
    cbn [app]. change (lit "/") with [47%N]. destruct ts as [|t ts]; [inversion H; subst; reflexivity|].
    destruct (segs_join _ _ H) as [E [N _]]; [discriminate|].
    destruct (concat segs) as [|y l]; [congruence|]. rewrite !join_cons, E. reflexivity.
  - rewrite !fold_append_plain.
    + cbn [app]. change (lit "/") with [47%N].
      destruct (segs_join (t0 :: ts) (s0 :: segs)) as [E [N _]]; [constructor; auto|discriminate|].
      cbn [concat] in *. destruct (s0 ++ concat segs) eqn:Ec; [congruence|]. rewrite <- E. reflexivity.
    + apply Forall_app. destruct H0 as [_ [H0 _]]. auto.
    + constructor; auto. eapply seg_plain; eauto.
Qed.

Section Regex.
  Variable M : Type.
  Variable fullmatch : pystr -> pystr -> option M.
  Variable expand : M -> pystr -> res pystr.
  Variable compiles : pystr -> bool.
  Variable class_attr : pystr -> bool.
  Notation new := (new_step M fullmatch expand compiles).
  Notation make := (make_cstep M fullmatch expand compiles).
  Notation get := (getattr M fullmatch expand compiles class_attr).
  Notation ex := (exec M fullmatch expand compiles class_attr).
  Notation go := (run M fullmatch expand compiles class_attr).
  Notation desc := (descend M fullmatch expand).
  Notation map_steps := (map_steps M fullmatch expand).
  Notation map_path := (map_path M fullmatch expand).
  Notation alias_ := (alias_ M fullmatch expand).
  Notation below_of := (below_of M fullmatch).
  Notation plainly := (plainly M fullmatch expand).

  Lemma plain_name_seg : forall n, plain_name n -> seg n [n] /\ new_steps None n = [n].
  Proof.
    intros n [H1 [H2 H3]]. split; [split; [discriminate|]; split; [auto|reflexivity]|].
    now apply plain_new_steps.
  Qed.

  Lemma unescapes_app : forall a a' b b', unescapes a a' -> unescapes (47%N :: b) (47%N :: b') ->
    unescapes (a ++ 47%N :: b) (a' ++ 47%N :: b').
  Proof.
    intros a a' b b' H Hb. induction H as [|s t H IH|s t H IH|c s t H IH Hc]; cbn; auto using unescapes.
    constructor; auto. intros -> d s' E. destruct s as [|x s]; cbn in E; injection E as <- <-; [split; discriminate|].
    eapply Hc; eauto.
  Qed.

  Lemma unescapes_plain_join : forall parts, Forall plain_name parts ->
    unescapes (join [47%N] parts) (join [47%N] parts).
  Proof.
    induction parts as [|x parts IH]; intro H; [constructor|]. inversion H as [|? ? [_ [_ Hx]] H']; subst.
    destruct parts as [|y parts]; [exact Hx|]. rewrite join_cons. apply unescapes_app; auto.
    apply U_char; [auto|discriminate].
  Qed.

  Lemma plain_alias_seg : forall x n, plain_alias x -> exists parts,
    seg x parts /\ new_steps (Some x) n = parts /\ unescapes x x /\ x <> [].
  Proof.
    intros x n [Hd [parts [H1 [H2 ->]]]]. exists parts.
    assert (S : seg (join [47%N] parts) parts).
    { split; auto. split; auto. eapply Forall_impl; [|exact H2]. intros a [Ha _]. exact Ha. }
    split; auto. split; [|split; [now apply unescapes_plain_join|]].
    - apply replaced_new_steps. apply Rp_alias; auto. apply Ws_other.
      + intros y Hy E. destruct (exists_last H1) as [init [z ->]].
        apply Forall_app in H2. destruct H2 as [_ H2]. inversion H2 as [|? ? [[Hz _] [Hs _]] _]; subst.
        assert (Ez : exists w, join [47%N] (init ++ [z]) = w ++ z).
        { destruct init as [|u init]; [exists []; reflexivity|]. rewrite join_app by discriminate.
          exists (join [47%N] (u :: init) ++ [47%N]). now rewrite <- app_assoc. }
        destruct Ez as [w Ew]. rewrite Ew in E. destruct (exists_last Hz) as [z0 [c ->]].
        rewrite app_assoc in E. apply app_inj_tail in E. destruct E as [_ ->]. apply Hs.
        apply in_or_app. right. now left.
      + exists parts. split; auto. split; [intros r Hr|split; [reflexivity|]].
        * rewrite Forall_forall in H2. apply H2 in Hr. now destruct Hr as [_ [Hr _]].
        * clear -H2. induction H2 as [|a l [_ [_ Ha]]]; constructor; auto.
    - apply seg_plain in S. now destruct S as [S _].
  Qed.

  Lemma map_steps_cons : forall pm a b names, map_steps pm (a :: b :: names)
    = (do (pm', x) <- match pm with Some p => desc p a | None => Ok (None, None) end;
       do rest <- map_steps pm' (b :: names); Ok (new_steps x a ++ rest)).
  Proof. reflexivity. Qed.

  Definition okm (h : heap) (q : option lpmod) : Prop :=
    (forall x, q = Some x -> allocated (h_cells h) x) /\ owf (option_map (erase (h_cells h)) q).

  (** The alias read at one step. *)
  Lemma step_alias : forall pm a al, owf pm -> plainly pm (a :: []) \/ pm = None -> plain_name a ->
    match pm with Some p => alias_ p a | None => Ok None end = Ok al ->
    exists t parts, text_for a al t /\ seg t parts /\ new_steps al a = parts.
  Proof.
    intros pm a al W P Ha E. destruct (plain_name_seg _ Ha) as [S1 S2].
    destruct al as [x|]; [|exists a, [a]; split; [constructor|auto]].
    destruct pm as [p|]; [|discriminate].
    assert (Px : plain_alias x).
    { destruct P as [P|P]; [|discriminate]. inversion P as [| |? ? ? P1 P2]; subst. apply P1.
      apply aliased_iff; auto. }
    destruct (plain_alias_seg x a Px) as [parts [H1 [H2 [H3 H4]]]]. exists x, parts. split; auto. now constructor.
  Qed.

  Lemma text_for_fun : forall n al t t', text_for n al t -> text_for n al t' -> t = t'.
  Proof.
    intros n al t t' H H'. destruct H as [| |a t H1 H2]; inversion H'; subst; auto; try contradiction.
    apply unescape_spec in H2. match goal with H : unescapes a t' |- _ => apply unescape_spec in H end. congruence.
  Qed.

  Lemma get_make : forall h i a h' c, get h i a = (h', Ok (VStep c)) -> leaf_at h i ->
    exists s, step_at h i s /\ make h i a None None = (h', Ok c).
  Proof.
    intros h i a h' c E L. destruct (get_inv _ _ _ _ _ _ _ _ _ _ E) as [[-> H]|[_ [_ [[s [Hs _]] [r' [Em Er]]]]]].
    - exfalso. destruct H as [[H _]|[H|[H|H]]]; try discriminate.
      destruct H as [c' [s [d [ds [E1 [_ [H1 [H2 [H3 [H4 H5]]]]]]]]]]. apply (L a c'). exists s, d, ds.
      repeat split; auto. now apply dget_In.
    - exists s. split; auto. destruct r'; [|discriminate]. now injection Er as <-.
  Qed.

  Lemma refs_names : forall h i names ids h2, refs get h i names ids h2 -> keeps_names h h2.
  Proof.
    intros h i names ids h2 H. induction H as [|h i a c h1 names ids h2 E H IH].
    - split; [lia|]. intros j s Hs. exists s. auto.
    - destruct IH as [L1 K1]. assert (X := exec_names M fullmatch expand compiles class_attr h (OGet i a)).
      cbn in X. rewrite E in X. cbn in X. destruct X as [L2 K2]. split; [lia|].
      intros j s Hs. destruct (K2 _ _ Hs) as [s1 [H1 [H2 H3]]]. destruct (K1 _ _ H1) as [s2 [H4 [H5 H6]]].
      exists s2. repeat split; auto; congruence.
  Qed.

  Lemma refs_text : forall h i names ids h2 c, refs get h i names ids h2 ->
    (exists s, step_at h c s) -> text_of h2 c = text_of h c.
  Proof.
    intros h i names ids h2 c H [s Hs]. apply refs_names in H. destruct H as [_ K].
    destruct (K _ _ Hs) as [s' [H1 [H2 _]]]. rewrite (text_at _ _ _ Hs), (text_at _ _ _ H1). exact H2.
  Qed.

  Lemma fresh_leaf : forall h i t o q z ts, step_at h i (mkStep t o q None z ts) -> leaf_at h i.
  Proof. intros h i t o q z ts H a c [s [d [ds [H1 [H2 _]]]]]. unfold step_at in *. rewrite H in H1. injection H1 as <-. discriminate. Qed.

  Lemma plainly_head : forall pm a names, plainly pm (a :: names) -> plainly pm [a] \/ pm = None.
  Proof.
    intros pm a names H. inversion H as [| |? ? ? H1 H2]; subst; auto. left. constructor; auto.
    intros. constructor.
  Qed.

  Lemma refs_map : forall names h i ids h2 s, refs get h i names ids h2 -> step_at h i s -> leaf_at h i ->
    okm h (s_pmod s) -> plainly (option_map (erase (h_cells h)) (s_pmod s)) names -> Forall plain_name names ->
    exists segs, Forall2 seg (map (text_of h2) ids) segs
      /\ map_steps (option_map (erase (h_cells h)) (s_pmod s)) names = Ok (concat segs).
  Proof.
    induction names as [|a names IH]; intros h i ids h2 s R Hs L [A W] P Hn.
    - inversion R; subst. exists []. split; [constructor|reflexivity].
    - inversion R as [|? ? ? c h1 ? ids' ? E R']; subst. inversion Hn as [|? ? Ha Hn']; subst.
      destruct (get_make _ _ _ _ _ E L) as [s0 [Hs0 Em]]. unfold step_at in *.
      assert (s0 = s) by congruence. subst s0.
      assert (X := make_ref M fullmatch expand compiles h i a h1 (Ok c) s Hs Em).
      specialize (X ltac:(intros c0 Hc0; exfalso; exact (L _ _ Hc0)) A).
      assert (Y : exists t q al pm', c = length (h_steps h) /\ step_at h1 c (mkStep t a q None CAN_RELOCATE [])
        /\ text_for a al t /\ option_map (erase (h_cells h1)) q = pm' /\ okm h1 q
        /\ match option_map (erase (h_cells h)) (s_pmod s) with Some p => alias_ p a | None => Ok None end = Ok al
        /\ match option_map (erase (h_cells h)) (s_pmod s) with
           | Some p => desc p a | None => Ok (None, None) end = Ok (pm', al)
        /\ plainly pm' names).
      { destruct (s_pmod s) as [p|] eqn:Ep; cbn in *.
        - pose proof (W _ eq_refl) as W'. rewrite (descend_alias M fullmatch expand _ a W') in X |- *. destruct (alias_ (erase (h_cells h) p) a) as [al|] eqn:Eal; [|discriminate].
          destruct X as [Ec [t [q [X1 [X2 [X3 X4]]]]]]. injection Ec as ->.
          destruct (below_of_below M fullmatch (erase (h_cells h) p) a W') as [B1 B2].
          exists t, q, al, (below_of (erase (h_cells h) p) a). repeat split; auto.
          + rewrite X3. exact B2.
          + inversion P; subst; auto.
        - destruct X as [Ec X]. injection Ec as ->. exists a, None, None, None. repeat split; auto; try constructor; discriminate. }
      destruct Y as [t [q [al [pm' [Ec [Hc [Ht [Eq [Ok1 [Eal [Ed Pl]]]]]]]]]]].
      destruct (step_alias _ a al W (plainly_head _ _ _ P) Ha Eal) as [t' [parts [T1 [T2 T3]]]].
      assert (t' = t) by (eapply text_for_fun; eauto). subst t'.
      assert (Tx : text_of h2 c = t).
      { rewrite (refs_text _ _ _ _ _ c R'); [rewrite (text_at _ _ _ Hc); reflexivity|eauto]. }
      destruct (IH h1 c ids' h2 _ R' Hc) as [segs [F1 F2]]; auto.
      { eapply fresh_leaf; eauto. }
      { cbn [s_pmod]. rewrite Eq. exact Pl. }
      cbn [s_pmod] in F2. rewrite Eq in F2. exists (parts :: segs). cbn [map concat]. split; [constructor; auto; now rewrite Tx|].
      destruct names as [|b names].
      + cbn. inversion R'; subst. inversion F1; subst.
        destruct (option_map (erase (h_cells h)) (s_pmod s)) as [p|] eqn:Ep; cbn in Eal |- *; rewrite ?Eal; cbn;
          [|injection Eal as <-]; now rewrite app_nil_r.
      + rewrite map_steps_cons, Ed. cbn [rbind]. rewrite F2. cbn [rbind]. now rewrite T3.
  Qed.

  (** ** From the root *)
  Lemma new_of_pmod : forall h n p ts h1 r, new h (Some n) (MPmod p) None ts = (h1, r) ->
    allocated (h_cells h) p ->
    match desc (erase (h_cells h) p) n with
    | Raise e => r = Raise e
    | Ok (pm, al) => r = Ok (length (h_steps h)) /\ exists t q,
        step_at h1 (length (h_steps h)) (mkStep t n q None CAN_RELOCATE (add_tags [] ts)) /\ text_for n al t
        /\ option_map (erase (h_cells h1)) q = pm /\ (forall x, q = Some x -> allocated (h_cells h1) x)
    end.
  Proof.
    intros h n p ts h1 r N Hp. cbn in N. unfold step_by_pmod in N.
    destruct (ldescend M fullmatch expand p n (h_cells h)) as [c r0] eqn:El.
    assert (X := ldescend_erase M fullmatch expand _ _ _ _ _ El Hp).
    destruct r0 as [[q al]|e]; [|injection N as <- <-; now rewrite X].
    unfold fresh_step, alloc_step in N. cbn in N. injection N as <- <-.
    assert (Dq : desc (erase (h_cells h) p) n = Ok (option_map (erase c) q, al)
              /\ forall x, q = Some x -> allocated c x).
    { destruct q as [q|]; [destruct X as [X1 X2]; split; auto; intros x [= <-]; exact X1|].
      split; [exact X|discriminate]. }
    destruct Dq as [-> Dq]. split; auto. eexists _, q. unfold step_at. cbn. rewrite nth_error_snoc_new.
    split; [reflexivity|]. split; [|split; auto].
    destruct al as [[|y al]|]; try constructor; [discriminate|]. now apply unescape_spec.
  Qed.

  Lemma join_last : forall init z, exists w, join [47%N] (init ++ [z]) = w ++ z.
  Proof.
    intros init z. destruct init as [|u init]; [exists []; reflexivity|]. rewrite join_app by discriminate.
    exists (join [47%N] (u :: init) ++ [47%N]). now rewrite <- app_assoc.
  Qed.

  Lemma chop_names : forall n0 names, n0 = [] \/ plain_name n0 -> Forall plain_name names ->
    iter_parts_relaxed (chop (join [47%N] (n0 :: names))) = n0 :: names.
  Proof.
    intros n0 names H0 H.
    assert (U : unescapes n0 n0) by (destruct H0 as [->|[_ [_ H0]]]; [constructor|auto]).
    assert (N : ~ In 47%N n0) by (destruct H0 as [->|[_ [H0 _]]]; auto).
    apply written_steps_iter. apply Ws_other.
    - intros x Hx E. destruct (exists_last (l := n0 :: names)) as [init [z Ez]]; [discriminate|].
      destruct (join_last init z) as [w Ew]. rewrite Ez, Ew in E.
      assert (Hz : ~ In 47%N z /\ (z = [] -> names = [])).
      { destruct init as [|u init]; cbn in Ez; injection Ez as -> Ez; [now rewrite Ez|].
        rewrite Ez in H. apply Forall_app in H. destruct H as [_ H]. inversion H as [|? ? [[H1 _] [H2 _]] _]; subst.
        split; auto. intro; contradiction. }
      destruct Hz as [Hz1 Hz2]. destruct z as [|c0 z0] using rev_ind.
      + specialize (Hz2 eq_refl). subst names. destruct init as [|u [|v init]]; try discriminate.
        cbn in Ez. injection Ez as ->. cbn in Ew. rewrite app_nil_r in *. subst w. destruct x; discriminate.
      + rewrite app_assoc in E. apply app_inj_tail in E. destruct E as [_ ->]. apply Hz1.
        apply in_or_app. right. now left.
    - exists (n0 :: names). split; [discriminate|]. split; [|split; [reflexivity|]].
      + intros r [<-|Hr]; auto. rewrite Forall_forall in H. apply H in Hr. now destruct Hr as [_ [Hr _]].
      + constructor; auto. clear -H. induction H as [|a l [_ [_ Ha]]]; constructor; auto.
  Qed.

  Lemma refs_path : forall h n0 p ts h1 i names ids h2,
    new h (Some n0) (MPmod p) None ts = (h1, Ok i) -> refs get h1 i names ids h2 ->
    exists_in (h_cells h) p -> p_alias (erase (h_cells h) p) = None ->
    n0 = [] \/ plain_name n0 -> Forall plain_name names ->
    (forall x, aliased M fullmatch expand (erase (h_cells h) p) n0 (Ok (Some x)) -> plain_alias x \/ n0 = [] /\ x = []) ->
    (forall pm', below M fullmatch (erase (h_cells h) p) n0 pm' -> plainly pm' names) ->
    map_path (erase (h_cells h) p) (join [47%N] (n0 :: names)) = Ok (join_paths (map (text_of h2) (i :: ids))).
  Proof.
    intros h n0 p ts h1 i names ids h2 N R [Al W] Ha H0 Hn P0 P.
    assert (X := new_of_pmod _ _ _ _ _ _ N Al). set (pm := erase (h_cells h) p) in *.
    rewrite (descend_alias M fullmatch expand pm n0 W) in X.
    destruct (alias_ pm n0) as [al|] eqn:Eal; [|discriminate].
    destruct X as [Ei [t [q [X1 [X2 [X3 X4]]]]]]. injection Ei as ->.
    destruct (below_of_below M fullmatch pm n0 W) as [B1 B2].
    destruct (refs_map names h1 _ ids h2 _ R X1) as [segs [F1 F2]]; auto.
    { eapply fresh_leaf; eauto. }
    { split; auto. cbn [s_pmod]. rewrite X3. exact B2. }
    { cbn [s_pmod]. rewrite X3. auto. }
    cbn [s_pmod] in F2. rewrite X3 in F2.
    assert (T : text_of h2 (length (h_steps h)) = t).
    { rewrite (refs_text _ _ _ _ _ _ R); [now rewrite (text_at _ _ _ X1)|eauto]. }
    assert (Y : exists s0, ((t = [] /\ s0 = [[]]) \/ seg t s0) /\ new_steps al n0 = s0).
    { destruct al as [x|].
      - apply aliased_iff in Eal; auto. destruct (P0 _ Eal) as [Px|[-> ->]].
        + destruct (plain_alias_seg x n0 Px) as [parts [H1 [H2 [H3 H4]]]]. exists parts. split; auto. right.
          assert (Tx : t = x) by (eapply text_for_fun; [exact X2|apply Tf_alias; [exact H4|exact H3]]). rewrite Tx. exact H1.
        + exists [[]]. split; [left; split; auto; inversion X2; subst; [reflexivity|contradiction]|reflexivity].
      - assert (Tn : t = n0) by (inversion X2; auto). destruct H0 as [->|H0]; [exists [[]]; split; [now left|reflexivity]|].
        destruct (plain_name_seg _ H0) as [S1 S2]. exists [n0]. rewrite Tn. auto. }
    destruct Y as [s0 [Y1 Y2]]. unfold Pmod_Model.map_path. rewrite chop_names by assumption. fold pm. rewrite Ha.
    assert (E : map_steps (Some pm) (n0 :: names) = Ok (s0 ++ concat segs)).
    { destruct names as [|b names].
      - cbn. rewrite Eal. cbn. cbn in F2. injection F2 as <-. now rewrite Y2, app_nil_r.
      - rewrite map_steps_cons. rewrite (descend_alias M fullmatch expand pm n0 W), Eal. cbn [rbind].
        rewrite F2. cbn [rbind]. now rewrite Y2. }
    rewrite E. cbn [rbind app map]. rewrite T. f_equal. symmetry. now apply join_paths_segs.
  Qed.

  (** ** The mappings of the steps exist *)
  Lemma wf_erase : forall p c c', wf (erase c p) -> wf (erase c' p).
  Proof.
    assert (K : forall c (s : list (pystr * lpmod)), map fst (map (fun kp => (fst kp, erase c (snd kp))) s) = map fst s).
    { intros. rewrite map_map. now apply map_ext. }
    induction p as [l s r IHs IHr] using lpmod_ind'. intros c c' H. cbn in *. inversion H as [? ? ? H1 H2 H3 H4]; subst.
    rewrite K in H1, H2. constructor; rewrite ?K; auto.
    - intros k x Hx. apply in_map_iff in Hx. destruct Hx as [[k' q] [E Hq]]. injection E as <- <-. cbn.
      eapply IHs; eauto. apply (H3 k'). apply in_map_iff. now exists (k', q).
    - intros k x Hx. apply in_map_iff in Hx. destruct Hx as [[k' q] [E Hq]]. injection E as <- <-. cbn.
      eapply IHr; eauto. apply (H4 k'). apply in_map_iff. now exists (k', q).
  Qed.

  Lemma exists_longer : forall c c' p, exists_in c p -> (length c <= length c')%nat -> exists_in c' p.
  Proof. intros c c' p [A W] L. split; [intros x Hx; specialize (A x Hx); lia|eapply wf_erase; eauto]. Qed.

  Lemma step_by_pmod_exist : forall h n p al ts h' r, step_by_pmod M fullmatch expand h n p al ts = (h', r) ->
    exists_in (h_cells h) p -> pmods_exist h -> (length (h_cells h) <= length (h_cells h'))%nat ->  pmods_exist h'.
  Proof.
    intros h n p al ts h' r E [A W] K L i s q Hs Hq. unfold step_by_pmod in E.
    destruct (ldescend M fullmatch expand p n (h_cells h)) as [c r0] eqn:El.
    assert (X := ldescend_erase M fullmatch expand _ _ _ _ _ El A).
    destruct r0 as [[pm al']|e].
    - unfold fresh_step, alloc_step in E. cbn in E. injection E as <- <-. unfold step_at in Hs. cbn in Hs, L |- *.
      apply nth_error_snoc in Hs. destruct Hs as [Hs|[_ ->]]; [eapply exists_longer; eauto|].
      cbn in Hq. subst pm. destruct X as [X1 X2]. split; auto.
      rewrite (descend_alias M fullmatch expand _ n W) in X2.
      destruct (alias_ (erase (h_cells h) p) n); [|discriminate]. injection X2 as X2 _.
      destruct (below_of_below M fullmatch (erase (h_cells h) p) n W) as [_ B]. now apply B.
    - injection E as <- _. cbn in *. eapply exists_longer; [|exact L]. exact (K _ _ _ Hs Hq).
  Qed.

  Lemma new_exist : forall h n m al ts h' r, new h n m al ts = (h', r) -> pmods_exist h ->
    (forall p, m = MPmod p -> exists_in (h_cells h) p) -> pmods_exist h'.
  Proof.
    intros h n m al ts h' r E K Hm.
    assert (L : (length (h_cells h) <= length (h_cells h'))%nat).
    { apply new_inv in E. destruct E as [dx [cx [_ [-> _]]]]. rewrite app_length. lia. }
    assert (Fr : forall t, fresh_step h t None al ts = (h', r) -> pmods_exist h').
    { intros t F i s q Hs Hq. unfold fresh_step, alloc_step in F. injection F as <- _. unfold step_at in Hs.
      cbn in Hs. apply nth_error_snoc in Hs. destruct Hs as [Hs|[_ ->]]; [exact (K _ _ _ Hs Hq)|discriminate]. }
    destruct m as [|p|j|l|]; cbn in E; eauto.
    - eapply step_by_pmod_exist; eauto.
    - destruct (nth_error (h_steps h) j) as [s|] eqn:Es; [|injection E as <- _; auto].
      destruct (s_text s) eqn:Et; eauto.
      destruct (clone_csteps h (s_csteps s)) as [h2 d] eqn:Ec. unfold alloc_step in E. injection E as <- _.
      assert (A : h_steps h2 = h_steps h /\ h_cells h2 = h_cells h).
      { unfold clone_csteps in Ec. destruct (dict_of h (s_csteps s)); injection Ec as <- _; auto. }
      destruct A as [A1 A2]. intros i s' q Hs Hq. unfold step_at in Hs. cbn in Hs |- *. rewrite A1 in Hs. rewrite A2.
      apply nth_error_snoc in Hs. destruct Hs as [Hs|[_ ->]]; [exact (K _ _ _ Hs Hq)|]. exact (K _ _ _ Es Hq).
    - destruct l as [|x l]; eauto. destruct (pmods_from_tuples compiles (x :: l)) as [p|] eqn:Ep; [|injection E as <- _; auto].
      destruct (alloc_pmod p (h_cells h)) as [lp c] eqn:Ea. destruct (alloc_spec _ _ _ _ Ea) as [[cx ->] [A1 A2]].
      eapply step_by_pmod_exist in E; eauto.
      + cbn. split; auto. rewrite A2. eapply pft_wf; eauto.
      + intros i s q Hs Hq. cbn. eapply exists_longer; [exact (K _ _ _ Hs Hq)|]. rewrite app_length. lia.
      + cbn. unfold step_by_pmod in E. destruct (ldescend M fullmatch expand lp _ _) as [c' r0] eqn:El. cbn in El.
        destruct (ldescend_ext M fullmatch expand lp (match n with Some n => n | None => [] end) (h_cells h ++ cx)) as [cy Ey].
        rewrite El in Ey. cbn in Ey. subst c'.
        destruct r0 as [[? ?]|]; [unfold fresh_step, alloc_step in E|]; cbn in E; injection E as <- _; cbn;
          rewrite !app_length; lia.
    - injection E as <- _; auto.
  Qed.

  Lemma make_exist : forall h i k al e h' r s, step_at h i s -> make h i k al e = (h', r) ->
    pmods_exist h -> pmods_exist h'.
  Proof.
    intros h i k al e h' r s Hs E K.
    destruct (make_inv _ _ _ _ _ _ _ _ _ _ _ _ Hs E) as [h1 [d [e1 [h2 [P [N F]]]]]].
    assert (K1 : pmods_exist h1).
    { destruct P as [d x xs e0 -> Ed' Ex|d x xs -> Ed' Ex|Ed]; auto.
      - unfold update_pmod. destruct al as [y|]; auto. destruct (s_pmod s) as [q|] eqn:Eq; intros j sj p Hj Hp; cbn.
        + eapply exists_longer; [exact (K _ _ _ Hj Hp)|]. now rewrite list_update_length.
        + unfold step_at in Hj. cbn in Hj. apply nth_error_update in Hj. destruct Hj as [[_ Hj]|[_ [-> _]]].
          * eapply exists_longer; [exact (K _ _ _ Hj Hp)|]. rewrite app_length. lia.
          * cbn in Hp. injection Hp as <-. split; [|cbn; constructor; try constructor; intros ? ? []].
            intros z Hz. inversion Hz; subst; cbn in *; try contradiction. rewrite app_length. cbn. lia.
      - intros j sj p Hj Hp. unfold step_at in Hj. cbn in Hj |- *. apply nth_error_update in Hj.
        destruct Hj as [[_ Hj]|[_ [-> _]]]; [exact (K _ _ _ Hj Hp)|exact (K _ _ _ Hs Hp)]. }
    assert (K2 : pmods_exist h2).
    { eapply new_exist; eauto. intros p Em.
      assert (O : own_maps h1 i = MPmod p) by (destruct e1 as [j|]; [destruct (texted h1 j)|]; auto; discriminate).
      unfold own_maps in O. destruct (nth_error (h_steps h1) i) as [si|] eqn:Ei; [|discriminate].
      destruct (s_pmod si) eqn:Ep; [|discriminate]. injection O as <-. exact (K1 _ _ _ Ei Ep). }
    destruct r; subst h'; [|exact K2]. intros j sj p Hj Hp. exact (K2 j sj p Hj Hp).
  Qed.

  Lemma run_exist : forall os h, pmods_exist h -> always ex existing h os -> pmods_exist (go h os).
  Proof.
    induction os as [|o os IH]; intros h K A; auto. cbn. inversion A as [|? ? ? A1 A2]; subst. apply IH; auto.
    destruct (exec_effect M fullmatch expand compiles class_attr h o) as [o|n m al ts h' r E|i a h' r s E Hs Hc|i a x h' r s E Hs|i a j h' r s E Hs|i z s Hs Hl|o i s ts Ho Hs|l cx]; auto.
    - eapply new_exist; eauto. intros p ->. eapply A1; eauto.
    - eapply make_exist; eauto.
    - eapply make_exist; eauto.
    - eapply make_exist; eauto.
    - intros j sj p Hj Hp. unfold step_at in Hj. cbn in Hj |- *. apply nth_error_update in Hj.
      destruct Hj as [[_ Hj]|[_ [-> _]]]; [exact (K _ _ _ Hj Hp)|exact (K _ _ _ Hs Hp)].
    - intros j sj p Hj Hp. unfold step_at in Hj. cbn in Hj |- *. apply nth_error_update in Hj.
      destruct Hj as [[_ Hj]|[_ [-> _]]]; [exact (K _ _ _ Hj Hp)|exact (K _ _ _ Hs Hp)].
    - intros j sj p Hj Hp. cbn. eapply exists_longer; [exact (K _ _ _ Hj Hp)|]. rewrite app_length. lia.
  Qed.
End Regex.
