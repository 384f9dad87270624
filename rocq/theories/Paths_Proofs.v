From Coq Require Import String.
From Verif Require Import PyBase PyBase_Proofs Paths_Model Paths_Spec.

(** Abstract normal forms. *)
Inductive nf := NAbs (names : list pystr) | NRel (k : nat) (names : list pystr).
Definition nf_steps (x : nf) : list pystr :=
  match x with NAbs ns => lit "" :: ns | NRel k ns => repeat (lit "..") k ++ ns end.
Definition nf_names (x : nf) := match x with NAbs ns => ns | NRel _ ns => ns end.
Definition drop_last {A} (k : nat) (l : list A) : list A := firstn (length l - k) l.
Definition nf_eval (x : nf) (f : list pystr) : list pystr :=
  match x with NAbs ns => ns | NRel k ns => drop_last k f ++ ns end.
Definition nf_ok (x : nf) : Prop := Forall plain (nf_names x).

Definition nf_step (x : nf) (s : pystr) : nf :=
  if str_eqb s (lit "") then NAbs []
  else if str_eqb s (lit ".") then x
  else if str_eqb s (lit "..") then
    match x with
    | NAbs ns => NAbs (removelast ns)
    | NRel k [] => NRel (S k) []
    | NRel k ns => NRel k (removelast ns)
    end
  else match x with NAbs ns => NAbs (ns ++ [s]) | NRel k ns => NRel k (ns ++ [s]) end.

(** The walking function. *)
Definition walkf (f : list pystr) (s : pystr) : list pystr :=
  if str_eqb s (lit "") then []
  else if str_eqb s (lit ".") then f
  else if str_eqb s (lit "..") then removelast f
  else f ++ [s].

Lemma walk1_walkf : forall f s g, walk1 f s g <-> walkf f s = g.
Proof.
  intros f s g. split.
  - intros H. destruct H as [f|f|f n| |f n H1 H2 H3]; try reflexivity.
    + unfold walkf. cbn -[removelast]. apply removelast_last.
    + unfold walkf. apply str_eqb_neq in H1, H2, H3. rewrite H1, H2, H3. reflexivity.
  - intros <-. unfold walkf.
    destruct (str_eqb_spec s (lit "")) as [->|H1]; [constructor|].
    destruct (str_eqb_spec s (lit ".")) as [->|H2]; [constructor|].
    destruct (str_eqb_spec s (lit "..")) as [->|H3]; [|constructor; assumption].
    destruct f as [|a f] using rev_ind; [constructor|]. rewrite removelast_last. constructor.
Qed.

Lemma walks_fold : forall ss f g, walks f ss g <-> fold_left walkf ss f = g.
Proof.
  induction ss as [|s ss IH]; intros f g; simpl; split; intro H.
  - inversion H; reflexivity.
  - subst; constructor.
  - inversion H as [|? ? f1 ? ? H1 H2]; subst. apply walk1_walkf in H1. subst. apply IH. exact H2.
  - econstructor; [apply walk1_walkf; reflexivity|]. apply IH. exact H.
Qed.

Lemma last_slice_last : forall A (l : list A) x, last_slice (l ++ [x]) = [x].
Proof. intros. unfold last_slice. rewrite rev_app_distr. reflexivity. Qed.

Lemma steps_eqb_eq : forall a b, steps_eqb a b = true <-> a = b.
Proof.
  induction a as [|x a IH]; destruct b as [|y b]; simpl; split; intro H;
    try reflexivity; try discriminate.
  - apply andb_true_iff in H. destruct H as [H1 H2]. apply str_eqb_eq in H1. apply IH in H2. congruence.
  - inversion H; subst. rewrite str_eqb_refl. simpl. apply IH. reflexivity.
Qed.

Definition dd := lit "..".

Lemma repeat_snoc : forall A (x : A) k, repeat x (S k) = repeat x k ++ [x].
Proof. intros A x k. induction k as [|k IH]; [reflexivity|]. simpl in *. rewrite <- IH. reflexivity. Qed.

(** What the table gives, by the kind of the last step. *)
Lemma append_plain : forall steps s, plain s -> append_step steps s = steps ++ [s].
Proof.
  intros steps s (H1 & H2 & H3). unfold append_step.
  apply str_eqb_neq in H1, H2, H3. rewrite H1.
  assert (E : dget steps_eqb (last_slice steps ++ [s]) last_pair_choices = None).
  { destruct steps as [|x steps _] using rev_ind.
    - cbn -[lit]. rewrite ?H1, ?H2, ?H3. reflexivity.
    - rewrite last_slice_last. cbn -[lit]. rewrite H2, H3.
      rewrite !andb_false_r. reflexivity. }
  rewrite E, H2, H3. reflexivity.
Qed.

Lemma append_dot_snoc : forall l x, plain x \/ x = dd \/ (l = [] /\ x = lit "") ->
  append_step (l ++ [x]) (lit ".") = l ++ [x].
Proof.
  intros l x H. unfold append_step. rewrite last_slice_last.
  destruct H as [(H1 & H2 & H3)|[-> |[-> ->]]].
  - apply str_eqb_neq in H1, H2, H3. cbn [app dget last_pair_choices steps_eqb].
    rewrite H1, H2, H3. reflexivity.
  - rewrite removelast_last. reflexivity.
  - reflexivity.
Qed.

Lemma append_dd_plain : forall l x, plain x -> append_step (l ++ [x]) dd = l.
Proof.
  intros l x (H1 & H2 & H3). unfold append_step. rewrite last_slice_last.
  apply str_eqb_neq in H1, H2, H3. cbn [app dget last_pair_choices steps_eqb].
  rewrite H1, H2, H3. cbn -[removelast app]. apply removelast_last.
Qed.

Lemma append_dd_dd : forall l, append_step (l ++ [dd]) dd = l ++ [dd; dd].
Proof. intro l. unfold append_step. rewrite last_slice_last. rewrite removelast_last. reflexivity. Qed.

Lemma plain_dec : forall s, s = lit "" \/ s = lit "." \/ s = dd \/ plain s.
Proof.
  intro s. destruct (str_eqb_spec s (lit "")); [auto|].
  destruct (str_eqb_spec s (lit ".")); [auto|].
  destruct (str_eqb_spec s dd); [auto|]. right; right; right. repeat split; assumption.
Qed.

Lemma nf_step_plain : forall x s, plain s ->
  nf_step x s = match x with NAbs ns => NAbs (ns ++ [s]) | NRel k ns => NRel k (ns ++ [s]) end.
Proof.
  intros x s (H1 & H2 & H3). apply str_eqb_neq in H1, H2, H3. unfold nf_step.
  rewrite H1, H2, H3. reflexivity.
Qed.

Lemma append_step_nf : forall x s, nf_ok x ->
  append_step (nf_steps x) s = nf_steps (nf_step x s) /\ nf_ok (nf_step x s).
Proof.
  intros x s Hok. destruct (plain_dec s) as [->|[->|[->|Hs]]].
  - split; [reflexivity|]. constructor.
  - change (nf_step x (lit ".")) with x. split; [|exact Hok]. destruct x as [ns|k ns].
    + destruct ns as [|n ns _] using rev_ind; [reflexivity|].
      cbn [nf_steps]. rewrite app_comm_cons. apply append_dot_snoc. left.
      unfold nf_ok in Hok. cbn in Hok. apply Forall_app in Hok. destruct Hok as [_ H].
      inversion H; assumption.
    + destruct ns as [|n ns _] using rev_ind.
      * cbn [nf_steps]. rewrite app_nil_r. destruct k as [|k]; [reflexivity|].
        rewrite repeat_snoc. apply append_dot_snoc. right; left; reflexivity.
      * cbn [nf_steps]. rewrite app_assoc. apply append_dot_snoc. left.
        unfold nf_ok in Hok. cbn in Hok. apply Forall_app in Hok. destruct Hok as [_ H].
        inversion H; assumption.
  - destruct x as [ns|k ns].
    + change (nf_step (NAbs ns) dd) with (NAbs (removelast ns)).
      destruct ns as [|n ns _] using rev_ind; [split; [reflexivity|constructor]|].
      unfold nf_ok in Hok. cbn in Hok. apply Forall_app in Hok. destruct Hok as [Hns Hn].
      inversion Hn; subst. rewrite removelast_last. split; [|exact Hns].
      cbn [nf_steps]. rewrite app_comm_cons. apply append_dd_plain. assumption.
    + destruct ns as [|n ns _] using rev_ind.
      * change (nf_step (NRel k []) dd) with (NRel (S k) []). split; [|constructor].
        cbn [nf_steps]. rewrite !app_nil_r. destruct k as [|k]; [reflexivity|].
        change (lit "..") with dd.
        rewrite repeat_snoc. rewrite append_dd_dd. rewrite (repeat_snoc _ dd (S k)).
        rewrite repeat_snoc. rewrite <- app_assoc. reflexivity.
      * assert (E : nf_step (NRel k (ns ++ [n])) dd = NRel k ns).
        { unfold nf_step. cbn -[removelast app]. destruct (ns ++ [n]) as [|a l] eqn:E.
          - destruct ns; discriminate.
          - rewrite <- E. rewrite removelast_last. reflexivity. }
        unfold nf_ok in Hok. cbn in Hok. apply Forall_app in Hok. destruct Hok as [Hns Hn].
        inversion Hn; subst. rewrite E. split; [|exact Hns].
        cbn [nf_steps]. rewrite app_assoc. apply append_dd_plain. assumption.
  - rewrite append_plain by exact Hs. rewrite nf_step_plain by exact Hs.
    unfold nf_ok in *. destruct x as [ns|k ns]; cbn in *; split;
      try reflexivity; try (apply Forall_app; split; [assumption|constructor; [assumption|constructor]]).
    rewrite app_assoc. reflexivity.
Qed.

Definition nf_of (steps : list pystr) : nf := fold_left nf_step steps (NRel 0 []).

Lemma fold_append_nf : forall steps x, nf_ok x ->
  fold_left append_step steps (nf_steps x) = nf_steps (fold_left nf_step steps x)
  /\ nf_ok (fold_left nf_step steps x).
Proof.
  induction steps as [|s steps IH]; intros x Hok; simpl; [auto|].
  destruct (append_step_nf x s Hok) as [E Hok']. rewrite E. apply IH. exact Hok'.
Qed.

Lemma fold_append_nf_of : forall steps,
  fold_left append_step steps [] = nf_steps (nf_of steps) /\ nf_ok (nf_of steps).
Proof. intro steps. apply (fold_append_nf steps (NRel 0 [])). constructor. Qed.

Lemma drop_last_0 : forall A (l : list A), drop_last 0 l = l.
Proof. intros. unfold drop_last. rewrite Nat.sub_0_r. apply firstn_all. Qed.

Lemma removelast_firstn' : forall A (l : list A), removelast l = firstn (length l - 1) l.
Proof. intros. rewrite removelast_firstn_len. f_equal. lia. Qed.

Lemma drop_last_S : forall A k (l : list A), removelast (drop_last k l) = drop_last (S k) l.
Proof.
  intros. unfold drop_last. rewrite removelast_firstn'. rewrite firstn_firstn.
  rewrite firstn_length. f_equal. lia.
Qed.

Lemma nf_eval_step : forall x s f, nf_eval (nf_step x s) f = walkf (nf_eval x f) s.
Proof.
  intros x s f. destruct (plain_dec s) as [->|[->|[->|Hs]]].
  - reflexivity.
  - reflexivity.
  - change (walkf (nf_eval x f) dd) with (removelast (nf_eval x f)).
    destruct x as [ns|k ns]; [reflexivity|].
    destruct ns as [|n ns _] using rev_ind.
    + cbn -[removelast drop_last]. rewrite !app_nil_r. symmetry. apply drop_last_S.
    + assert (E : nf_step (NRel k (ns ++ [n])) dd = NRel k ns).
      { unfold nf_step. cbn -[removelast app]. destruct (ns ++ [n]) as [|a l] eqn:E.
        - destruct ns; discriminate.
        - rewrite <- E. rewrite removelast_last. reflexivity. }
      rewrite E. cbn -[removelast drop_last]. rewrite app_assoc. rewrite removelast_last. reflexivity.
  - rewrite nf_step_plain by exact Hs. destruct Hs as (H1 & H2 & H3).
    apply str_eqb_neq in H1, H2, H3. unfold walkf. rewrite H1, H2, H3.
    destruct x; [reflexivity|]. cbn. apply app_assoc.
Qed.

Lemma nf_eval_fold : forall steps x f,
  nf_eval (fold_left nf_step steps x) f = fold_left walkf steps (nf_eval x f).
Proof.
  induction steps as [|s steps IH]; intros x f; simpl; [reflexivity|].
  rewrite IH, nf_eval_step. reflexivity.
Qed.

Lemma nf_of_eval : forall steps f, nf_eval (nf_of steps) f = fold_left walkf steps f.
Proof.
  intros. unfold nf_of. rewrite nf_eval_fold. cbn -[drop_last]. rewrite drop_last_0, app_nil_r.
  reflexivity.
Qed.

Lemma walkf_plain : forall ns f, Forall plain ns -> fold_left walkf ns f = f ++ ns.
Proof.
  induction ns as [|n ns IH]; intros f H; simpl; [rewrite app_nil_r; reflexivity|].
  inversion H as [|? ? (H1 & H2 & H3) H4]; subst. rewrite IH by assumption.
  unfold walkf. apply str_eqb_neq in H1, H2, H3. rewrite H1, H2, H3.
  rewrite <- app_assoc. reflexivity.
Qed.

Lemma walkf_dds : forall k f, fold_left walkf (repeat dd k) f = drop_last k f.
Proof.
  induction k as [|k IH]; intro f; [symmetry; apply drop_last_0|].
  rewrite repeat_snoc. rewrite fold_left_app, IH. cbn -[removelast drop_last].
  apply drop_last_S.
Qed.

Lemma nf_steps_eval : forall x f, nf_ok x -> fold_left walkf (nf_steps x) f = nf_eval x f.
Proof.
  intros [ns|k ns] f Hok; unfold nf_ok in Hok; cbn -[drop_last lit] in *.
  - change (walkf f (lit "")) with (@nil pystr). apply (walkf_plain ns [] Hok).
  - rewrite fold_left_app, walkf_dds. apply walkf_plain. exact Hok.
Qed.

(** The steps written in the result. *)
Definition text_steps (steps : list pystr) : list pystr :=
  match nf_steps (nf_of steps) with [] => [lit "."] | l => l end.

Lemma join_paths_text : forall steps, join_paths steps = join [47%N] (text_steps steps).
Proof.
  intro steps. unfold join_paths, text_steps. destruct (fold_append_nf_of steps) as [-> _].
  destruct (nf_steps (nf_of steps)); reflexivity.
Qed.

Lemma text_steps_not_nil : forall steps, text_steps steps <> [].
Proof. intro steps. unfold text_steps. destruct (nf_steps (nf_of steps)); discriminate. Qed.

Lemma text_steps_eval : forall steps f,
  fold_left walkf (text_steps steps) f = fold_left walkf steps f.
Proof.
  intros steps f. rewrite <- (nf_of_eval steps). destruct (fold_append_nf_of steps) as [_ Hok].
  rewrite <- (nf_steps_eval _ f Hok). unfold text_steps.
  destruct (nf_steps (nf_of steps)); reflexivity.
Qed.

Lemma text_steps_normal : forall steps, normal (text_steps steps).
Proof.
  intro steps. destruct (fold_append_nf_of steps) as [_ Hok]. unfold text_steps, nf_ok in *.
  destruct (nf_of steps) as [ns|k ns]; cbn -[lit] in *.
  - constructor. exact Hok.
  - destruct (repeat (lit "..") k ++ ns) as [|a l] eqn:E; [constructor|].
    rewrite <- E. constructor; [exact Hok|]. destruct k; destruct ns; cbn in *; try lia. discriminate.
Qed.

(** Names come from the given steps. *)
Lemma nf_step_names : forall x s n, In n (nf_names (nf_step x s)) -> In n (nf_names x) \/ n = s.
Proof.
  assert (RL : forall (l : list pystr) n, In n (removelast l) -> In n l).
  { intros l n H. destruct l as [|a l _] using rev_ind; [exact H|].
    rewrite removelast_last in H. apply in_or_app. left. exact H. }
  intros x s n H. unfold nf_step in H.
  destruct (str_eqb s (lit "")); [destruct H|].
  destruct (str_eqb s (lit ".")); [left; exact H|].
  destruct (str_eqb s (lit "..")).
  - left. destruct x as [ns|k [|m ns]]; cbn -[removelast] in *; [apply RL; exact H|destruct H|].
    apply RL in H. exact H.
  - destruct x as [ns|k ns]; cbn in *; apply in_app_or in H; destruct H as [H|[H|[]]]; auto.
Qed.

Lemma nf_of_names : forall steps n, In n (nf_names (nf_of steps)) -> In n steps.
Proof.
  intros steps n. unfold nf_of.
  assert (G : forall ss x, In n (nf_names (fold_left nf_step ss x)) -> In n (nf_names x) \/ In n ss).
  { induction ss as [|s ss IH]; intros x H; simpl in *; [auto|].
    apply IH in H. destruct H as [H|H]; [|auto]. apply nf_step_names in H. destruct H; auto. }
  intro H. apply G in H. destruct H as [[]|H]. exact H.
Qed.

Lemma text_steps_no_slash : forall steps, (forall s, In s steps -> ~ In 47%N s) ->
  forall s, In s (text_steps steps) -> ~ In 47%N s.
Proof.
  intros steps Hs s H. pose proof (nf_of_names steps) as Hn. unfold text_steps in H.
  assert (Hl : In s (lit "." :: lit "" :: lit ".." :: nf_names (nf_of steps))).
  { destruct (nf_of steps) as [ns|k ns].
    - destruct H as [<-|H]; [right; left; reflexivity|]. right; right; right. exact H.
    - cbn [nf_steps nf_names] in *. destruct (repeat (lit "..") k ++ ns) as [|a l] eqn:E.
      + destruct H as [<-|[]]. left; reflexivity.
      + rewrite <- E in H. apply in_app_or in H. destruct H as [H|H].
        * apply repeat_spec in H. subst. right; right; left; reflexivity.
        * right; right; right. exact H. }
  destruct Hl as [<-|[<-|[<-|H']]]; [cbn; lia|cbn; lia|cbn; lia|]. apply Hs, Hn, H'.
Qed.

(** ** The properties *)

Lemma join_paths_meaning : forall steps, (forall s, In s steps -> ~ In 47%N s) ->
  forall f g, walks f steps g <-> text_walks f (join_paths steps) g.
Proof.
  intros steps Hs f g. rewrite walks_fold. split.
  - intro H. exists (text_steps steps).
    split; [apply text_steps_not_nil|]. split; [apply text_steps_no_slash; exact Hs|].
    split; [apply join_paths_text|]. apply walks_fold. rewrite text_steps_eval. exact H.
  - intros (ss & Hne & Hss & Hp & Hw). rewrite join_paths_text in Hp.
    apply (f_equal (split_on 47%N)) in Hp.
    rewrite split_join in Hp; [|apply text_steps_not_nil|apply text_steps_no_slash; exact Hs].
    rewrite split_join in Hp by assumption. subst ss.
    apply walks_fold in Hw. rewrite text_steps_eval in Hw. exact Hw.
Qed.

Lemma walks_total : forall f ss, exists g, walks f ss g /\ forall g', walks f ss g' -> g' = g.
Proof.
  intros f ss. exists (fold_left walkf ss f). split; [apply walks_fold; reflexivity|].
  intros g' H. apply walks_fold in H. congruence.
Qed.

Lemma join_paths_normal : forall steps, (forall s, In s steps -> ~ In 47%N s) ->
  exists ss, normal ss /\ split_on 47%N (join_paths steps) = ss /\ join_paths steps = join [47%N] ss.
Proof.
  intros steps Hs. exists (text_steps steps). split; [apply text_steps_normal|].
  rewrite join_paths_text. split; [|reflexivity]. apply split_join.
  - apply text_steps_not_nil.
  - apply text_steps_no_slash. exact Hs.
Qed.

(** Folding over a normal form gives it back. *)
Lemma nf_fold_plain : forall ns x, Forall plain ns ->
  fold_left nf_step ns x =
  match x with NAbs ms => NAbs (ms ++ ns) | NRel k ms => NRel k (ms ++ ns) end.
Proof.
  induction ns as [|n ns IH]; intros x H; simpl.
  - destruct x; rewrite app_nil_r; reflexivity.
  - inversion H; subst. rewrite nf_step_plain by assumption. rewrite IH by assumption.
    destruct x; rewrite <- app_assoc; reflexivity.
Qed.

Lemma nf_fold_dds : forall k j, fold_left nf_step (repeat dd k) (NRel j []) = NRel (k + j) [].
Proof.
  induction k as [|k IH]; intro j; [reflexivity|]. cbn -[nf_step dd].
  change (nf_step (NRel j []) dd) with (NRel (S j) []). rewrite IH. f_equal. lia.
Qed.

Lemma text_steps_id : forall ss, normal ss -> text_steps ss = ss.
Proof.
  intros ss [|ns H|k ns H Hk]; unfold text_steps, nf_of.
  - reflexivity.
  - cbn -[nf_step lit nf_steps]. change (nf_step (NRel 0 []) (lit "")) with (NAbs []).
    rewrite nf_fold_plain by exact H. reflexivity.
  - change (lit "..") with dd. rewrite fold_left_app, nf_fold_dds, nf_fold_plain by exact H.
    cbn -[lit]. rewrite Nat.add_0_r. change (lit "..") with dd.
    destruct (repeat dd k ++ ns) eqn:E; [|reflexivity].
    destruct k; destruct ns; cbn in *; try discriminate; lia.
Qed.

Lemma join_paths_idem : forall steps, (forall s, In s steps -> ~ In 47%N s) ->
  join_paths (split_on 47%N (join_paths steps)) = join_paths steps.
Proof.
  intros steps Hs. destruct (join_paths_normal steps Hs) as (ss & Hn & E1 & E2).
  rewrite E1, E2. rewrite join_paths_text. rewrite text_steps_id by exact Hn. reflexivity.
Qed.

Lemma nf_canonical : forall x y, nf_ok x -> nf_ok y -> (forall f, nf_eval x f = nf_eval y f) -> x = y.
Proof.
  intros [ns|k ns] [ms|j ms] Hx Hy H.
  - f_equal. exact (H []).
  - exfalso. specialize (H (repeat dd (S (j + length ns)))). cbn [nf_eval] in H.
    apply (f_equal (@length _)) in H. rewrite app_length in H. unfold drop_last in H.
    rewrite firstn_length, repeat_length in H. lia.
  - exfalso. specialize (H (repeat dd (S (k + length ms)))). cbn [nf_eval] in H.
    apply (f_equal (@length _)) in H. rewrite app_length in H. unfold drop_last in H.
    rewrite firstn_length, repeat_length in H. lia.
  - pose proof (H []) as H0. cbn in H0. subst ms.
    specialize (H (repeat dd (k + j))). cbn [nf_eval] in H.
    apply (f_equal (@length _)) in H. rewrite !app_length in H. unfold drop_last in H.
    rewrite !firstn_length, repeat_length in H. f_equal. lia.
Qed.

Lemma join_paths_canonical : forall a b,
  (forall f g, walks f a g <-> walks f b g) -> join_paths a = join_paths b.
Proof.
  intros a b H. rewrite !join_paths_text. f_equal. unfold text_steps.
  assert (E : nf_of a = nf_of b).
  { apply nf_canonical; try apply fold_append_nf_of. intro f. rewrite !nf_of_eval.
    symmetry. apply walks_fold. apply H. apply walks_fold. reflexivity. }
  rewrite E. reflexivity.
Qed.
