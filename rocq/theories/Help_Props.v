(** * Property C136: the help of a filter that fails shows its description *)
From Coq Require Import String Lia.
From Verif Require Import PyBase PyBase_Proofs Utils_Spec Texts_Proofs Bump_Proofs Help_Model.

Definition blank (l : pystr) : Prop := forall c, In c l -> c = 32%N \/ c = 9%N.
Definition prefix (p s : pystr) : Prop := exists r, s = p ++ r.
(** The longest margin of the lines that are not blank *)
Definition common_margin (ls : list pystr) (m : pystr) : Prop :=
  blank m /\ (forall l, In l ls -> ~ blank l -> prefix m l)
  /\ forall p, blank p -> (forall l, In l ls -> ~ blank l -> prefix p l) -> prefix p m.
(** Neither white space other than blanks and newlines, nor other ends of lines *)
Definition plain_text (s : pystr) : Prop := forall c, In c s -> ~ In c [11; 12; 13; 28; 29; 30; 31; 133; 160; 8232; 8233]%N.

(** ** Lemmas *)
Lemma is_blank_spec : forall c, is_blank c = true <-> c = 32%N \/ c = 9%N.
Proof. intros c. unfold is_blank. rewrite Bool.orb_true_iff, !N.eqb_eq. reflexivity. Qed.
Lemma blank_dec : forall l, forallb is_blank l = true <-> blank l.
Proof. intros l. rewrite forallb_forall. unfold blank. split; intros H c Hc; apply is_blank_spec, H, Hc. Qed.
Lemma prefix_nil : forall s, prefix [] s.
Proof. intros s. exists s. reflexivity. Qed.
Lemma prefix_cons : forall x p y s, prefix (x :: p) (y :: s) <-> x = y /\ prefix p s.
Proof. intros x p y s. split; [intros (r & E); injection E as -> ->; split; [reflexivity|exists r; reflexivity] | intros (-> & r & ->); exists r; reflexivity]. Qed.
Lemma prefix_none : forall x p, ~ prefix (x :: p) [].
Proof. intros x p (r & E). discriminate E. Qed.
Lemma prefix_trans : forall a b c, prefix a b -> prefix b c -> prefix a c.
Proof. intros a b c (r & ->) (t & ->). exists (r ++ t). now rewrite app_assoc. Qed.
Lemma prefix_refl : forall a, prefix a a.
Proof. intros a. exists []. now rewrite app_nil_r. Qed.

Lemma cut_spec : forall m i, ~ prefix m i -> ~ prefix i m -> forall p, prefix p (cut m i) <-> prefix p m /\ prefix p i.
Proof.
  induction m as [|x m IH]; intros i Hm Hi p; [destruct Hm; apply prefix_nil|]. destruct i as [|y i]; [destruct Hi; apply prefix_nil|].
  cbn [cut]. destruct p as [|z p]; [split; [split; apply prefix_nil | intros _; apply prefix_nil]|].
  destruct (N.eqb_spec x y) as [->|Hxy].
  - rewrite !prefix_cons, IH; [tauto| |]; intros F; [apply Hm | apply Hi]; apply prefix_cons; auto.
  - rewrite !prefix_cons. split; [intros F; destruct (prefix_none _ _ F) | intros ((-> & _) & E & _); congruence].
Qed.
Lemma narrow_spec : forall m i, exists n, narrow (Some m) i = Some n /\ forall p, prefix p n <-> prefix p m /\ prefix p i.
Proof.
  intros m i. cbn [narrow]. destruct (starts_with m i) eqn:E.
  - apply starts_with_app in E. exists m. split; [reflexivity|]. intros p. split; [|tauto]. intros H. split; [exact H|]. exact (prefix_trans _ _ _ H E).
  - destruct (starts_with i m) eqn:F.
    + apply starts_with_app in F. exists i. split; [reflexivity|]. intros p. split; [|tauto]. intros H. split; [|exact H]. exact (prefix_trans _ _ _ H F).
    + exists (cut m i). split; [reflexivity|]. apply cut_spec; intros G; apply starts_with_app in G; congruence.
Qed.
Lemma narrows_spec : forall is m, exists n, fold_left narrow is (Some m) = Some n /\ forall p, prefix p n <-> prefix p m /\ forall i, In i is -> prefix p i.
Proof.
  induction is as [|i is IH]; intros m; [exists m; cbn; firstorder|]. cbn [fold_left]. destruct (narrow_spec m i) as (k & -> & K).
  destruct (IH k) as (n & E & H). exists n. split; [exact E|]. intros p. rewrite H, K. split.
  - intros ((A & B) & C). split; [exact A|]. intros j [<-|Hj]; auto.
  - intros (A & B). split; [split; [exact A | apply B; now left] | intros j Hj; apply B; now right].
Qed.
Lemma leading_blank : forall l, blank (leading l).
Proof.
  induction l as [|c l IH]; cbn [leading]; [intros x []|]. destruct (is_blank c) eqn:E; [|intros x []]. intros x [<-|Hx]; [now apply is_blank_spec | exact (IH x Hx)].
Qed.
Lemma leading_prefix : forall p l, blank p -> (prefix p (leading l) <-> prefix p l).
Proof.
  induction p as [|x p IH]; intros l H; [split; intros _; apply prefix_nil|]. assert (Hx : is_blank x = true) by (apply is_blank_spec, H; now left).
  assert (Hp : blank p) by (intros c Hc; apply H; now right). destruct l as [|c l]; cbn [leading]; [reflexivity|]. destruct (is_blank c) eqn:E.
  - rewrite !prefix_cons, (IH l Hp). reflexivity.
  - rewrite prefix_cons. split; [intros F; destruct (prefix_none _ _ F) | intros (-> & _); congruence].
Qed.
Lemma blank_prefix : forall a b, prefix a b -> blank b -> blank a.
Proof. intros a b (r & ->) H c Hc. apply H, in_app_iff. now left. Qed.

Lemma cleaned_blank : forall l, blank l -> cleaned l = [].
Proof. intros l H. unfold cleaned. apply blank_dec in H. now rewrite H. Qed.
Lemma cleaned_not : forall l, ~ blank l -> cleaned l = l.
Proof. intros l H. unfold cleaned. destruct (forallb is_blank l) eqn:E; [apply blank_dec in E; contradiction | reflexivity]. Qed.
Lemma blank_or : forall l, blank l \/ ~ blank l.
Proof. intros l. destruct (forallb is_blank l) eqn:E; [left; now apply blank_dec | right; intros F; apply blank_dec in F; congruence]. Qed.
Lemma not_blank_nil : forall l, ~ blank l -> str_eqb l [] = false.
Proof. intros [|c l] H; [destruct H; intros c [] | reflexivity]. Qed.

Lemma margin_cleaned : forall ls, match margin_of (map cleaned ls) with
  | Some m => common_margin ls m
  | None => forall l, In l ls -> blank l
  end.
Proof.
  intros ls. unfold margin_of.
  assert (K : forall i, In i (map leading (filter (fun l => negb (str_eqb l [])) (map cleaned ls))) <-> exists l, In l ls /\ ~ blank l /\ i = leading l).
  { intros i. rewrite in_map_iff. split.
    - intros (x & <- & Hx). apply filter_In in Hx. destruct Hx as (Hx & Hn). apply in_map_iff in Hx. destruct Hx as (l & <- & Hl).
      destruct (blank_or l) as [B|B]; [rewrite (cleaned_blank l B) in Hn; discriminate Hn|]. exists l. rewrite (cleaned_not l B). auto.
    - intros (l & Hl & B & ->). exists l. split; [reflexivity|]. apply filter_In. rewrite (not_blank_nil l B). split; [|reflexivity].
      apply in_map_iff. exists l. split; [apply cleaned_not, B | exact Hl]. }
  destruct (map leading (filter (fun l => negb (str_eqb l [])) (map cleaned ls))) as [|i is].
  - cbn [fold_left]. intros l Hl. destruct (blank_or l) as [B|B]; [exact B|]. destruct (proj2 (K (leading l))). exists l. auto.
  - cbn [fold_left narrow]. destruct (narrows_spec is i) as (m & -> & H). pose proof (proj1 (H m) (prefix_refl m)) as (M1 & M2).
    assert (Bm : blank m).
    { destruct (proj1 (K i) (or_introl eq_refl)) as (l & _ & _ & ->). exact (blank_prefix _ _ M1 (leading_blank l)). }
    split; [exact Bm|]. split.
    + intros l Hl B. apply (leading_prefix m l Bm). destruct (proj2 (K (leading l)) (ex_intro _ l (conj Hl (conj B eq_refl)))) as [<-|F]; auto.
    + intros p Bp Hp. apply H. split.
      * destruct (proj1 (K i) (or_introl eq_refl)) as (l & Hl & B & ->). apply (leading_prefix p l Bp). auto.
      * intros j Hj. destruct (proj1 (K j) (or_intror Hj)) as (l & Hl & B & ->). apply (leading_prefix p l Bp). auto.
Qed.

(** Lines of [splitlines] *)
Lemma no_break : forall c, ~ In c [11; 12; 13; 28; 29; 30; 31; 133; 160; 8232; 8233]%N -> c <> 10%N -> is_break c = false.
Proof.
  intros c H Hc. apply Bool.not_true_is_false. intros E. apply existsb_exists in E. destruct E as (d & Hd & E). apply N.eqb_eq in E. subst d.
  cbn [In] in Hd, H. intuition congruence.
Qed.
Lemma plain_space : forall c, ~ In c [11; 12; 13; 28; 29; 30; 31; 133; 160; 8232; 8233]%N -> c <> 10%N -> is_space c = true -> c = 32%N \/ c = 9%N.
Proof.
  intros c H Hc E. unfold is_space in E. rewrite !Bool.orb_true_iff, !Bool.andb_true_iff, !N.leb_le, !N.eqb_eq in E. cbn [In] in H.
  assert (c = 9 \/ c = 10 \/ c = 11 \/ c = 12 \/ c = 13 \/ c = 28 \/ c = 29 \/ c = 30 \/ c = 31 \/ c = 32 \/ c = 133 \/ c = 160)%N by lia. intuition congruence.
Qed.
Lemma keep_line : forall l s, plain_text l -> ~ In 10%N l -> lines_keep (l ++ 10%N :: s) = (l ++ [10%N]) :: lines_keep s.
Proof.
  induction l as [|c l IH]; intros s P N; [reflexivity|]. cbn [app lines_keep]. rewrite IH; [|intros x Hx; apply P; now right|intros F; apply N; now right].
  rewrite (no_break c); [reflexivity | apply P; now left | intros ->; apply N; now left].
Qed.
Lemma keep_last : forall c l, plain_text (c :: l) -> ~ In 10%N (c :: l) -> lines_keep (c :: l) = [c :: l].
Proof.
  intros c l. revert c. induction l as [|d l IH]; intros c P N; cbn [lines_keep]; rewrite (no_break c); try (apply P; now left); try (intros ->; apply N; now left).
  - reflexivity.
  - change (match lines_keep (d :: l) with [] => [[c]] | x :: xs => (c :: x) :: xs end = [c :: d :: l]).
    rewrite IH; [reflexivity | intros x Hx; apply P; now right | intros F; apply N; now right].
Qed.
Lemma space_plain : forall l, plain_text l -> ~ In 10%N l -> (all_space l <-> blank l).
Proof.
  intros l P N. split; intros H c Hc.
  - apply plain_space; [apply P, Hc | intros ->; contradiction | apply H, Hc].
  - destruct (H c Hc) as [-> | ->]; reflexivity.
Qed.
Definition indented (pre l : pystr) : pystr := if str_eqb (strip l) [] then l else pre ++ l.
Lemma indented_newline : forall pre l, indented pre (l ++ [10%N]) = indented pre l ++ [10%N].
Proof.
  intros pre l. unfold indented. destruct (str_eqb_spec (strip l) []) as [E|E]; destruct (str_eqb_spec (strip (l ++ [10%N])) []) as [F|F]; try reflexivity.
  - destruct F. apply strip_blank. apply strip_blank in E. intros c Hc. apply in_app_iff in Hc. destruct Hc as [Hc|[<-|[]]]; [auto | reflexivity].
  - destruct E. apply strip_blank. apply strip_blank in F. intros c Hc. apply F, in_app_iff. now left.
  - now rewrite app_assoc.
Qed.
Lemma indent_lines : forall pre ls, ls <> [] -> (forall l, In l ls -> plain_text l /\ ~ In 10%N l) ->
  indent pre (join [10%N] ls) = join [10%N] (map (indented pre) ls).
Proof.
  intros pre. unfold indent. change (fun l => if str_eqb (strip l) [] then l else pre ++ l) with (indented pre).
  induction ls as [|l ls IH]; intros Hn H; [congruence|]. destruct (H l (or_introl eq_refl)) as (P & N). destruct ls as [|k ls].
  - cbn [join map]. destruct l as [|c l]; [reflexivity|]. rewrite keep_last by assumption. cbn [map concat]. apply app_nil_r.
  - change (join [10%N] (l :: k :: ls)) with (l ++ 10%N :: join [10%N] (k :: ls)). rewrite keep_line by assumption. cbn [map concat].
    rewrite indented_newline, IH; [|discriminate|intros x Hx; apply H; now right]. rewrite <- app_assoc. reflexivity.
Qed.

Lemma skip_prefix : forall m r, unmargined (Some m) (m ++ r) = r.
Proof.
  intros m r. cbn [unmargined]. replace (starts_with m (m ++ r)) with true by (symmetry; apply starts_with_app; exists r; reflexivity).
  rewrite skipn_app, skipn_all, Nat.sub_diag. reflexivity.
Qed.
Lemma prefix_blank_nil : forall m, unmargined m [] = [].
Proof. intros [m|]; [|reflexivity]. cbn [unmargined]. destruct (starts_with m []); [apply skipn_nil | reflexivity]. Qed.

Lemma in_lines : forall c l s, In l (split_on 10%N s) -> In c l -> In c s.
Proof.
  intros c l s Hl Hc. rewrite <- (join_split 10%N s). induction (split_on 10%N s) as [|k ks IH]; [destruct Hl|].
  destruct ks as [|k' ks]; [destruct Hl as [<-|[]]; exact Hc|]. change (join [10%N] (k :: k' :: ks)) with (k ++ 10%N :: join [10%N] (k' :: ks)).
  apply in_app_iff. destruct Hl as [<-|Hl]; [now left|]. right. right. apply IH, Hl.
Qed.

(** ** C136 *)
(** The lines of the description follow a header: blank ones are emptied, the others lose the longest
    margin common to them, and get four spaces. *)
Theorem C136_lines : forall name sig desc, plain_text desc -> exists outs m,
  call_help name sig desc = [10; 10]%N ++ lit "Filter: " ++ name ++ sig ++ lit ":" ++ [10%N] ++ join [10%N] outs
  /\ ((exists l, In l (split_on 10%N desc) /\ ~ blank l) -> common_margin (split_on 10%N desc) m)
  /\ Forall2 (fun l o => (blank l /\ o = []) \/ (~ blank l /\ exists r, l = m ++ r /\ o = lit "    " ++ r)) (split_on 10%N desc) outs.
Proof.
  intros name sig desc P. set (ls := split_on 10%N desc). pose proof (margin_cleaned ls) as M. unfold call_help, dedent. fold ls.
  set (mo := margin_of (map cleaned ls)) in *. clearbody mo.
  assert (Pl : forall l, In l ls -> plain_text l /\ ~ In 10%N l).
  { intros l Hl. split; [intros c Hc; apply P; exact (in_lines c l desc Hl Hc) | exact (split_on_no_sep 10%N desc l Hl)]. }
  exists (map (indented (lit "    ")) (map (unmargined mo) (map cleaned ls))), (match mo with Some m => m | None => [] end).
  assert (Step : forall l, In l ls -> (blank l /\ unmargined mo (cleaned l) = [])
     \/ (~ blank l /\ exists m r, mo = Some m /\ blank m /\ l = m ++ r /\ unmargined mo (cleaned l) = r)).
  { intros l Hl. destruct (blank_or l) as [B|B]; [left; split; [exact B|]; rewrite (cleaned_blank l B); apply prefix_blank_nil|].
    right. split; [exact B|]. rewrite (cleaned_not l B). destruct mo as [m|]; [|destruct (B (M l Hl))].
    destruct M as (Bm & M & _). destruct (M l Hl B) as (r & ->). exists m, r. rewrite skip_prefix. auto. }
  split; [|split].
  - rewrite indent_lines; [reflexivity| |].
    + unfold ls. pose proof (split_on_not_nil 10%N desc). destruct (split_on 10%N desc); [congruence | discriminate].
    + intros x Hx. rewrite map_map in Hx. apply in_map_iff in Hx. destruct Hx as (l & <- & Hl). destruct (Pl l Hl) as (A & N).
      destruct (Step l Hl) as [(_ & ->)|(_ & m & r & _ & _ & E & ->)]; [split; [intros c [] | intros []]|].
      split; [intros c Hc; apply A; rewrite E; apply in_app_iff; now right | intros F; apply N; rewrite E; apply in_app_iff; now right].
  - intros (l & Hl & B). destruct mo as [m|]; [exact M | destruct (B (M l Hl))].
  - clear P M. clearbody ls. induction ls as [|l ls IH]; [constructor|]. cbn [map]. constructor; [|apply IH; intros x Hx; [apply Pl | apply Step]; now right].
    destruct (Pl l (or_introl eq_refl)) as (A & N). destruct (Step l (or_introl eq_refl)) as [(B & ->)|(B & m & r & Em & Bm & E & U)]; [left; split; [exact B | reflexivity]|].
    right. split; [exact B|]. exists r. rewrite Em in *. split; [exact E|]. rewrite U. unfold indented. destruct (str_eqb_spec (strip r) []) as [F|F]; [exfalso|reflexivity].
    apply strip_blank in F. apply B. rewrite E. intros c Hc. apply in_app_iff in Hc. destruct Hc as [Hc|Hc]; [exact (Bm c Hc)|].
    revert c Hc. apply space_plain; [| |exact F]; [intros c Hc; apply A | intros Hc; apply N]; rewrite E; apply in_app_iff; now right.
Qed.
Print Assumptions C136_lines.

Lemma prefix_both : forall a b, prefix a b -> prefix b a -> a = b.
Proof.
  intros a b (r & ->) (t & E). rewrite <- app_assoc in E. rewrite <- (app_nil_r a) in E at 1. apply app_inv_head in E. destruct r; [now rewrite app_nil_r | discriminate E].
Qed.
Lemma prefix_app : forall w a b, prefix (w ++ a) (w ++ b) <-> prefix a b.
Proof.
  intros w a b. split; intros (r & E); exists r; [rewrite <- app_assoc in E; exact (app_inv_head _ _ _ E) | rewrite E; apply app_assoc].
Qed.

(** The same lines deeper by [w] *)
Definition deeper (w l l' : pystr) : Prop := (blank l /\ blank l') \/ (~ blank l /\ l' = w ++ l).
Lemma deeper_not : forall w l l', deeper w l l' -> (~ blank l <-> ~ blank l').
Proof.
  intros w l l' [(A & B)|(A & ->)]; [tauto|]. split; [|intros _; exact A]. intros _ H. apply A. intros c Hc. apply H, in_app_iff. now right.
Qed.
Lemma deeper_margin : forall w ls ls' m m', blank w -> Forall2 (deeper w) ls ls' -> (exists l, In l ls /\ ~ blank l) ->
  common_margin ls m -> common_margin ls' m' -> m' = w ++ m.
Proof.
  intros w ls ls' m m' Bw D (l0 & Hl0 & B0) (Bm & M1 & M2) (Bm' & M1' & M2').
  assert (To : forall l', In l' ls' -> ~ blank l' -> exists l, In l ls /\ ~ blank l /\ l' = w ++ l).
  { clear - D. induction D as [|x y xs ys H D IH]; intros l' Hl B; [destruct Hl|]. destruct Hl as [<-|Hl].
    - pose proof (proj2 (deeper_not _ _ _ H) B) as Bx. destruct H as [(F & _)|(_ & ->)]; [contradiction|]. exists x. split; [now left|]. auto.
    - destruct (IH l' Hl B) as (l & A & C). exists l. split; [now right | exact C]. }
  assert (From : forall l, In l ls -> ~ blank l -> In (w ++ l) ls' /\ ~ blank (w ++ l)).
  { clear - D. induction D as [|x y xs ys H D IH]; intros l Hl B; [destruct Hl|]. destruct Hl as [<-|Hl].
    - pose proof (proj1 (deeper_not _ _ _ H) B) as By. destruct H as [(F & _)|(_ & ->)]; [contradiction|]. split; [now left | exact By].
    - destruct (IH l Hl B) as (A & C). split; [now right | exact C]. }
  assert (Bwm : blank (w ++ m)) by (intros c Hc; apply in_app_iff in Hc; destruct Hc; auto).
  assert (P1 : prefix (w ++ m) m').
  { apply M2'; [exact Bwm|]. intros l' Hl' B'. destruct (To l' Hl' B') as (l & Hl & B & ->). apply prefix_app. auto. }
  destruct P1 as (k & Ek). rewrite <- app_assoc in Ek. apply prefix_both; rewrite Ek; [|exists k; apply app_assoc].
  apply prefix_app. apply M2.
  - intros c Hc. apply Bm'. rewrite Ek. apply in_app_iff. now right.
  - intros l Hl B. destruct (From l Hl B) as (Hl' & B'). pose proof (M1' _ Hl' B') as F. rewrite Ek in F. exact (proj1 (prefix_app _ _ _) F).
Qed.

(** The help is the same however deep the description is indented, if all its lines are. *)
Theorem C136_any_depth : forall name sig w desc desc', plain_text desc -> plain_text desc' -> blank w ->
  Forall2 (deeper w) (split_on 10%N desc) (split_on 10%N desc') -> call_help name sig desc' = call_help name sig desc.
Proof.
  intros name sig w desc desc' P P' Bw D. destruct (C136_lines name sig desc P) as (outs & m & -> & M & O). destruct (C136_lines name sig desc' P') as (outs' & m' & -> & M' & O').
  enough (outs' = outs) as -> by reflexivity.
  assert (K : (exists l, In l (split_on 10%N desc) /\ ~ blank l) -> m' = w ++ m).
  { intros X. apply (deeper_margin w (split_on 10%N desc) (split_on 10%N desc') m m' Bw D X (M X)). apply M'.
    destruct X as (l & Hl & B). clear - D Hl B. induction D as [|x y xs ys H D IH]; [destruct Hl|]. destruct Hl as [<-|Hl].
    - exists y. split; [now left | exact (proj1 (deeper_not _ _ _ H) B)].
    - destruct (IH Hl) as (l' & A & C). exists l'. split; [now right | exact C]. }
  clear - D O O' K. revert outs outs' O O' K. induction D as [|x y xs ys H D IH]; intros outs outs' O O' K; inversion O; inversion O'; subst; [reflexivity|].
  assert (T : l'0 = l') by (apply IH; auto; intros (l & Hl & B); apply K; exists l; split; [now right | exact B]). subst l'. f_equal.
  destruct (blank_or x) as [B|B].
  - assert (B' : blank y) by (destruct (blank_or y) as [F|F]; [exact F | apply (deeper_not _ _ _ H) in F; contradiction]).
    match goal with A : _ \/ (~ blank x /\ _), C : _ \/ (~ blank y /\ _) |- _ => destruct A as [(_ & ->)|(F & _)]; [|contradiction]; destruct C as [(_ & ->)|(F & _)]; [reflexivity|contradiction] end.
  - pose proof (proj1 (deeper_not _ _ _ H) B) as B'. specialize (K (ex_intro _ x (conj (or_introl eq_refl) B))).
    destruct H as [(F & _)|(_ & ->)]; [contradiction|].
    match goal with A : _ \/ (~ blank x /\ _), C : _ \/ (~ blank (w ++ x) /\ _) |- _ => destruct A as [(F & _)|(_ & r & -> & ->)]; [contradiction|]; destruct C as [(F & _)|(_ & r' & E & ->)]; [contradiction|] end.
    rewrite K, <- app_assoc in E. apply app_inv_head, app_inv_head in E. now rewrite E.
Qed.
Print Assumptions C136_any_depth.

(** Lines may end as on Windows; those of texts without margin get four spaces each. *)
Definition flush_left (l : pystr) : Prop := exists c r, l = c :: r /\ is_blank c = false.
Lemma flush_not_blank : forall l, flush_left l -> ~ blank l.
Proof. intros l (c & r & -> & H) F. pose proof (proj2 (is_blank_spec c) (F c (or_introl eq_refl))). congruence. Qed.
Lemma dedent_flush : forall s, (forall l, In l (split_on 10%N s) -> flush_left l) -> dedent s = s.
Proof.
  intros s H. unfold dedent. pose proof (margin_cleaned (split_on 10%N s)) as M.
  assert (C : map cleaned (split_on 10%N s) = split_on 10%N s).
  { rewrite <- map_id. apply map_ext_in. intros l Hl. apply cleaned_not, flush_not_blank, H, Hl. }
  rewrite C in *. rewrite <- (join_split 10%N s) at 3. f_equal. rewrite <- map_id. apply map_ext_in. intros l Hl.
  destruct (margin_of (split_on 10%N s)) as [m|]; [|reflexivity]. destruct M as (Bm & M & _).
  destruct (H l Hl) as (c & r & -> & Hc). destruct (M _ Hl (flush_not_blank _ (H _ Hl))) as (t & E). destruct m as [|x m]; [reflexivity|].
  injection E as <- _. pose proof (proj2 (is_blank_spec c) (Bm c (or_introl eq_refl))). congruence.
Qed.
Lemma keep_crlf : forall l s, plain_text l -> ~ In 10%N l -> lines_keep (l ++ 13%N :: 10%N :: s) = (l ++ [13; 10]%N) :: lines_keep s.
Proof.
  induction l as [|c l IH]; intros s P N; [reflexivity|]. cbn [app lines_keep]. rewrite IH; [|intros x Hx; apply P; now right|intros F; apply N; now right].
  rewrite (no_break c); [reflexivity | apply P; now left | intros ->; apply N; now left].
Qed.
Lemma flush_indented : forall pre l b, plain_text l -> ~ In 10%N l -> flush_left l -> indented pre (l ++ b) = pre ++ l ++ b.
Proof.
  intros pre l b P N H. unfold indented. destruct (str_eqb_spec (strip (l ++ b)) []) as [E|E]; [exfalso|reflexivity].
  apply strip_blank in E. apply (flush_not_blank l H). apply space_plain; [exact P | exact N|]. intros c Hc. apply E, in_app_iff. now left.
Qed.
Lemma crlf_lines : forall ls l, In l (split_on 10%N (join [13; 10]%N ls)) -> ls <> [] -> (forall k, In k ls -> plain_text k /\ ~ In 10%N k /\ flush_left k) -> flush_left l.
Proof.
  induction ls as [|k ls IH]; intros l Hl Hn H; [congruence|]. destruct (H k (or_introl eq_refl)) as (P & N & F). destruct ls as [|k' ls].
  - cbn [join] in Hl. rewrite split_on_none in Hl by exact N. destruct Hl as [<-|[]]. exact F.
  - change (join [13; 10]%N (k :: k' :: ls)) with (k ++ 13%N :: 10%N :: join [13; 10]%N (k' :: ls)) in Hl.
    replace (k ++ 13%N :: 10%N :: join [13; 10]%N (k' :: ls)) with ((k ++ [13%N]) ++ 10%N :: join [13; 10]%N (k' :: ls)) in Hl by (rewrite <- app_assoc; reflexivity).
    rewrite split_on_app in Hl; [|intros G; apply in_app_iff in G; destruct G as [G|[G|[]]]; [contradiction | discriminate G]].
    destruct Hl as [<-|Hl]; [destruct F as (c & r & -> & Hc); exists c, (r ++ [13%N]); auto|]. apply IH; [exact Hl | discriminate | intros x Hx; apply H; now right].
Qed.
Theorem C136_windows_lines : forall name sig ls, ls <> [] -> (forall l, In l ls -> plain_text l /\ ~ In 10%N l /\ flush_left l) ->
  call_help name sig (join [13; 10]%N ls) = [10; 10]%N ++ lit "Filter: " ++ name ++ sig ++ lit ":" ++ [10%N] ++ join [13; 10]%N (map (app (lit "    ")) ls).
Proof.
  intros name sig ls Hn H. unfold call_help. rewrite dedent_flush by (intros l Hl; exact (crlf_lines ls l Hl Hn H)).
  enough (indent (lit "    ") (join [13; 10]%N ls) = join [13; 10]%N (map (app (lit "    ")) ls)) as -> by reflexivity.
  unfold indent. change (fun l => if str_eqb (strip l) [] then l else lit "    " ++ l) with (indented (lit "    ")).
  induction ls as [|l ls IH]; [congruence|]. destruct (H l (or_introl eq_refl)) as (P & N & F). destruct ls as [|k ls].
  - cbn [join]. pose proof (flush_indented (lit "    ") l [] P N F) as E. rewrite app_nil_r in E.
    destruct F as (c & r & -> & _). rewrite keep_last by assumption. cbn [map concat join]. rewrite E. apply app_nil_r.
  - change (join [13; 10]%N (l :: k :: ls)) with (l ++ 13%N :: 10%N :: join [13; 10]%N (k :: ls)). rewrite keep_crlf by assumption. cbn [map concat].
    rewrite IH; [|discriminate|intros x Hx; apply H; now right]. rewrite flush_indented by assumption. cbn [join map]. rewrite <- !app_assoc. reflexivity.
Qed.
Print Assumptions C136_windows_lines.
Example C136_windows_example : call_help (lit "py") [] (lit "a" ++ [13; 10]%N ++ lit "b") = call_help (lit "py") [] [] ++ lit "    a" ++ [13; 10]%N ++ lit "    b".
Proof. vm_compute. reflexivity. Qed.

(** If the text starts on the first line, as docstrings often do, the depth of the others shows. *)
Theorem C136_first_line_refuted : exists name sig first rest w, plain_text first /\ plain_text rest /\ blank w /\ w <> []
  /\ call_help name sig (first ++ [10%N] ++ w ++ rest) <> call_help name sig (first ++ [10%N] ++ rest).
Proof.
  exists (lit "redim"), (lit "(lasso)"), (lit "Reshapes."), (lit "More."), (lit "    ").
  split; [intros c Hc; vm_compute in Hc; cbn [In]; intuition (subst; discriminate)|].
  split; [intros c Hc; vm_compute in Hc; cbn [In]; intuition (subst; discriminate)|].
  split; [intros c Hc; vm_compute in Hc; intuition (subst; auto)|]. split; [discriminate|]. vm_compute. discriminate.
Qed.
Print Assumptions C136_first_line_refuted.

(** Other ends of lines get spaces within the lines. *)
Theorem C136_form_feed_refuted : exists name sig a b, ~ In 10%N (a ++ b)
  /\ call_help name sig (a ++ [12%N] ++ b) = call_help name sig [] ++ lit "    " ++ a ++ [12%N] ++ lit "    " ++ b.
Proof. exists (lit "redim"), [], (lit "a"), (lit "b"). split; [vm_compute; intuition discriminate | vm_compute; reflexivity]. Qed.
Print Assumptions C136_form_feed_refuted.

Example C136_example :
  call_help (lit "py") (lit "(a)") (join [10%N] [[]; lit "    Evals."; lit "  "; lit "      Twice."; lit "    "])
  = [10; 10]%N ++ join [10%N] [lit "Filter: py(a):"; []; lit "    Evals."; []; lit "      Twice."; []]
  /\ common_margin [lit "    Evals."; lit "      Twice."] (lit "    ").
Proof.
  split; [vm_compute; reflexivity|]. pose proof (margin_cleaned [lit "    Evals."; lit "      Twice."]) as H. vm_compute in H. exact H.
Qed.
