(** * The long description of the package: lemmas *)
From Coq Require Import String Lia.
From Verif Require Import PyBase PyBase_Proofs Rst_Model Rst_Spec.

(** ** Letters *)
Lemma ci_same : forall p c, (p <> 304 /\ p <> 305 /\ p <> 383 /\ p <> 8490)%N -> ~ (65 <= p <= 90)%N -> (ci_char p c = true <-> same_letter p c).
Proof.
  intros p c P U. unfold ci_char, same_letter, low, is_upper. change (chr "i") with 105%N. change (chr "s") with 115%N. change (chr "k") with 107%N.
  rewrite !orb_true_iff, !andb_true_iff, !orb_true_iff, !N.eqb_eq.
  destruct ((65 <=? c)%N && (c <=? 90)%N) eqn:E.
  - apply andb_true_iff in E. rewrite !N.leb_le in E. split; intros; lia.
  - apply andb_false_iff in E. rewrite !N.leb_gt in E. split; intros; lia.
Qed.
Definition plain (p : N) : Prop := (p < 128)%N /\ ~ (65 <= p <= 90)%N.
Lemma ci_same' : forall p c, plain p -> (ci_char p c = true <-> same_letter p c).
Proof. intros p c [A B]. apply ci_same; lia. Qed.
Lemma ci_lit_some : forall p s rest, Forall plain p -> (ci_lit p s = Some rest <-> exists d, s = d ++ rest /\ spelled p d).
Proof.
  induction p as [|x p IH]; intros s rest F; cbn [ci_lit].
  - split.
    + intros E. injection E as ->. exists []. split; [reflexivity|constructor].
    + intros (d & -> & S). inversion S. reflexivity.
  - inversion F as [|? ? Fx Fp]; subst. destruct s as [|c s].
    + split; [discriminate|]. intros (d & E & S). inversion S; subst. discriminate.
    + destruct (ci_char x c) eqn:X.
      * rewrite (IH s rest Fp). split.
        -- intros (d & -> & S). exists (c :: d). split; [reflexivity|]. constructor; [now apply ci_same'|exact S].
        -- intros (d & E & S). inversion S as [|? c' ? d' L S']; subst. injection E as <- ->. eauto.
      * split; [discriminate|]. intros (d & E & S). inversion S as [|? c' ? d' L S']; subst. injection E as <- ->.
        apply (ci_same' x c Fx) in L. congruence.
Qed.
Lemma same_fun : forall p q c, plain p -> plain q -> same_letter p c -> same_letter q c -> p = q.
Proof. unfold plain, same_letter. intros. lia. Qed.

Lemma after_is : forall x s s', after x s = Some s' <-> s = x :: s'.
Proof. intros x [|c s] s'; cbn; [split; discriminate|]. destruct (N.eqb_spec c x) as [->|N]; split; intros E; try congruence; try discriminate. Qed.
Lemma opened_is : forall s s', opened s = Some s' <-> s = 58%N :: 96%N :: s'.
Proof.
  intros s s'. unfold opened. change (chr ":") with 58%N. change (chr "`") with 96%N. destruct (after 58 s) as [r|] eqn:E.
  - apply after_is in E. subst s. rewrite after_is. split; congruence.
  - split; [discriminate|]. intros ->. discriminate.
Qed.

(** ** Scanning *)
Section Scan.
  Variable beyond : N -> bool.
  Notation match_rule' := (match_rule beyond).
  Notation re_sub' := (re_sub beyond).

  Lemma span_app : forall f s a b, span f s = (a, b) -> s = a ++ b.
  Proof.
    intros f. induction s as [|c s IH]; intros a b E; cbn [span] in E; [injection E as <- <-; reflexivity|].
    destruct (f c); [|injection E as <- <-; reflexivity]. destruct (span f s) as [a' b']. injection E as <- <-. cbn. now rewrite (IH a' b').
  Qed.
  Lemma span_all : forall f s a b, span f s = (a, b) -> Forall (fun c => f c = true) a.
  Proof.
    intros f. induction s as [|c s IH]; intros a b E; cbn [span] in E; [injection E as <- <-; constructor|].
    destruct (f c) eqn:X; [|injection E as <- <-; constructor]. destruct (span f s) as [a' b']. injection E as <- <-. constructor; [exact X|]. now apply (IH a' b').
  Qed.
  Lemma span_stop : forall f a c b, Forall (fun c => f c = true) a -> f c = false -> span f (a ++ c :: b) = (a, c :: b).
  Proof. intros f a c b F X. induction F as [|y a Y F IH]; cbn [app span]; [now rewrite X|]. now rewrite Y, IH. Qed.

  Lemma is_word_of : forall c, is_word beyond c = true <-> word_of beyond c.
  Proof.
    intros c. unfold is_word, word_of, is_alpha, is_upper, is_lower, is_digit. destruct (N.ltb_spec c 128) as [L|L].
    - rewrite !orb_true_iff, !andb_true_iff, !N.leb_le, N.eqb_eq. split; intros; lia.
    - split; [intros H; right; right; right; right; auto|]. intros H. destruct H as [H|[H|[H|[H|[_ H]]]]]; try lia. exact H.
  Qed.
  Lemma word_not : forall w c, Forall (word_of beyond) w -> (c = 58 \/ c = 96 \/ c = 124)%N -> ~ In c w.
  Proof. intros w c F C I. rewrite Forall_forall in F. specialize (F _ I). unfold word_of in F. lia. Qed.

  (** *** Rules of roles *)
  Definition names_ok (ns : names) : Prop :=
    match ns with These l => Forall (fun n => n <> [] /\ Forall (fun p => 97 <= p <= 122)%N n) l | AnyWord => True end.
  Definition takes (ns : names) (w : list N) : Prop :=
    match ns with These l => exists n, In n l /\ spelled n w | AnyWord => True end.
  Lemma letters_plain : forall n, Forall (fun p => 97 <= p <= 122)%N n -> Forall plain n.
  Proof. intros n F. eapply Forall_impl; [|exact F]. unfold plain. intros a H. cbv beta in H. lia. Qed.
  Lemma spelled_not : forall n w, Forall (fun p => 97 <= p <= 122)%N n -> spelled n w -> ~ In 58%N w /\ ~ In 96%N w.
  Proof.
    intros n w F S. induction S as [|p c n w L S IH]; [split; intros []|]. inversion F as [|? ? Fp Fn]; subst. destruct (IH Fn) as [A B].
    split; intros [->|I]; auto; unfold same_letter in L; cbv beta in Fp; lia.
  Qed.
  Lemma spelled_length : forall n w, spelled n w -> length n = length w.
  Proof. intros n w S. induction S; cbn; congruence. Qed.
  Lemma firstn_app_exact : forall (w z : list N), firstn (length w) (w ++ z) = w.
  Proof. intros w z. now rewrite firstn_app, Nat.sub_diag, firstn_all, firstn_O, app_nil_r. Qed.

  Lemma match_name_inv : forall ns s w rest, names_ok ns -> match_name beyond ns s = Some (w, rest) ->
    s = w ++ 58%N :: 96%N :: rest /\ w <> [] /\ ~ In 58%N w /\ ~ In 96%N w /\ takes ns w /\ (ns = AnyWord -> Forall (word_of beyond) w).
  Proof.
    intros [ns|] s w rest O E; cbn [match_name names_ok takes] in *.
    - induction ns as [|n ns IH]; [discriminate|]. inversion O as [|? ? (On & Ol) Os]; subst. cbn [match_names] in E.
      assert (Other : match_names ns s = Some (w, rest) -> s = w ++ 58%N :: 96%N :: rest /\ w <> [] /\ ~ In 58%N w /\ ~ In 96%N w /\ (exists n0, In n0 (n :: ns) /\ spelled n0 w) /\ (These (n :: ns) = AnyWord -> Forall (word_of beyond) w)).
      { intros X. destruct (IH Os X) as (A & B & C & D & (n0 & I & S) & _). repeat split; auto; [exists n0; split; [now right|exact S]|discriminate]. }
      destruct (ci_lit n s) as [r|] eqn:X; [|now apply Other]. destruct (opened r) as [r'|] eqn:Y; [|now apply Other].
      apply opened_is in Y. subst r. injection E as <- <-. apply (ci_lit_some n s _ (letters_plain n Ol)) in X. destruct X as (d & -> & S). rewrite (spelled_length n d S), firstn_app_exact.
      destruct (spelled_not n d Ol S) as [A B]. repeat split; auto; [|exists n; split; [now left|exact S]|discriminate].
      intros ->. inversion S; subst. congruence.
    - destruct (span (is_word beyond) s) as [a b] eqn:X. pose proof (span_app _ _ _ _ X) as ->. pose proof (span_all _ _ _ _ X) as F.
      assert (G : a = w /\ b = 58%N :: 96%N :: rest /\ a <> []).
      { destruct a as [|c a]; [discriminate|]. destruct (opened b) as [r|] eqn:Y; [|discriminate]. apply opened_is in Y. subst b. injection E as <- <-. repeat split. discriminate. }
      destruct G as (-> & -> & Nw). assert (F' : Forall (word_of beyond) w) by (eapply Forall_impl; [|exact F]; intros c H; now apply is_word_of).
      repeat split; auto; apply word_not; auto.
  Qed.
  Lemma match_name_takes : forall ns w z, names_ok ns -> role_name beyond w -> takes ns w -> match_name beyond ns (w ++ 58%N :: 96%N :: z) = Some (w, z).
  Proof.
    intros [ns|] w z O (Nw & F) T; cbn [match_name names_ok takes] in *.
    - assert (W58 : ~ In 58%N w) by (apply word_not; auto). destruct T as (n & I & S). induction ns as [|n0 ns IH]; [destruct I|]. inversion O as [|? ? (On & Ol) Os]; subst.
      cbn [match_names]. destruct (ci_lit n0 (w ++ 58%N :: 96%N :: z)) as [r|] eqn:X.
      + pose proof X as X0. apply (ci_lit_some n0 _ _ (letters_plain n0 Ol)) in X. destruct X as (d & E & S0). destruct (spelled_not n0 d Ol S0) as [A _].
        destruct I as [->|I].
        * assert (d = w). { pose proof (spelled_length _ _ S). pose proof (spelled_length _ _ S0). assert (L : length d = length w) by congruence. apply (f_equal (firstn (length w))) in E. rewrite firstn_app_exact in E. rewrite <- L in E. rewrite firstn_app_exact in E. congruence. }
          subst d. apply app_inv_head in E. subst r. cbn. now rewrite (spelled_length n w S), firstn_app_exact.
        * specialize (IH Os I). destruct (opened r) as [r'|] eqn:Y; [|exact IH]. apply opened_is in Y. subst r.
          (* the same name *)
          assert (d = w).
          { revert E A W58. clear. revert d. induction w as [|x w IHw]; intros [|y d] E A B; try reflexivity.
            - injection E as <- _. destruct A. now left.
            - cbn in E. injection E as -> E. destruct B. now left.
            - cbn in E. injection E as -> E. f_equal. apply IHw; [exact E|intros X; apply A; now right|intros X; apply B; now right]. }
          subst d. apply app_inv_head in E. injection E as ->. now rewrite (spelled_length n0 w S0), firstn_app_exact.
      + destruct I as [->|I]; [|now apply IH]. exfalso. assert (Y : ci_lit n (w ++ 58%N :: 96%N :: z) = Some (58%N :: 96%N :: z)) by (apply ci_lit_some; [now apply letters_plain|eauto]). congruence.
    - rewrite span_stop; [|eapply Forall_impl; [|exact F]; intros c H; now apply is_word_of|reflexivity]. destruct w as [|c w]; [congruence|reflexivity].
  Qed.

  Lemma match_role_inv : forall ns e tmpl s new rest, names_ok ns -> match_rule' (RRole ns e tmpl) s = Some (new, rest) ->
    exists w t, s = role_text w t ++ rest /\ new = tmpl w t /\ ~ In 96%N t /\ w <> [] /\ ~ In 58%N w /\ ~ In 96%N w /\ takes ns w /\ (ns = AnyWord -> Forall (word_of beyond) w).
  Proof.
    intros ns e tmpl s new rest O E. cbn [match_rule] in E. change (chr ":") with 58%N in E. change (chr "`") with 96%N in E.
    destruct (after 58 s) as [s'|] eqn:W; [|discriminate]. apply after_is in W. subst s.
    destruct (match_name beyond ns s') as [[w r]|] eqn:X; [|discriminate]. apply match_name_inv in X; [|exact O]. destruct X as (-> & A & B & C & D & F).
    destruct (span (fun c => negb (c =? 96)%N) r) as [t r'] eqn:Y. pose proof (span_app _ _ _ _ Y) as ->. pose proof (span_all _ _ _ _ Y) as G.
    destruct (after 96 r') as [r''|] eqn:V; [|discriminate]. apply after_is in V. subst r'.
    destruct (e || _) eqn:Z; [|discriminate]. injection E as <- <-. exists w, t. split; [unfold role_text; cbn; now rewrite <- !app_assoc; cbn; rewrite <- app_assoc|].
    repeat split; auto. intros I. rewrite Forall_forall in G. specialize (G _ I). discriminate.
  Qed.
  Lemma match_role_takes : forall ns e tmpl w t rest, names_ok ns -> role_name beyond w -> takes ns w -> ~ In 96%N t -> (e = true \/ t <> []) ->
    match_rule' (RRole ns e tmpl) (role_text w t ++ rest) = Some (tmpl w t, rest).
  Proof.
    intros ns e tmpl w t rest O R T N E. unfold role_text. cbn [match_rule]. change (chr ":") with 58%N. change (chr "`") with 96%N. rewrite <- !app_assoc. cbn [app after]. rewrite N.eqb_refl. rewrite match_name_takes by assumption.
    rewrite span_stop; [|apply Forall_forall; intros c I; apply negb_true_iff, N.eqb_neq; intros ->; contradiction|reflexivity].
    destruct E as [->|E]; [reflexivity|]. destruct t; [congruence|]. now rewrite orb_true_r.
  Qed.
  Lemma match_lit_inv : forall p new0 s new rest, Forall plain p -> match_rule' (RLit p new0) s = Some (new, rest) -> new = new0 /\ exists d, s = d ++ rest /\ spelled p d.
  Proof.
    intros p new0 s new rest F E. cbn [match_rule] in E. destruct (ci_lit p s) as [r|] eqn:X; [|discriminate]. injection E as <- <-. split; [reflexivity|]. now apply ci_lit_some.
  Qed.

  Definition rule_ok (r : rule) : Prop := match r with RRole ns _ _ => names_ok ns | RLit p _ => p <> [] /\ Forall plain p end.
  Lemma match_shorter : forall r s new rest, rule_ok r -> match_rule' r s = Some (new, rest) -> length rest < length s.
  Proof.
    intros [ns e tmpl|p new0] s new rest O E.
    - apply match_role_inv in E; [|exact O]. destruct E as (w & t & -> & _). rewrite app_length. unfold role_text. rewrite !app_length. cbn [length]. lia.
    - destruct O as (Np & F). apply match_lit_inv in E; [|exact F]. destruct E as (_ & d & -> & S). rewrite app_length. rewrite <- (spelled_length p d S). destruct p; [congruence|]. cbn [length]. lia.
  Qed.
  Lemma fuel_enough : forall r, rule_ok r -> forall n m s, length s <= n -> length s <= m -> sub_fuel beyond n r s = sub_fuel beyond m r s.
  Proof.
    intros r O. induction n as [|n IH]; intros m s A B.
    - destruct s; [|cbn in A; lia]. destruct m; reflexivity.
    - destruct m as [|m]; [destruct s; [reflexivity|cbn in B; lia]|]. cbn [sub_fuel]. destruct s as [|c s]; [reflexivity|].
      destruct (match_rule' r (c :: s)) as [[new rest]|] eqn:E.
      + apply match_shorter in E; [|exact O]. cbn [length] in *. f_equal. apply IH; lia.
      + cbn [length] in *. f_equal. apply IH; lia.
  Qed.
  Lemma sub_step : forall r c s, rule_ok r -> re_sub' r (c :: s) =
    match match_rule' r (c :: s) with Some (new, rest) => new ++ re_sub' r rest | None => c :: re_sub' r s end.
  Proof.
    intros r c s O. unfold re_sub at 1. cbn [length sub_fuel]. destruct (match_rule' r (c :: s)) as [[new rest]|] eqn:E; [|reflexivity].
    apply match_shorter in E; [|exact O]. cbn [length] in E. f_equal. unfold re_sub. apply fuel_enough; [exact O|lia|lia].
  Qed.
  Lemma sub_skip : forall r a s, rule_ok r -> (forall u v, a = u ++ v -> v <> [] -> match_rule' r (v ++ s) = None) -> re_sub' r (a ++ s) = a ++ re_sub' r s.
  Proof.
    intros r a s O. induction a as [|c a IH]; intros H; [reflexivity|]. cbn [app]. rewrite sub_step by exact O.
    rewrite (H [] (c :: a) eq_refl ltac:(discriminate) : match_rule' r (c :: a ++ s) = None). f_equal. apply IH. intros u v -> Nv. now apply (H (c :: u)).
  Qed.
  Lemma sub_hit : forall r s new rest, rule_ok r -> match_rule' r s = Some (new, rest) -> re_sub' r s = new ++ re_sub' r rest.
  Proof.
    intros r s new rest O E. destruct s as [|c s].
    - apply match_shorter in E; [|exact O]. cbn in E. lia.
    - rewrite sub_step by exact O. now rewrite E.
  Qed.
  Lemma sub_none : forall r s, rule_ok r -> (forall u v, s = u ++ v -> v <> [] -> match_rule' r v = None) -> re_sub' r s = s.
  Proof.
    intros r s O H. transitivity (re_sub' r (s ++ [])); [now rewrite app_nil_r|]. rewrite sub_skip; [unfold re_sub; cbn; now rewrite app_nil_r|exact O|].
    intros u v E Nv. rewrite app_nil_r. now apply (H u).
  Qed.
End Scan.

(** ** Backticks after colons *)
Fixpoint calm (colon : bool) (s : list N) : bool :=
  match s with [] => true | c :: s' => negb (colon && (c =? 96)%N) && calm (c =? 58)%N s' end.
Fixpoint at_colon (colon : bool) (s : list N) : bool :=
  match s with [] => colon | c :: s' => at_colon (c =? 58)%N s' end.
Lemma calm_app : forall a b k, calm k (a ++ b) = calm k a && calm (at_colon k a) b.
Proof. induction a as [|c a IH]; intros b k; [reflexivity|]. cbn [app calm at_colon]. now rewrite IH, andb_assoc. Qed.
Lemma at_colon_app : forall a b k, at_colon k (a ++ b) = at_colon (at_colon k a) b.
Proof. induction a as [|c a IH]; intros b k; [reflexivity|]. cbn [app at_colon]. apply IH. Qed.
Lemma calm_contains : forall s, calm false s = true <-> ~ contains [58; 96]%N s.
Proof.
  assert (G : forall s k, calm k s = true <-> ~ contains [58; 96]%N s /\ ~ (k = true /\ exists s', s = 96%N :: s')).
  { induction s as [|c s IH]; intros k; cbn [calm].
    - split; [|reflexivity]. intros _. split; [intros (a & b & E); destruct a; discriminate|intros (_ & s' & E); discriminate].
    - rewrite andb_true_iff, negb_true_iff, IH. split.
      + intros (A & B & C). split.
        * intros (a & b & E). destruct a as [|x a]; cbn in E; injection E as -> E; [apply C; split; [reflexivity|eauto]|apply B; exists a, b; exact E].
        * intros (-> & s' & E). injection E as -> ->. discriminate A.
      + intros (A & B). split; [|split].
        * apply andb_false_iff. destruct k; [right|now left]. apply N.eqb_neq. intros ->. apply B. eauto.
        * intros (a & b & ->). apply A. exists (c :: a), b. reflexivity.
        * intros (E & s' & ->). apply N.eqb_eq in E. subst c. apply A. exists [], s'. reflexivity. }
  intros s. rewrite G. split; [tauto|]. intros H. split; [exact H|]. intros (E & _). discriminate.
Qed.
Lemma no_tick_calm : forall s k, ~ In 96%N s -> calm k s = true.
Proof.
  induction s as [|c s IH]; intros k N; [reflexivity|]. cbn [calm]. rewrite IH by (intros X; apply N; now right).
  destruct (N.eqb_spec c 96) as [->|]; [destruct N; now left|]. now rewrite andb_false_r.
Qed.
Lemma at_colon_last : forall s k, s <> [] -> (~ exists s', s = s' ++ [58%N]) -> at_colon k s = false.
Proof.
  intros s k Ns H. destruct (exists_last Ns) as (s' & c & ->). rewrite at_colon_app. cbn. apply N.eqb_neq. intros ->. apply H. now exists s'.
Qed.

Section Pieces.
  Variable beyond : N -> bool.
  Notation match_rule' := (match_rule beyond).
  Notation re_sub' := (re_sub beyond).
  Notation ok := (Forall (piece_ok beyond)).

  Lemma render_cons : forall p ps, render (p :: ps) = match p with Text t => t | Role w t => role_text w t end ++ render ps.
  Proof. reflexivity. Qed.
  Lemma outline_cons : forall p ps, outline (p :: ps) = match p with Text t => t | Role _ _ => [96%N] end ++ outline ps.
  Proof. reflexivity. Qed.

  (** No role starts in a text. *)
  Lemma opening_seen : forall ps v w z, ok ps -> v <> [] -> ~ In 58%N w -> ~ In 96%N w -> v ++ render ps = 58%N :: w ++ 58%N :: 96%N :: z ->
    contains [58; 96]%N (v ++ outline ps).
  Proof.
    induction ps as [|[t|w' t] ps IH]; intros v w z O Nv W1 W2 E.
    - cbn in *. rewrite app_nil_r in *. exists (58%N :: w), z. rewrite E. reflexivity.
    - rewrite render_cons in E. rewrite outline_cons. inversion O; subst. rewrite app_assoc in *. apply (IH (v ++ t) w z); auto. destruct v; [congruence|discriminate].
    - rewrite render_cons in E. rewrite outline_cons. inversion O as [|? ? Ok _]; subst. destruct Ok as ((Nw & F) & _). destruct v as [|c v]; [congruence|]. cbn [app] in E. injection E as -> E.
      assert (Wt : forall x, In x w' -> x <> 96%N) by (intros x I ->; exact (word_not beyond w' 96 F ltac:(tauto) I)). clear - Nw Wt W1 W2 E.
      assert (G : exists a b, v ++ [96%N] ++ outline ps = a ++ [58; 96]%N ++ b \/ False).
      { revert w W1 W2 E. induction v as [|c v IH]; intros w W1 W2 E.
        - exfalso. cbn in E. destruct w as [|x w]; cbn in E.
          + injection E as E. destruct w' as [|y w']; [congruence|]. cbn in E. injection E as -> _. apply (Wt 96%N); [now left|reflexivity].
          + injection E as <- _. apply W1. now left.
        - destruct w as [|x w]; cbn in E.
          + injection E as -> E. destruct v as [|y v]; [discriminate E|]. cbn in E. injection E as -> _. exists [], (v ++ [96%N] ++ outline ps). left. reflexivity.
          + injection E as -> E. destruct (IH w) as (a & b & [G|[]]); [intros I; apply W1; now right|intros I; apply W2; now right|exact E|].
            exists (x :: a), b. left. cbn in *. now rewrite G. }
      destruct G as (a & b & [G|[]]). exists (58%N :: a), b. cbn in *. now rewrite G.
  Qed.
  Lemma no_role_in_text : forall ns e tmpl v ps, names_ok ns -> ok ps -> v <> [] -> ~ contains [58; 96]%N (v ++ outline ps) -> match_rule' (RRole ns e tmpl) (v ++ render ps) = None.
  Proof.
    intros ns e tmpl v ps O Op Nv C. destruct (match_rule' _ _) as [[new rest]|] eqn:E; [|reflexivity]. exfalso. apply match_role_inv in E; [|exact O].
    destruct E as (w & t & E & _ & _ & _ & W1 & W2 & _). apply C. apply (opening_seen ps v w (t ++ [96%N] ++ rest)); auto. rewrite E. unfold role_text. cbn. now rewrite <- !app_assoc; cbn; rewrite <- app_assoc.
  Qed.
  Lemma not_colon : forall ns e tmpl c s, c <> 58%N -> match_rule' (RRole ns e tmpl) (c :: s) = None.
  Proof. intros ns e tmpl c s N. cbn [match_rule after]. change (chr ":") with 58%N. destruct (N.eqb_spec c 58); [contradiction|reflexivity]. Qed.
  (** None in another role. *)
  Lemma skip_role : forall ns e tmpl w t s, names_ok ns -> piece_ok beyond (Role w t) -> ~ takes ns w -> re_sub' (RRole ns e tmpl) (role_text w t ++ s) = role_text w t ++ re_sub' (RRole ns e tmpl) s.
  Proof.
    intros ns e tmpl w t s O ((Nw & F) & Nt & Tt & Et) Nk. apply sub_skip; [exact O|]. intros u v E Nv.
    destruct (match_rule' _ _) as [[new rest]|] eqn:M; [|reflexivity]. exfalso. apply match_role_inv in M; [|exact O].
    destruct M as (w2 & t2 & M & _ & T2 & Nw2 & W1 & W2 & K & _).
    assert (W58 : ~ In 58%N w) by (apply (word_not beyond); auto). assert (W96 : ~ In 96%N w) by (apply (word_not beyond); auto).
    assert (Same : forall a b x y, ~ In 58%N a -> ~ In 58%N b -> a ++ 58%N :: x = b ++ 58%N :: y -> a = b).
    { clear. induction a as [|c a IH]; intros [|d b] x y A B E; try reflexivity.
      - cbn in E. injection E as <- _. destruct B. now left.
      - cbn in E. injection E as -> _. destruct A. now left.
      - cbn in E. injection E as -> E. f_equal. apply (IH b x y); [intros I; apply A; now right|intros I; apply B; now right|exact E]. }
    unfold role_text in E, M. destruct u as [|x u].
    - cbn [app] in E. subst v. cbn in M. rewrite <- !app_assoc in M. cbn in M. injection M as M. apply Same in M; [|assumption|assumption]. subst w2. contradiction.
    - cbn in E. injection E as <- E. destruct v as [|y v]; [congruence|]. cbn in M. injection M as -> M.
      (* the colon found is the one after the name, or in the text *)
      assert (C : (u = w /\ v = 96%N :: t ++ [96%N]) \/ exists t1 t3, t = t1 ++ 58%N :: t3 /\ v = t3 ++ [96%N]).
      { clear - E W58. revert w E W58. induction u as [|c u IH]; intros w E W58.
        - destruct w as [|c w]; cbn in E; [injection E as <-; left; auto|]. injection E as -> _. destruct W58. now left.
        - destruct w as [|d w]; cbn in E.
          + injection E as <- E. right. destruct u as [|d u]; cbn in E; [discriminate|]. injection E as <- E.
            clear - E. revert u E. induction t as [|c t IH]; intros u E.
            * destruct u as [|d u]; cbn in E; [discriminate|]. injection E as _ E. destruct u; discriminate.
            * destruct u as [|d u]; cbn in E; [injection E as -> E; exists [], t; split; [reflexivity|now symmetry]|]. injection E as <- E. destruct (IH u E) as (t1 & t3 & -> & ->). exists (c :: t1), t3. split; reflexivity.
          + injection E as <- E. destruct (IH w E) as [(-> & ->)|R]; [intros I; apply W58; now right|left; split; reflexivity|right; exact R]. }
      destruct C as [(-> & ->)|(t1 & t3 & -> & ->)].
      + cbn in M. destruct w2 as [|z w2]; [congruence|]. cbn in M. injection M as <- _. apply W2. now left.
      + rewrite <- app_assoc in M. cbn in M.
        assert (Tt3 : ~ In 96%N t3) by (intros I; apply Tt; apply in_or_app; right; now right).
        assert (G : t3 = w2 ++ [58%N]).
        { clear - M Tt3 W2. rewrite <- !app_assoc in M. cbn in M. revert w2 M W2. induction t3 as [|c t3 IH]; intros w2 M W2.
          - destruct w2 as [|d w2]; cbn in M; [discriminate|]. injection M as <- _. destruct W2. now left.
          - destruct w2 as [|d w2]; cbn in M.
            + injection M as -> M. destruct t3 as [|d t3]; [reflexivity|]. cbn in M. injection M as -> _. destruct Tt3. right. now left.
            + injection M as -> M. cbn. f_equal. apply (IH (fun I => Tt3 (or_intror I)) w2 M). intros I. apply W2. now right. }
        apply Et. exists (t1 ++ 58%N :: w2). rewrite G. now rewrite <- app_assoc.
  Qed.

  (** A rule makes texts of some roles. *)
  Inductive passed (ns : names) (tmpl : list N -> list N -> list N) : piece -> piece -> Prop :=
  | passed_text t : passed ns tmpl (Text t) (Text t)
  | passed_hit w t : takes ns w -> passed ns tmpl (Role w t) (Text (tmpl w t))
  | passed_other w t : ~ takes ns w -> passed ns tmpl (Role w t) (Role w t).
  Lemma role_pass : forall ns e tmpl ps ps', names_ok ns -> ok ps -> ~ contains [58; 96]%N (outline ps) -> Forall2 (passed ns tmpl) ps ps' ->
    re_sub' (RRole ns e tmpl) (render ps) = render ps'.
  Proof.
    intros ns e tmpl ps ps' O Op C P. induction P as [|p p' ps ps' X P IH]; [reflexivity|]. rewrite !render_cons. inversion Op as [|? ? Ok Ops]; subst.
    assert (C' : ~ contains [58; 96]%N (outline ps)).
    { intros (a & b & E). apply C. rewrite outline_cons, E. eexists (_ ++ a), b. now rewrite <- app_assoc. }
    specialize (IH Ops C'). destruct X as [t|w t K|w t K].
    - rewrite sub_skip; [now rewrite IH|exact O|]. intros u v -> Nv. apply no_role_in_text; auto. intros (a & b & E). apply C. rewrite outline_cons, <- app_assoc, E. exists (u ++ a), b. now rewrite <- app_assoc.
    - destruct Ok as (R & Nt & Tt & _). erewrite sub_hit; [|exact O|apply match_role_takes; auto]. now rewrite IH.
    - rewrite skip_role by assumption. now rewrite IH.
  Qed.
  (** What it makes is calm. *)
  Definition tame (tmpl : list N -> list N -> list N) : Prop := forall w t, piece_ok beyond (Role w t) -> calm false (tmpl w t) = true /\ at_colon false (tmpl w t) = false.
  Lemma passed_ok : forall ns tmpl ps ps', ok ps -> Forall2 (passed ns tmpl) ps ps' -> ok ps'.
  Proof. intros ns tmpl ps ps' O P. induction P as [|p p' ps ps' X P IH]; [constructor|]. inversion O; subst. constructor; auto. destruct X; cbn [piece_ok]; auto. Qed.
  Lemma passed_calm : forall ns tmpl ps ps' k, tame tmpl -> ok ps -> Forall2 (passed ns tmpl) ps ps' -> calm k (outline ps) = true -> calm k (outline ps') = true.
  Proof.
    intros ns tmpl ps ps' k T O P. revert k. induction P as [|p p' ps ps' X P IH]; intros k C; [reflexivity|]. inversion O as [|? ? Ok Ops]; subst. rewrite outline_cons in *.
    destruct X as [t|w t K|w t K].
    - rewrite calm_app in *. apply andb_true_iff in C. destruct C as [-> C]. cbn [andb]. now apply IH.
    - cbn [app calm] in C. apply andb_true_iff in C. destruct C as [A C]. rewrite N.eqb_refl, andb_true_r in A. apply negb_true_iff in A. subst k.
      change ((96 =? 58)%N) with false in C. destruct (T w t Ok) as [A B]. rewrite calm_app, A, B. cbn [andb]. now apply IH.
    - cbn [app calm] in *. apply andb_true_iff in C. destruct C as [-> C]. cbn [andb]. now apply IH.
  Qed.
End Pieces.

(** ** All the rules of roles *)
Lemma spelled_dec : forall n w, Forall plain n -> spelled n w \/ ~ spelled n w.
Proof.
  intros n w F. destruct (ci_lit n w) as [r|] eqn:E.
  - apply (ci_lit_some n w r F) in E. destruct E as (d & -> & S). destruct r as [|c r]; [left; now rewrite app_nil_r|]. right. intros S'.
    apply spelled_length in S, S'. rewrite app_length in S'. cbn in S'. lia.
  - right. intros S. assert (X : ci_lit n w = Some []) by (apply ci_lit_some; [exact F|]; exists w; split; [now rewrite app_nil_r|exact S]). congruence.
Qed.
Lemma spelled_fun : forall n m w, Forall plain n -> Forall plain m -> spelled n w -> spelled m w -> n = m.
Proof.
  intros n m w Fn Fm S. revert m Fm. induction S as [|p c n w L S IH]; intros m Fm S'; inversion S' as [|q ? m' ? L' S'']; subst; [reflexivity|].
  inversion Fn; inversion Fm; subst. f_equal; [now apply (same_fun p q c)|now apply IH].
Qed.

Section Roles.
  Variable beyond : N -> bool.
  Notation re_sub' := (re_sub beyond).
  Notation ok := (Forall (piece_ok beyond)).
  Notation passed' := (passed).

  Definition role_rules : list (names * bool * (list N -> list N -> list N)) := [
    (These [lit "abbr"], false, fun _ t => t);
    (These [lit "envvar"], false, fun _ t => lit "``env[$" ++ t ++ lit "]``");
    (These [lit "ref"], false, fun _ t => lit "ref: *" ++ t ++ lit "*");
    (These [lit "term"], false, strong);
    (These [lit "dfn"], false, strong);
    (These [lit "samp"; lit "guilabel"; lit "menuselection"; lit "doc"; lit "file"], false, in_call);
    (AnyWord, true, in_call)].
  Definition rule_of (x : names * bool * (list N -> list N -> list N)) : rule := RRole (fst (fst x)) (snd (fst x)) (snd x).
  Definition lit_rules : list rule := map (fun x => RLit (fst x) (snd x)) listed.
  Lemma substs_are : substs = map rule_of role_rules ++ lit_rules.
  Proof. reflexivity. Qed.

  Inductive chain : list (names * bool * (list N -> list N -> list N)) -> piece -> piece -> Prop :=
  | chain_nil p : chain [] p p
  | chain_cons r rs p p' p'' : passed (fst (fst r)) (snd r) p p' -> chain rs p' p'' -> chain (r :: rs) p p''.
  Lemma chain_lists : forall r rs ps ps'', Forall2 (chain (r :: rs)) ps ps'' -> exists ps', Forall2 (passed (fst (fst r)) (snd r)) ps ps' /\ Forall2 (chain rs) ps' ps''.
  Proof.
    intros r rs ps ps'' F. induction F as [|p p'' ps ps'' X F (ps' & A & B)]; [exists []; split; constructor|].
    inversion X as [|? ? ? p' ? P C]; subst. exists (p' :: ps'). split; constructor; auto.
  Qed.
  Lemma chains : forall rs ps ps', Forall (fun r => names_ok (fst (fst r)) /\ tame beyond (snd r)) rs -> ok ps -> calm false (outline ps) = true -> Forall2 (chain rs) ps ps' ->
    fold_left (fun line r => re_sub' r line) (map rule_of rs) (render ps) = render ps' /\ calm false (outline ps') = true.
  Proof.
    induction rs as [|r rs IH]; intros ps ps' R O C F.
    - assert (ps' = ps) as ->; [|split; [reflexivity|exact C]]. clear - F. induction F as [|p p' ps ps' X F IH]; [reflexivity|]. inversion X; subst. reflexivity.
    - apply chain_lists in F. destruct F as (ps1 & A & B). inversion R as [|? ? (Rn & Rt) Rs]; subst. cbn [map fold_left].
      unfold rule_of at 2. rewrite (role_pass beyond (fst (fst r)) (snd (fst r)) (snd r) ps ps1 Rn O (proj1 (calm_contains _) C) A).
      apply IH; [exact Rs|now apply (passed_ok beyond (fst (fst r)) (snd r) ps)| |exact B]. apply (passed_calm beyond (fst (fst r)) (snd r) ps); auto.
  Qed.

  Lemma tame_text : forall f g, calm false f = true -> at_colon false f = false -> calm false g = true -> f <> [] -> ~ In 58%N g -> g <> [] ->
    tame beyond (fun _ t => f ++ t ++ g).
  Proof.
    intros f g F1 F2 G1 Nf G2 Ng w t (_ & Nt & Tt & Et). rewrite !calm_app, !at_colon_app, F1, F2. rewrite (no_tick_calm t false Tt), (at_colon_last t false Nt Et), G1. split; [reflexivity|].
    apply at_colon_last; [exact Ng|]. intros (s' & ->). apply G2. apply in_or_app. right. now left.
  Qed.
  Lemma rules_ok : Forall (fun r => names_ok (fst (fst r)) /\ tame beyond (snd r)) role_rules.
  Proof.
    assert (L : forall n, forallb (fun p => (97 <=? p) && (p <=? 122))%N n = true -> n <> [] -> n <> [] /\ Forall (fun p => 97 <= p <= 122)%N n).
    { intros n H Nn. split; [exact Nn|]. apply Forall_forall. intros p I. rewrite forallb_forall in H. specialize (H p I). apply andb_true_iff in H. rewrite !N.leb_le in H. exact H. }
    assert (N : forall l, forallb (fun n => match n with [] => false | _ => forallb (fun p => (97 <=? p) && (p <=? 122))%N n end) l = true -> names_ok (These l)).
    { intros l H. cbn. apply Forall_forall. intros n I. rewrite forallb_forall in H. specialize (H n I). destruct n; [discriminate|]. apply L; [exact H|discriminate]. }
    assert (T : tame beyond in_call).
    { intros w t ((Nw & F) & Nt & Tt & Et). unfold in_call. rewrite !calm_app, !at_colon_app.
      rewrite (no_tick_calm w) by (apply (word_not beyond); auto). change (calm (at_colon false w) (lit "(`")) with (negb (at_colon false w && false) && true). rewrite andb_false_r.
      change (at_colon (at_colon false w) (lit "(`")) with false. rewrite (no_tick_calm t false Tt), (at_colon_last t false Nt Et). split; reflexivity. }
    assert (S : tame beyond strong) by (apply tame_text; try reflexivity; try discriminate; intros H; repeat (destruct H as [H|H]; [discriminate H|]); exact H).
    repeat apply Forall_cons; try apply Forall_nil; cbn [fst snd]; (split; [try (apply N; reflexivity); exact I|]); try exact T; try exact S.
    - intros w t (_ & Nt & Tt & Et). split; [now apply no_tick_calm|now apply at_colon_last].
    - apply tame_text; try reflexivity; try discriminate. intros H. repeat (destruct H as [H|H]; [discriminate H|]). exact H.
    - apply tame_text; try reflexivity; try discriminate. intros H. repeat (destruct H as [H|H]; [discriminate H|]). exact H.
  Qed.

  Lemma plain_lit : forall p, forallb (fun c => (c <? 128) && negb ((65 <=? c) && (c <=? 90)))%N p = true -> Forall plain p.
  Proof.
    intros p H. apply Forall_forall. intros c I. rewrite forallb_forall in H. specialize (H c I). apply andb_true_iff in H. destruct H as [A B]. apply N.ltb_lt in A.
    apply negb_true_iff, andb_false_iff in B. rewrite !N.leb_gt in B. unfold plain. lia.
  Qed.
  Lemma differ : forall n m w, forallb (fun c => (c <? 128) && negb ((65 <=? c) && (c <=? 90)))%N n = true -> forallb (fun c => (c <? 128) && negb ((65 <=? c) && (c <=? 90)))%N m = true ->
    str_eqb n m = false -> spelled n w -> ~ takes (These [m]) w.
  Proof.
    intros n m w Pn Pm D S (x & [<-|[]] & S'). rewrite (spelled_fun n m w (plain_lit n Pn) (plain_lit m Pm) S S') in D. rewrite str_eqb_refl in D. discriminate.
  Qed.
  Lemma text_chain : forall rs s, chain rs (Text s) (Text s).
  Proof. induction rs as [|r rs IH]; intros s; [constructor|]. apply chain_cons with (Text s); [constructor|apply IH]. Qed.
  Lemma becomes_chain : forall p s, piece_becomes p s -> chain role_rules p (Text s).
  Proof.
    intros [t|w t] s B; cbn [piece_becomes] in B; [subst; apply text_chain|]. unfold role_rules.
    destruct B as [S|S|S|S|S|H].
    - eapply chain_cons; [apply passed_hit; exists (lit "abbr"); split; [now left|exact S]|]. apply text_chain.
    - eapply chain_cons; [apply passed_other, (differ (lit "envvar")); auto|]. eapply chain_cons; [apply passed_hit; exists (lit "envvar"); split; [now left|exact S]|]. apply text_chain.
    - do 2 (eapply chain_cons; [apply passed_other, (differ (lit "ref")); auto|]). eapply chain_cons; [apply passed_hit; exists (lit "ref"); split; [now left|exact S]|]. apply text_chain.
    - do 3 (eapply chain_cons; [apply passed_other, (differ (lit "term")); auto|]). eapply chain_cons; [apply passed_hit; exists (lit "term"); split; [now left|exact S]|]. apply text_chain.
    - do 4 (eapply chain_cons; [apply passed_other, (differ (lit "dfn")); auto|]). eapply chain_cons; [apply passed_hit; exists (lit "dfn"); split; [now left|exact S]|]. apply text_chain.
    - assert (K : forall n, In n special_roles -> ~ takes (These [n]) w) by (intros n I (x & [<-|[]] & S); exact (H n I S)).
      do 5 (eapply chain_cons; [apply passed_other, K; unfold special_roles, In; tauto|]).
      set (l := [lit "samp"; lit "guilabel"; lit "menuselection"; lit "doc"; lit "file"]).
      assert (D : (exists n, In n l /\ spelled n w) \/ ~ exists n, In n l /\ spelled n w).
      { assert (Pl : Forall (Forall plain) l) by (repeat (constructor; [apply plain_lit; reflexivity|]); constructor). clearbody l. clear - Pl.
        induction Pl as [|n l Pn Pl [(m & I & S)|IH]].
        - right. intros (n & [] & _).
        - left. exists m. split; [now right|exact S].
        - destruct (spelled_dec n w Pn) as [S|S]; [left; exists n; split; [now left|exact S]|]. right. intros (m & [<-|I] & S'); [contradiction|]. apply IH. eauto. }
      destruct D as [D|D].
      + eapply chain_cons; [apply passed_hit; exact D|]. apply text_chain.
      + eapply chain_cons; [apply passed_other; exact D|]. eapply chain_cons; [apply passed_hit; exact I|]. apply chain_nil.
  Qed.
  Theorem roles_done : forall ps s, line_ok beyond ps -> line_becomes ps s ->
    fold_left (fun line r => re_sub' r line) (map rule_of role_rules) (render ps) = s /\ ~ contains [58; 96]%N s.
  Proof.
    intros ps s (O & C) (ss & B & ->). apply calm_contains in C.
    assert (F : Forall2 (chain role_rules) ps (map Text ss)) by (clear O C; induction B; cbn [map]; constructor; auto; now apply becomes_chain).
    destruct (chains role_rules ps (map Text ss) rules_ok O C F) as [A D]. 
    assert (E : render (map Text ss) = concat ss /\ outline (map Text ss) = concat ss) by (unfold render, outline; rewrite !map_map, !map_id; auto).
    destruct E as [E1 E2]. rewrite E1 in A. rewrite E2 in D. split; [exact A|now apply calm_contains].
  Qed.
End Roles.

(** ** The rules of directives and values *)
Fixpoint clash (p q : list N) : bool :=
  match p, q with x :: p', y :: q' => negb (x =? y)%N || clash p' q' | _, _ => false end.
Lemma clash_spelled : forall p q d e x y, Forall plain p -> Forall plain q -> clash p q = true -> spelled p d -> spelled q e -> d ++ x = e ++ y -> False.
Proof.
  induction p as [|a p IH]; intros [|b q] d e x y Fp Fq C Sp Sq E; try discriminate.
  inversion Sp as [|? c ? d' L Sp']; subst. inversion Sq as [|? c' ? e' L' Sq']; subst. cbn in E. injection E as <- E.
  inversion Fp; inversion Fq; subst. cbn [clash] in C. assert (a = b) by (now apply (same_fun a b c)). subst b. rewrite N.eqb_refl in C. cbn in C.
  now apply (IH q d' e' x y).
Qed.

(** What the patterns start with *)
Definition heads (q : list N) : Prop := (exists q', q = 46%N :: 46%N :: 32%N :: q') \/ exists q', q = 124%N :: q' /\ In 124%N q'.
Lemma heads_spelled : forall q e, heads q -> spelled q e -> (exists e', e = 46%N :: 46%N :: 32%N :: e') \/ (exists e', e = 124%N :: e' /\ In 124%N e').
Proof.
  intros q e [(q' & ->)|(q' & -> & I)] S.
  - left. inversion S as [|? c1 ? e1 L1 S1]; subst. inversion S1 as [|? c2 ? e2 L2 S2]; subst. inversion S2 as [|? c3 ? e3 L3 S3]; subst.
    unfold same_letter in *. exists e3. f_equal; [lia|]. f_equal; [lia|]. f_equal. lia.
  - right. inversion S as [|? c1 ? e1 L1 S1]; subst. exists e1. split; [f_equal; unfold same_letter in L1; lia|]. clear S L1.
    induction S1 as [|p c q e L S IH]; [destruct I|]. destruct I as [->|I]; [left; unfold same_letter in L; lia|right; auto].
Qed.
Lemma quiet_no : forall q e a b c, heads q -> spelled q e -> quiet (a ++ b) -> a ++ b = c ++ e -> False.
Proof.
  intros q e a b c H S (D & B) E. destruct (heads_spelled q e H S) as [(e' & ->)|(e' & -> & _)].
  - apply D. rewrite E. exists c, e'. reflexivity.
  - apply B. rewrite E. apply in_or_app. right. now left.
Qed.
Lemma quiet_suffix : forall a b, quiet (a ++ b) -> quiet b.
Proof.
  intros a b (D & B). split; [intros (x & y & ->); apply D; exists (a ++ x), y; now rewrite <- app_assoc|intros I; apply B; apply in_or_app; now right].
Qed.

(** Middles that a pattern misses, whatever is around *)
Definition starts_letter (q : list N) : bool := match q with c :: _ => (97 <=? c)%N && (c <=? 122)%N | [] => false end.
Fixpoint tails (s : list N) : list (list N) := match s with [] => [] | _ :: s' => s :: tails s' end.
Definition misses (glued : bool) (q pm : list N) : bool :=
  forallb (fun sfx => clash sfx q || ((length sfx <? length q)%nat && (existsb (N.eqb 124) (skipn (length sfx) q) || (glued && starts_letter (skipn (length sfx) q))))) (tails pm)
  && clash [32%N] pm && clash [46; 32]%N pm.
Lemma tails_in : forall s u v, s = u ++ v -> v <> [] -> In v (tails s).
Proof.
  induction s as [|c s IH]; intros u v E Nv; [destruct u, v; try discriminate; congruence|]. destruct u as [|d u].
  - cbn in E. subst v. now left.
  - cbn in E. injection E as <- E. right. now apply (IH u).
Qed.
Lemma spelled_app : forall p1 p2 d, spelled (p1 ++ p2) d -> exists d1 d2, d = d1 ++ d2 /\ spelled p1 d1 /\ spelled p2 d2.
Proof. intros p1 p2 d S. apply Forall2_app_inv_l in S. destruct S as (d1 & d2 & A & B & ->). eauto. Qed.
Lemma spelled_app_r : forall p d1 d2, spelled p (d1 ++ d2) -> exists p1 p2, p = p1 ++ p2 /\ spelled p1 d1 /\ spelled p2 d2.
Proof. intros p d1 d2 S. apply Forall2_app_inv_r in S. destruct S as (p1 & p2 & A & B & ->). eauto. Qed.
Lemma app_split : forall (a b c d : list N), a ++ b = c ++ d -> (exists m, a = c ++ m /\ d = m ++ b) \/ (exists m, c = a ++ m /\ b = m ++ d /\ m <> []).
Proof.
  induction a as [|x a IH]; intros b c d E.
  - destruct c as [|y c]; [left; exists []; auto|]. right. exists (y :: c). repeat split; [exact E|discriminate].
  - destruct c as [|y c]; [left; exists (x :: a); auto|]. cbn in E. injection E as -> E. destruct (IH b c d E) as [(m & -> & ->)|(m & -> & -> & Nm)].
    + left. exists m. auto.
    + right. exists m. auto.
Qed.

Section Literals.
  Variable beyond : N -> bool.
  Notation re_sub' := (re_sub beyond).
  Notation match_rule' := (match_rule beyond).
  Lemma lit_no : forall q new v, Forall plain q -> (forall e r, v = e ++ r -> spelled q e -> False) -> match_rule' (RLit q new) v = None.
  Proof.
    intros q new v F H. destruct (match_rule' _ v) as [[n r]|] eqn:E; [|reflexivity]. exfalso. apply match_lit_inv in E; [|exact F]. destruct E as (_ & d & E & S). exact (H d r E S).
  Qed.

  Section Around.
    Variables (q new a m b pm : list N).
    Hypothesis Fq : Forall plain q.
    Hypothesis Hq : heads q.
    Hypothesis Qa : quiet a.
    Hypothesis Qb : quiet b.
    Hypothesis Fp : Forall plain pm.
    Hypothesis Sp : spelled pm m.
    Lemma hit_before : forall u v e r, a = u ++ v -> v <> [] -> clash [32%N] pm = true -> clash [46; 32]%N pm = true -> v ++ m ++ b = e ++ r -> spelled q e -> False.
    Proof.
      intros u v e r Ea Nv C1 C2 E S.
      assert (K1 : forall y z, m ++ y = 32%N :: z -> False).
      { intros y z X. apply (clash_spelled [32%N] pm [32%N] m z y); try assumption; [apply plain_lit; reflexivity|repeat (apply Forall2_cons; [unfold same_letter; lia|]); apply Forall2_nil|now rewrite X]. }
      assert (K2 : forall y z, m ++ y = 46%N :: 32%N :: z -> False).
      { intros y z X. apply (clash_spelled [46; 32]%N pm [46; 32]%N m z y); try assumption; [apply plain_lit; reflexivity|repeat (apply Forall2_cons; [unfold same_letter; lia|]); apply Forall2_nil|now rewrite X]. }
      destruct (heads_spelled q e Hq S) as [(e' & ->)|(e' & -> & _)].
      - destruct v as [|c1 v]; [congruence|]. cbn in E. injection E as -> E. destruct v as [|c2 v]; [cbn in E; exact (K2 _ _ E)|]. cbn in E. injection E as -> E.
        destruct v as [|c3 v]; [cbn in E; exact (K1 _ _ E)|]. cbn in E. injection E as -> E. destruct Qa as (D & _). apply D. rewrite Ea. exists u, v. reflexivity.
      - destruct v as [|c1 v]; [congruence|]. cbn in E. injection E as -> E. destruct Qa as (_ & B). apply B. rewrite Ea. apply in_or_app. right. now left.
    Qed.
    Lemma hit_after : forall u v e r, b = u ++ v -> v = e ++ r -> spelled q e -> False.
    Proof.
      intros u v e r Eb -> S. destruct (heads_spelled q e Hq S) as [(e' & ->)|(e' & -> & _)]; destruct Qb as (D & B).
      - apply D. exists u, (e' ++ r). exact Eb.
      - apply B. rewrite Eb. apply in_or_app. right. now left.
    Qed.
    Lemma hit_in : forall glued u v e r, m = u ++ v -> v <> [] -> misses glued q pm = true -> (glued = true -> apart b) -> v ++ b = e ++ r -> spelled q e -> False.
    Proof.
      intros glued u v e r Em Nv M G E S. unfold misses in M. apply andb_true_iff in M. destruct M as [M _]. apply andb_true_iff in M. destruct M as [M _].
      pose proof Sp as Sp'. rewrite Em in Sp'. apply spelled_app_r in Sp'. destruct Sp' as (p1 & p2 & Ep & S1 & S2).
      assert (Np : p2 <> []) by (intros ->; inversion S2; subst; congruence).
      rewrite forallb_forall in M. specialize (M p2 (tails_in pm p1 p2 Ep Np)). apply orb_true_iff in M.
      assert (Fp2 : Forall plain p2) by (rewrite Ep in Fp; apply Forall_app in Fp; tauto).
      destruct M as [M|M]; [exact (clash_spelled p2 q v e b r Fp2 Fq M S2 S E)|].
      apply andb_true_iff in M. destruct M as [L M]. apply Nat.ltb_lt in L.
      destruct (app_split v b e r E) as [(x & Ev & _)|(x & Ee & Ex & Nx)].
      { apply (f_equal (@length _)) in Ev. rewrite app_length in Ev. rewrite <- (spelled_length _ _ S2), <- (spelled_length _ _ S) in Ev. lia. }
      rewrite Ee in S. apply spelled_app_r in S. destruct S as (q1 & q2 & Eq & T1 & T2).
      assert (X : skipn (length p2) q = q2).
      { rewrite (spelled_length _ _ S2), <- (spelled_length _ _ T1), Eq. rewrite skipn_app, skipn_all, Nat.sub_diag. reflexivity. }
      rewrite X in M. apply orb_true_iff in M. destruct M as [M|M].
      - apply existsb_exists in M. destruct M as (c & I & Y). apply N.eqb_eq in Y. subst c.
        assert (J : In 124%N x). { clear - T2 I. induction T2 as [|p c q e L S IH]; [destruct I|]. destruct I as [->|I]; [left; unfold same_letter in L; lia|right; auto]. }
        destruct Qb as (_ & B). apply B. rewrite Ex. apply in_or_app. now left.
      - apply andb_true_iff in M. destruct M as [-> M]. destruct q2 as [|c q2]; [discriminate M|]. cbn in M. apply andb_true_iff in M. rewrite !N.leb_le in M.
        inversion T2 as [|? c' ? x' L' T3]; subst x. destruct (G eq_refl) as [->|(c2 & b' & -> & Hc)]; [discriminate Ex|]. cbn in Ex. injection Ex as -> _.
        unfold same_letter in L'. lia.
    Qed.
    Lemma miss : forall glued, q <> [] -> misses glued q pm = true -> (glued = true -> apart b) -> re_sub' (RLit q new) (a ++ m ++ b) = a ++ m ++ b.
    Proof.
      intros glued Nq M G. assert (C : clash [32%N] pm = true /\ clash [46; 32]%N pm = true) by (unfold misses in M; rewrite !andb_true_iff in M; tauto). destruct C as [C1 C2].
      apply sub_none; [split; assumption|]. intros u v E Nv. apply lit_no; [exact Fq|]. intros e r -> S. symmetry in E.
      destruct (app_split _ _ _ _ E) as [(x & -> & Ex)|(x & Ea & Ex & Nx)].
      - destruct (app_split _ _ _ _ Ex) as [(y & Em & Ey)|(y & Em & Ey & Ny)].
        + destruct y as [|c y]; [apply (hit_after [] b e r); auto|]. apply (hit_in glued x (c :: y) e r); auto. discriminate.
        + apply (hit_after y (e ++ r) e r); auto.
      - apply (hit_before u x e r); auto.
    Qed.
    Lemma hit : pm = q -> q <> [] -> clash [32%N] pm = true -> clash [46; 32]%N pm = true -> re_sub' (RLit q new) (a ++ m ++ b) = a ++ new ++ b.
    Proof.
      intros E Nq C1 C2. rewrite sub_skip; [|split; assumption|].
      - f_equal. erewrite sub_hit; [|split; assumption|cbn [match_rule]; rewrite (proj2 (ci_lit_some q (m ++ b) b Fq)); [reflexivity|exists m; rewrite <- E; auto]].
        f_equal. apply sub_none; [split; assumption|]. intros u v Eb Nv. apply lit_no; [exact Fq|]. intros e r Ev S. apply (hit_after u v e r); auto.
      - intros u v Ea Nv. apply lit_no; [exact Fq|]. intros e r Ev S. exact (hit_before u v e r Ea Nv C1 C2 Ev S).
    Qed.
  End Around.

  Lemma quiet_miss : forall q new s, Forall plain q -> heads q -> q <> [] -> quiet s -> re_sub' (RLit q new) s = s.
  Proof.
    intros q new s F H Nq Q. apply sub_none; [split; assumption|]. intros u v -> Nv. apply lit_no; [exact F|]. intros e r -> S. exact (hit_after q (u ++ e ++ r) H Q u (e ++ r) e r eq_refl eq_refl S).
  Qed.

  Lemma listed_ok : forall q new, In (q, new) listed -> Forall plain q /\ heads q /\ q <> [].
  Proof.
    intros q new I. unfold listed, In in I.
    repeat (destruct I as [I|I]; [injection I as <- <-; split; [apply plain_lit; reflexivity|split; [|discriminate]];
      first [left; eexists; reflexivity | right; eexists; split; [reflexivity|vm_compute; repeat (first [left; reflexivity|right])]]|]).
    destruct I.
  Qed.
  Lemma fold_lits : forall glued (L : list (list N * list N)) a m b pm, (forall x, In x L -> In x listed) -> quiet a -> quiet b -> Forall plain pm -> spelled pm m -> (glued = true -> apart b) ->
    forallb (fun x => misses glued (fst x) pm) L = true -> fold_left (fun line r => re_sub' r line) (map (fun x => RLit (fst x) (snd x)) L) (a ++ m ++ b) = a ++ m ++ b.
  Proof.
    intros glued L a m b pm IL Qa Qb F S G. induction L as [|[q new] L IH]; intros M; [reflexivity|]. cbn [map fold_left fst snd forallb] in *. apply andb_true_iff in M. destruct M as [M1 M2].
    destruct (listed_ok q new (IL _ (or_introl eq_refl))) as (A & B & C). rewrite (miss q new a m b pm) with (glued := glued); auto. apply IH; [intros x I; apply IL; now right|exact M2].
  Qed.
  Lemma quiet_lits : forall s, quiet s -> fold_left (fun line r => re_sub' r line) lit_rules s = s.
  Proof.
    intros s Q. unfold lit_rules. assert (IL : forall x, In x listed -> In x listed) by auto. revert IL. generalize listed at 1 3. induction l as [|[q new] L IH]; intros IL; [reflexivity|]. cbn [map fold_left fst snd].
    destruct (listed_ok q new (IL _ (or_introl eq_refl))) as (A & B & C). rewrite quiet_miss by assumption. apply IH. intros x I. apply IL. now right.
  Qed.
  Definition is_image (new : list N) : bool := str_eqb new (lit ".. ").
  Definition table_ok (k : nat) : bool :=
    match nth_error listed k with
    | Some (p, new) =>
        forallb (fun x => misses false (fst x) p) (firstn k listed) && forallb (fun x => misses (is_image new) (fst x) (lower new)) (skipn (S k) listed)
        && clash [32%N] p && clash [46; 32]%N p && forallb (fun c => (c <? 128) && negb ((65 <=? c) && (c <=? 90)))%N (lower new)
    | None => true
    end.
  Lemma table : forallb table_ok (seq 0 12) = true.
  Proof. vm_compute. reflexivity. Qed.
  Lemma spelled_lower : forall s, Forall (fun c => c < 128)%N s -> spelled (lower s) s.
  Proof.
    intros s F. induction F as [|c s L F IH]; [constructor|]. constructor; [|exact IH]. unfold low, is_upper. destruct ((65 <=? c)%N && (c <=? 90)%N) eqn:E; unfold same_letter.
    - apply andb_true_iff in E. rewrite !N.leb_le in E. lia.
    - apply andb_false_iff in E. rewrite !N.leb_gt in E. lia.
  Qed.
  Theorem special_done : forall p new d a b, In (p, new) listed -> spelled p d -> quiet a -> quiet b -> (new = lit ".. " -> apart b) ->
    fold_left (fun line r => re_sub' r line) lit_rules (a ++ d ++ b) = a ++ new ++ b.
  Proof.
    intros p new d a b I Sd Qa Qb G. destruct (listed_ok p new I) as (F & H & Np).
    assert (Asc : Forall (fun c => c < 128)%N new). { apply Forall_forall. intros c J. assert (X : forallb (fun x => forallb (fun c => c <? 128)%N (snd x)) listed = true) by reflexivity. rewrite forallb_forall in X. specialize (X _ I). cbn in X. rewrite forallb_forall in X. apply N.ltb_lt. exact (X c J). }
    destruct (In_nth_error _ _ I) as (k & K). assert (Lk : k < 12) by (apply (nth_error_Some listed k); rewrite K; discriminate).
    pose proof table as T. rewrite forallb_forall in T. specialize (T k ltac:(apply in_seq; lia)). unfold table_ok in T. rewrite K in T. rewrite !andb_true_iff in T. destruct T as ((((T1 & T2) & T3) & T4) & T5).
    assert (E : listed = firstn k listed ++ (p, new) :: skipn (S k) listed).
    { clear - K. revert k K. generalize listed as l. induction l as [|x l IH]; intros [|k] K; try discriminate; cbn in K.
      - injection K as ->. reflexivity.
      - cbn [firstn skipn app]. f_equal. now apply IH. }
    unfold lit_rules. rewrite E, map_app, fold_left_app. cbn [map fold_left fst snd].
    assert (IL1 : forall x, In x (firstn k listed) -> In x listed) by (intros x J; rewrite E; apply in_or_app; now left).
    assert (IL2 : forall x, In x (skipn (S k) listed) -> In x listed) by (intros x J; rewrite E; apply in_or_app; right; now right).
    rewrite (fold_lits false _ a d b p IL1); auto; [|discriminate].
    rewrite (hit p new a d b p); auto.
    apply (fold_lits (is_image new) _ a new b (lower new)); auto; [now apply plain_lit|now apply spelled_lower|].
    intros X. apply G. now apply str_eqb_eq.
  Qed.
End Literals.
