(** Lemmas for C47, C48, C53, C60-C63. *)
From Coq Require Import String FinFun.
From Verif Require Import PyBase PyBase_Proofs Regex Regex_Proofs Utils_Model Utils_Spec.

(** ** Splitting *)

Lemma span_spec : forall f s a b, span f s = (a, b) -> s = a ++ b /\ (forall c, In c a -> f c = true) /\ (forall c b', b = c :: b' -> f c = false).
Proof.
  induction s as [|c s IH]; intros a b H; cbn [span] in H.
  - injection H as <- <-. repeat split; [intros c []|discriminate].
  - destruct (f c) eqn:E.
    + destruct (span f s) as [x y]. injection H as <- <-. destruct (IH x y eq_refl) as (-> & Ha & Hb). repeat split; [|exact Hb].
      intros d [<-|Hd]; auto.
    + injection H as <- <-. repeat split; [intros d []|]. intros d b' Hb. injection Hb as <- _. exact E.
Qed.
Lemma span_app : forall f a b, (forall c, In c a -> f c = true) -> (forall c b', b = c :: b' -> f c = false) -> span f (a ++ b) = (a, b).
Proof.
  induction a as [|c a IH]; intros b Ha Hb.
  - destruct b as [|c b]; [reflexivity|]. cbn. rewrite (Hb c b eq_refl). reflexivity.
  - cbn. rewrite (Ha c (or_introl eq_refl)), (IH b); [reflexivity| |exact Hb]. intros d Hd. apply Ha. right. exact Hd.
Qed.

Definition extch (c : pychar) : bool := negb ((c =? chr ".") || (c =? chr "/"))%N.
Lemma extch_spec : forall e, (forall c, In c e -> extch c = true) <-> ~ In (chr ".") e /\ ~ In (chr "/") e.
Proof.
  intros e. split.
  - intros H. split; intros Hi; specialize (H _ Hi); discriminate H.
  - intros [H1 H2] c Hc. unfold extch. destruct (N.eqb_spec c (chr ".")) as [->|]; [contradiction|].
    destruct (N.eqb_spec c (chr "/")) as [->|]; [contradiction|reflexivity].
Qed.

(** The last step of a reversed path. *)
Definition rstep (r : pystr) : pystr := fst (span (fun c => negb (c =? chr "/")%N) r).
Lemma rstep_named : forall st, existsb (fun c => negb (c =? chr ".")%N) (rstep (rev st)) = true <-> named_step st.
Proof.
  intros st. unfold rstep. destruct (span _ (rev st)) as [b d] eqn:E. apply span_spec in E. destruct E as (Er & Hb & Hd). cbn [fst].
  assert (st = rev d ++ rev b) as Es by (rewrite <- rev_app_distr, <- Er, rev_involutive; reflexivity).
  split.
  - intros H. apply existsb_exists in H. destruct H as (x & Hx & Ex). exists (rev d), (rev b), x. split; [exact Es|]. split.
    + destruct d as [|c d]; [left; reflexivity|]. right. exists (rev d). specialize (Hd c d eq_refl). cbn [rev].
      apply negb_false_iff in Hd. apply N.eqb_eq in Hd. subst c. reflexivity.
    + split; [intros Hi; apply in_rev in Hi; specialize (Hb _ Hi); discriminate Hb|]. split; [apply in_rev in Hx; exact Hx|].
      apply negb_true_iff in Ex. apply N.eqb_neq in Ex. exact Ex.
  - intros (d' & b' & x & E' & Hd' & Hb' & Hx & Hn). apply existsb_exists. exists x. split; [|apply negb_true_iff, N.eqb_neq; exact Hn].
    assert (rev st = rev b' ++ rev d') as Er' by (rewrite E'; apply rev_app_distr).
    assert (span (fun c => negb (c =? chr "/")%N) (rev st) = (rev b', rev d')) as Sp.
    { rewrite Er'. apply span_app.
      - intros c Hc. apply in_rev in Hc. apply negb_true_iff, N.eqb_neq. intros ->. contradiction.
      - intros c r Hr. destruct Hd' as [->|(d'' & ->)]; [discriminate Hr|]. rewrite rev_app_distr in Hr. cbn in Hr. injection Hr as <- _. reflexivity. }
    assert (span (fun c => negb (c =? chr "/")%N) (rev st) = (b, d)) as Sp2.
    { rewrite Er. apply span_app; assumption. }
    rewrite Sp in Sp2. injection Sp2 as <- _. apply in_rev in Hx. exact Hx.
Qed.

Lemma splitext_spec : forall p st e, splitext p = (st, e) -> extension p st e /\ p = st ++ e.
Proof.
  intros p st e H. unfold splitext in H. fold extch in H. change (fun c => negb ((c =? chr ".") || (c =? chr "/"))%N) with extch in H.
  destruct (span extch (rev p)) as [x r] eqn:E. apply span_spec in E. destruct E as (Er & Hx & Hr).
  assert (p = rev r ++ rev x) as Ep by (rewrite <- rev_app_distr, <- Er, rev_involutive; reflexivity).
  assert (forall st' e', p = st' ++ lit "." ++ e' -> ~ In (chr ".") e' -> ~ In (chr "/") e' -> r = chr "." :: rev st' /\ x = rev e') as U.
  { intros st' e' Ep' H1 H2. assert (span extch (rev p) = (rev e', chr "." :: rev st')) as S1.
    { rewrite Ep', app_assoc, rev_app_distr. rewrite rev_app_distr. cbn [lit map list_ascii_of_string rev app]. apply span_app.
      - intros c Hc. apply in_rev in Hc. apply (proj2 (extch_spec e') (conj H1 H2)). exact Hc.
      - intros c b Hb. injection Hb as <- _. reflexivity. }
    assert (span extch (rev p) = (x, r)) as S2 by (rewrite Er; apply span_app; assumption).
    rewrite S1 in S2. injection S2 as <- <-. auto. }
  destruct r as [|c r].
  - injection H as <- <-. split; [|rewrite app_nil_r; reflexivity]. apply Ex_none. intros st' e' Ep' H1 H2 _.
    destruct (U st' e' Ep' H1 H2) as [F _]. discriminate F.
  - fold (rstep r) in H. destruct ((c =? chr ".")%N && existsb (fun c => negb (c =? chr ".")%N) (rstep r)) eqn:Eb.
    + injection H as <- <-. apply andb_true_iff in Eb. destruct Eb as [Ec Eb]. apply N.eqb_eq in Ec. subst c.
      cbn [rev] in Ep. rewrite <- app_assoc in Ep. split; [|exact Ep]. rewrite Ep. apply (Ex_some (rev r) (rev x)).
      * apply rstep_named. rewrite rev_involutive. exact Eb.
      * intros Hi. apply in_rev in Hi. specialize (Hx _ Hi). discriminate Hx.
      * intros Hi. apply in_rev in Hi. specialize (Hx _ Hi). discriminate Hx.
    + injection H as <- <-. split; [|rewrite app_nil_r; reflexivity]. apply Ex_none. intros st' e' Ep' H1 H2 Hn.
      destruct (U st' e' Ep' H1 H2) as [F _]. injection F as -> ->. apply rstep_named in Hn. rewrite Hn in Eb. discriminate Eb.
Qed.

Lemma app_last_inj : forall (a b : pystr) x y, a ++ [x] = b ++ [y] -> a = b /\ x = y.
Proof. intros. apply app_inj_tail. assumption. Qed.

Lemma last_dot_unique : forall st e st' e', st ++ lit "." ++ e = st' ++ lit "." ++ e' -> ~ In (chr ".") e -> ~ In (chr ".") e' -> st = st' /\ e = e'.
Proof.
  intros st e st' e' H He He'.
  assert (forall a b a' b', ~ In (chr ".") a -> ~ In (chr ".") a' -> a ++ chr "." :: b = a' ++ chr "." :: b' -> a = a' /\ b = b') as X.
  { induction a as [|c a IH]; intros b a' b' Ha Ha' E.
    - destruct a' as [|c' a']; [injection E as ->; auto|]. injection E as E0 _. destruct Ha'. left. symmetry. exact E0.
    - destruct a' as [|c' a']; [injection E as E0 _; destruct Ha; left; exact E0|]. injection E as -> E.
      destruct (IH b a' b') as [-> ->]; auto. intros Hi. apply Ha. right. exact Hi. intros Hi. apply Ha'. right. exact Hi. }
  assert (rev e ++ chr "." :: rev st = rev e' ++ chr "." :: rev st') as R.
  { apply (f_equal (@rev pychar)) in H. rewrite !app_assoc, !rev_app_distr in H. cbn [rev app lit map list_ascii_of_string] in H. exact H. }
  destruct (X _ _ _ _ (fun Hi => He (proj2 (in_rev _ _) Hi)) (fun Hi => He' (proj2 (in_rev _ _) Hi)) R) as [E1 E2].
  apply (f_equal (@rev pychar)) in E1, E2. rewrite !rev_involutive in E1, E2. auto.
Qed.

Lemma extension_inv : forall p st e, extension p st e ->
  (exists b, p = st ++ lit "." ++ b /\ e = lit "." ++ b /\ named_step st /\ ~ In (chr ".") b /\ ~ In (chr "/") b)
  \/ (st = p /\ e = [] /\ forall st' e', p = st' ++ lit "." ++ e' -> ~ In (chr ".") e' -> ~ In (chr "/") e' -> ~ named_step st').
Proof. intros p st e [st' b Hn H1 H2|f H]; [left; exists b; auto|right; auto]. Qed.

Lemma extension_fun : forall p st e st' e', extension p st e -> extension p st' e' -> st = st' /\ e = e'.
Proof.
  intros p st e st' e' H H'.
  destruct (extension_inv _ _ _ H) as [(b & Ep & Ee & Hn & H1 & H2)|(E1 & E2 & Hn)];
    destruct (extension_inv _ _ _ H') as [(b' & Ep' & Ee' & Hn' & H1' & H2')|(E1' & E2' & Hn')].
  - rewrite Ep in Ep'. destruct (last_dot_unique _ _ _ _ Ep' H1 H1') as [-> ->]. subst. auto.
  - destruct (Hn' st b Ep H1 H2 Hn).
  - destruct (Hn st' b' Ep' H1' H2' Hn').
  - subst. auto.
Qed.

Lemma splitext_complete : forall p st e, extension p st e -> splitext p = (st, e).
Proof.
  intros p st e H. destruct (splitext p) as [st' e'] eqn:E. apply splitext_spec in E. destruct (extension_fun _ _ _ _ _ H (proj1 E)) as [-> ->]. reflexivity.
Qed.

(** ** Ensuring extensions *)

Lemma ends_with_spec : forall p s, ends_with p s = true <-> exists a, s = a ++ p.
Proof.
  intros p s. unfold ends_with. split.
  - intros H. apply andb_true_iff in H. destruct H as [_ H]. apply str_eqb_eq in H. exists (firstn (length s - length p) s).
    rewrite H at 2. symmetry. apply firstn_skipn.
  - intros (a & ->). rewrite app_length. apply andb_true_iff. split; [apply Nat.leb_le; lia|].
    replace (length a + length p - length p)%nat with (length a) by lia. rewrite skipn_app, skipn_all, Nat.sub_diag. apply str_eqb_refl.
Qed.

Lemma lower_app : forall a b, lower (a ++ b) = lower a ++ lower b.
Proof. intros. apply map_app. Qed.
Lemma lower_split : forall s x y, lower s = x ++ y -> exists a b, s = a ++ b /\ lower a = x /\ lower b = y.
Proof. intros s x y H. apply map_eq_app in H. destruct H as (a & b & -> & <- & <-). eauto. Qed.
Lemma low_dot : forall c d, low c = d -> d = chr "." \/ d = chr "/" -> c = d.
Proof.
  intros c d H Hd. unfold low in H. destruct (is_upper c) eqn:E; [|exact H]. unfold is_upper in E. apply andb_true_iff in E. destruct E as [E1 E2].
  apply N.leb_le in E1, E2. destruct Hd as [-> | ->]; cbn in H; lia.
Qed.
Lemma in_lower : forall c s, c = chr "." \/ c = chr "/" -> (In c (lower s) <-> In c s).
Proof.
  intros c s Hc. unfold lower. rewrite in_map_iff. split.
  - intros (x & E & Hx). apply low_dot in E; [|exact Hc]. congruence.
  - intros H. exists c. split; [|exact H]. destruct Hc as [-> | ->]; reflexivity.
Qed.

Lemma add_ext_spec : forall fname ext r, add_ext fname ext = Ok r <->
  fname <> [] /\ ext <> [] /\ exists st e, cut_dot fname st /\ undotted ext e /\ r = st ++ lit "." ++ e.
Proof.
  intros fname ext r. unfold add_ext.
  assert (fname = rev (rev fname)) as Ef by (symmetry; apply rev_involutive).
  destruct (rev fname) as [|c rf] eqn:Er; [cbn in Ef; subst fname; split; [discriminate|intros [F _]; contradiction]|].
  cbn [rev] in Ef. destruct ext as [|d e]; [split; [discriminate|intros (_ & F & _); contradiction]|].
  assert (fname <> []) as Hn by (rewrite Ef; destruct (rev rf); discriminate).
  assert (exists st, (if (c =? chr ".")%N then rev rf else fname) = st /\ cut_dot fname st) as (st & Es & Hs).
  { destruct (N.eqb_spec c (chr ".")) as [->|Hc]; eexists; (split; [reflexivity|]).
    - left. exact Ef.
    - right. split; [reflexivity|]. intros a Ha. rewrite Ef in Ha. apply app_last_inj in Ha. apply Hc. apply Ha. }
  assert (exists x, (if (d =? chr ".")%N then e else d :: e) = x /\ undotted (d :: e) x) as (x & Ex & Hx).
  { destruct (N.eqb_spec d (chr ".")) as [->|Hd]; eexists; (split; [reflexivity|]).
    - left. reflexivity.
    - right. split; [reflexivity|]. intros a Ha. apply Hd. injection Ha as -> _. reflexivity. }
  rewrite Es, Ex. split.
  - intros H. injection H as <-. split; [exact Hn|]. split; [discriminate|]. eauto.
  - intros (_ & _ & st' & x' & Hs' & Hx' & ->).
    assert (st = st') as <-.
    { destruct Hs as [Hs|[-> Hs]], Hs' as [Hs'|[<- Hs']]; auto.
      - rewrite Hs in Hs'. apply app_last_inj in Hs'. apply Hs'.
      - destruct (Hs' st Hs).
      - destruct (Hs st' Hs'). }
    assert (x = x') as <-; [|reflexivity].
    destruct Hx as [Hx|[<- Hx]], Hx' as [Hx'|[<- Hx']]; auto.
    + rewrite Hx in Hx'. injection Hx' as <-. reflexivity.
    + destruct (Hx' x Hx).
    + destruct (Hx x' Hx').
Qed.

Lemma ensure_cases : forall fname ext exts,
  (exists st fe e, extension fname st fe /\ In e (ext :: exts) /\ ends_nocase fe e /\ ensure_file_ext fname ext exts = Ok fname)
  \/ ((forall st fe e, extension fname st fe -> In e (ext :: exts) -> ~ ends_nocase fe e) /\ ensure_file_ext fname ext exts = add_ext fname ext).
Proof.
  intros fname ext exts. unfold ensure_file_ext. destruct (splitext fname) as [st fe] eqn:E. cbn [snd].
  pose proof (splitext_spec _ _ _ E) as [Hs _].
  destruct (existsb (fun e => ends_with (lower e) (lower fe)) (ext :: exts)) eqn:Eb.
  - left. apply existsb_exists in Eb. destruct Eb as (e & He & Hw). apply ends_with_spec in Hw. destruct Hw as (a & Ha).
    apply lower_split in Ha. destruct Ha as (x & y & -> & _ & Hy). exists st, (x ++ y), e. repeat split; auto. exists x, y. auto.
  - right. split; [|reflexivity]. intros st' fe' e Hs' He (x & y & -> & Hy). destruct (extension_fun _ _ _ _ _ Hs Hs') as [_ ->].
    assert (existsb (fun e => ends_with (lower e) (lower (x ++ y))) (ext :: exts) = true) as F; [|congruence].
    apply existsb_exists. exists e. split; [exact He|]. apply ends_with_spec. exists (lower x). rewrite lower_app. congruence.
Qed.

Lemma cut_named : forall fname st, named_step fname -> cut_dot fname st -> named_step st.
Proof.
  intros fname st (d & b & x & E & Hd & Hb & Hx & Hn) [H|[-> _]]; [|exists d, b, x; auto].
  destruct b as [|y b] using rev_ind; [destruct Hx|]. clear IHb. rewrite E in H. rewrite app_assoc in H.
  apply app_last_inj in H. destruct H as [<- ->]. exists d, b, x. repeat split; auto.
  - intros Hi. apply Hb. apply in_or_app. left. exact Hi.
  - apply in_app_or in Hx. destruct Hx as [Hx|[Hx|[]]]; [exact Hx|]. symmetry in Hx. contradiction.
Qed.

Lemma added_ends : forall ext e, undotted ext e -> ends_nocase (lit "." ++ e) ext.
Proof.
  intros ext e [->|[-> _]]; [exists []|exists (lit ".")]; eexists; split; reflexivity.
Qed.

(** ** Unique names *)

Lemma filename_candidate : forall fname n, candidate fname n (filename_at fname n).
Proof.
  intros fname n. unfold filename_at. destruct (N.eqb_spec n 0) as [->|Hn]; [constructor|].
  destruct (splitext fname) as [f e] eqn:E. apply Cd_number; [lia|]. apply splitext_spec in E. apply E.
Qed.
Lemma candidate_fun : forall fname n c, candidate fname n c -> c = filename_at fname n.
Proof.
  intros fname n c H. unfold filename_at. inversion H as [|m st e Hm He]; subst; [reflexivity|].
  destruct (N.eqb_spec n 0); [lia|]. rewrite (splitext_complete _ _ _ He). reflexivity.
Qed.
Lemma str_of_N_inj : forall n m, str_of_N n = str_of_N m -> n = m.
Proof. intros n m H. apply (f_equal py_int) in H. rewrite !py_int_str_of_N in H. injection H as H. lia. Qed.
Lemma filename_inj : forall fname n m, filename_at fname n = filename_at fname m -> n = m.
Proof.
  intros fname n m H. unfold filename_at in H. destruct (splitext fname) as [f e] eqn:E. apply splitext_spec in E. destruct E as [_ E].
  destruct (N.eqb_spec n 0) as [->|Hn], (N.eqb_spec m 0) as [->|Hm]; auto.
  - exfalso. rewrite E in H. apply app_inv_head in H. apply (f_equal (@length pychar)) in H. rewrite app_length in H.
    pose proof (str_of_N_not_nil m). destruct (str_of_N m); [contradiction|]. cbn in H. lia.
  - exfalso. rewrite E in H. apply app_inv_head in H. apply (f_equal (@length pychar)) in H. rewrite app_length in H.
    pose proof (str_of_N_not_nil n). destruct (str_of_N n); [contradiction|]. cbn in H. lia.
  - apply app_inv_head, app_inv_tail in H. apply str_of_N_inj. exact H.
Qed.

Section Unique.
  Variable file_exists : pystr -> bool.

  Lemma unique_from_spec : forall fuel fname i r, unique_from file_exists fuel fname i = Ok r ->
    file_exists r = false /\ exists n, (i <= n)%N /\ r = filename_at fname n
    /\ forall m, (i <= m < n)%N -> file_exists (filename_at fname m) = true.
  Proof.
    induction fuel as [|fuel IH]; intros fname i r H; [discriminate H|]. cbn [unique_from] in H.
    destruct (file_exists (filename_at fname i)) eqn:E.
    - destruct (IH _ _ _ H) as (Hr & n & Hn & -> & Hm). split; [exact Hr|]. exists n. split; [lia|]. split; [reflexivity|].
      intros m Hm'. destruct (N.eq_dec m i) as [->|]; [exact E|]. apply Hm. lia.
    - injection H as <-. split; [exact E|]. exists i. split; [lia|]. split; [reflexivity|]. intros m Hm. lia.
  Qed.
  Lemma unique_from_raise : forall fuel fname i x, unique_from file_exists fuel fname i = Raise x ->
    x = OutOfFuel /\ forall m, (i <= m < i + N.of_nat fuel)%N -> file_exists (filename_at fname m) = true.
  Proof.
    induction fuel as [|fuel IH]; intros fname i x H; cbn [unique_from] in H.
    - injection H as <-. split; [reflexivity|]. intros m Hm. lia.
    - destruct (file_exists (filename_at fname i)) eqn:E; [|discriminate H]. destruct (IH _ _ _ H) as [-> Hm]. split; [reflexivity|].
      intros m Hm'. destruct (N.eq_dec m i) as [->|]; [exact E|]. apply Hm. lia.
  Qed.
End Unique.

(** More names than files. *)
Lemma names_bound : forall (files : list pystr) fname k, (forall m, (m < N.of_nat k)%N -> In (filename_at fname m) files) -> (k <= length files)%nat.
Proof.
  intros files fname k H. pose (l := map (fun i => filename_at fname (N.of_nat i)) (seq 0 k)).
  assert (NoDup l) as Nd.
  { apply Injective_map_NoDup; [|apply seq_NoDup]. intros a b Hab. apply filename_inj in Hab. lia. }
  assert (incl l files) as Hi.
  { intros x Hx. apply in_map_iff in Hx. destruct Hx as (i & <- & Hi). apply in_seq in Hi. apply H. lia. }
  pose proof (NoDup_incl_length Nd Hi) as L. unfold l in L. rewrite map_length, seq_length in L. exact L.
Qed.
