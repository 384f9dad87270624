(** Lemmas about the matcher. *)
From Coq Require Import String.
From Verif Require Import PyBase PyBase_Proofs Regex.

Fixpoint take_while (f : pychar -> bool) (s : pystr) : pystr :=
  match s with
  | [] => []
  | c :: s' => if f c then c :: take_while f s' else []
  end.

Lemma take_drop : forall f s, take_while f s ++ drop_while f s = s.
Proof. induction s as [|c s IH]; [reflexivity|]. cbn. destruct (f c); [cbn; rewrite IH|]; reflexivity. Qed.

Lemma take_while_all : forall f s c, In c (take_while f s) -> f c = true.
Proof.
  induction s as [|d s IH]; intros c H; [destruct H|]. cbn in H. destruct (f d) eqn:E; [|destruct H].
  destruct H as [<-|H]; [exact E|apply IH; exact H].
Qed.

Lemma drop_while_head : forall f s c s', drop_while f s = c :: s' -> f c = false.
Proof.
  induction s as [|d s IH]; intros c s' H; [discriminate|]. cbn in H. destruct (f d) eqn:E; [eapply IH; exact H|].
  inversion H; subst. exact E.
Qed.

Lemma take_drop_app : forall f a b, (forall c, In c a -> f c = true) ->
  (forall c b', b = c :: b' -> f c = false) -> take_while f (a ++ b) = a /\ drop_while f (a ++ b) = b.
Proof.
  induction a as [|c a IH]; intros b Ha Hb.
  - cbn [app]. destruct b as [|c b]; [split; reflexivity|]. cbn. rewrite (Hb c b eq_refl). split; reflexivity.
  - cbn. rewrite (Ha c (or_introl eq_refl)). destruct (IH b) as [-> ->]; [|exact Hb|split; reflexivity].
    intros d Hd. apply Ha. right. exact Hd.
Qed.

(** The star tries the longest prefix first. *)
Lemma star_first : forall X f (k : pystr -> option X) a b x, (forall c, In c a -> f c = true) ->
  (forall c b', b = c :: b' -> f c = false) -> k b = Some x -> star f k (a ++ b) = Some x.
Proof.
  induction a as [|c a IH]; intros b x Ha Hb Hk.
  - cbn [app]. destruct b as [|c b]; [exact Hk|]. cbn. rewrite (Hb c b eq_refl). exact Hk.
  - cbn. rewrite (Ha c (or_introl eq_refl)). rewrite (IH b x); [reflexivity| |exact Hb|exact Hk].
    intros d Hd. apply Ha. right. exact Hd.
Qed.

Lemma star_total : forall f s, star f Some s = Some (drop_while f s).
Proof.
  intros f s. rewrite <- (take_drop f s) at 1. apply star_first.
  - intros c. apply take_while_all.
  - intros c b. apply drop_while_head.
  - reflexivity.
Qed.

Lemma star_inv : forall X f (k : pystr -> option X) s x, star f k s = Some x ->
  exists a b, s = a ++ b /\ (forall c, In c a -> f c = true) /\ k b = Some x.
Proof.
  induction s as [|c s IH]; intros x H.
  - exists [], []. repeat split; [intros c []|exact H].
  - cbn in H. destruct (f c) eqn:E.
    + destruct (star f k s) as [y|] eqn:Es.
      * inversion H; subst. destruct (IH x eq_refl) as (a & b & -> & Ha & Hb). exists (c :: a), b.
        repeat split; [|exact Hb]. intros d [<-|Hd]; [exact E|apply Ha; exact Hd].
      * exists [], (c :: s). repeat split; [intros d []|exact H].
    + exists [], (c :: s). repeat split; [intros d []|exact H].
Qed.

(** No match by the star if no prefix leads to one. *)
Lemma star_none : forall X f (k : pystr -> option X) s,
  (forall a b, s = a ++ b -> (forall c, In c a -> f c = true) -> k b = None) -> star f k s = None.
Proof.
  intros X f k s H. destruct (star f k s) as [x|] eqn:E; [|reflexivity].
  destruct (star_inv _ _ _ _ _ E) as (a & b & Es & Ha & Hk). rewrite (H a b Es Ha) in Hk. discriminate.
Qed.

Lemma between_app : forall a b, between (a ++ b) b = a.
Proof.
  intros a b. unfold between. rewrite app_length, Nat.add_sub, firstn_app, Nat.sub_diag, firstn_O, app_nil_r.
  apply firstn_all.
Qed.

Lemma between_cons : forall c a b, between (c :: a ++ b) b = c :: a.
Proof. intros. apply (between_app (c :: a) b). Qed.

(** What matching means, as a relation. *)
Inductive mt : re -> pystr -> groups -> pystr -> groups -> Prop :=
| Mt_chr : forall f c s g, f c = true -> mt (RChr f) (c :: s) g s g
| Mt_eps : forall s g, mt REps s g s g
| Mt_seq : forall a b s g s1 g1 s2 g2, mt a s g s1 g1 -> mt b s1 g1 s2 g2 -> mt (RSeq a b) s g s2 g2
| Mt_alt_l : forall a b s g s1 g1, mt a s g s1 g1 -> mt (RAlt a b) s g s1 g1
| Mt_alt_r : forall a b s g s1 g1, mt b s g s1 g1 -> mt (RAlt a b) s g s1 g1
| Mt_star : forall f a s g, (forall c, In c a -> f c = true) -> mt (RStar f) (a ++ s) g s g
| Mt_grp : forall n a s g s1 g1, mt a s g s1 g1 -> mt (RGrp n a) s g s1 ((n, between s s1) :: g1)
| Mt_ref : forall n t s g, group n g = Some t -> mt (RRef n) (t ++ s) g s g
| Mt_end : forall s g, at_end s = true -> mt REnd s g s g.

Lemma rmatch_inv : forall X r s g (k : pystr -> groups -> option X) x, rmatch r s g k = Some x ->
  exists s' g', mt r s g s' g' /\ k s' g' = Some x.
Proof.
  induction r as [f| |a IHa b IHb|a IHa b IHb|f|n a IHa|n|]; intros s g k x H; cbn [rmatch] in H.
  - destruct s as [|c s]; [discriminate|]. destruct (f c) eqn:E; [|discriminate].
    exists s, g. split; [constructor; exact E|exact H].
  - exists s, g. split; [constructor|exact H].
  - destruct (IHa _ _ _ _ H) as (s1 & g1 & H1 & H'). destruct (IHb _ _ _ _ H') as (s2 & g2 & H2 & Hk).
    exists s2, g2. split; [econstructor; eassumption|exact Hk].
  - destruct (rmatch a s g k) as [y|] eqn:E.
    + inversion H; subst. destruct (IHa _ _ _ _ E) as (s1 & g1 & H1 & Hk). exists s1, g1.
      split; [apply Mt_alt_l; exact H1|exact Hk].
    + destruct (IHb _ _ _ _ H) as (s1 & g1 & H1 & Hk). exists s1, g1.
      split; [apply Mt_alt_r; exact H1|exact Hk].
  - destruct (star_inv _ _ _ _ _ H) as (a & b & -> & Ha & Hk). exists b, g. split; [constructor; exact Ha|exact Hk].
  - destruct (IHa _ _ _ _ H) as (s1 & g1 & H1 & Hk). exists s1, ((n, between s s1) :: g1).
    split; [constructor; exact H1|exact Hk].
  - destruct (group n g) as [t|] eqn:E; [|discriminate]. destruct (starts_with t s) eqn:Es; [|discriminate].
    exists (skipn (length t) s), g. split; [|exact H].
    unfold starts_with in Es. apply str_eqb_eq in Es. rewrite <- (firstn_skipn (length t) s) at 1.
    rewrite <- Es. constructor. exact E.
  - destruct (at_end s) eqn:E; [|discriminate]. exists s, g. split; [constructor; exact E|exact H].
Qed.

(** A text with a match is matched (perhaps differently). *)
Lemma star_complete : forall X f (k : pystr -> option X) a b, (forall c, In c a -> f c = true) ->
  k b <> None -> star f k (a ++ b) <> None.
Proof.
  induction a as [|c a IH]; intros b Ha Hk.
  - cbn [app]. destruct b as [|c b]; [exact Hk|]. cbn. destruct (f c); [|exact Hk].
    destruct (star f k b); [discriminate|exact Hk].
  - cbn. rewrite (Ha c (or_introl eq_refl)).
    destruct (star f k (a ++ b)) eqn:E; [discriminate|]. exfalso.
    apply (IH b) in E; [exact E| |exact Hk]. intros d Hd. apply Ha. right. exact Hd.
Qed.

Lemma starts_with_app : forall a b, starts_with a (a ++ b) = true.
Proof.
  intros a b. unfold starts_with. apply str_eqb_eq.
  rewrite firstn_app, Nat.sub_diag, firstn_O, app_nil_r, firstn_all. reflexivity.
Qed.

Lemma rmatch_complete : forall r s g s' g', mt r s g s' g' ->
  forall X (k : pystr -> groups -> option X), k s' g' <> None -> rmatch r s g k <> None.
Proof.
  intros r s g s' g' H. induction H; intros X k Hk; cbn [rmatch].
  - rewrite H. exact Hk.
  - exact Hk.
  - apply IHmt1. apply IHmt2. exact Hk.
  - destruct (rmatch a s g k) eqn:E; [discriminate|]. exfalso. exact (IHmt _ k Hk E).
  - destruct (rmatch a s g k) eqn:E; [discriminate|]. apply IHmt. exact Hk.
  - apply star_complete; assumption.
  - apply IHmt. exact Hk.
  - rewrite H, starts_with_app. rewrite skipn_app, skipn_all, Nat.sub_diag. exact Hk.
  - rewrite H. exact Hk.
Qed.

(** Expressions without named groups leave the groups as they are. *)
Fixpoint nogrp (r : re) : bool :=
  match r with
  | RSeq a b | RAlt a b => nogrp a && nogrp b
  | RGrp _ _ => false
  | _ => true
  end.
Lemma mt_nogrp : forall r s g s' g', mt r s g s' g' -> nogrp r = true -> g' = g.
Proof.
  intros r s g s' g' H. induction H; cbn [nogrp]; intro Hn; try reflexivity; try discriminate;
    apply andb_true_iff in Hn; destruct Hn as [Hn1 Hn2]; auto.
  rewrite IHmt2, IHmt1 by assumption. reflexivity.
Qed.

(** Matching consumes a prefix. *)
Lemma mt_prefix : forall r s g s' g', mt r s g s' g' -> exists a, s = a ++ s'.
Proof.
  intros r s g s' g' H. induction H as [f c s g H|s g|a b s g s1 g1 s2 g2 H1 [u IH1] H2 [w IH2]|a b s g s1 g1 H1 IH1|a b s g s1 g1 H1 IH1|f a s g H|name a s g s1 g1 H1 IH1|name t s g H|s g H].
  - exists [c]. reflexivity.
  - exists []. reflexivity.
  - exists (u ++ w). rewrite <- app_assoc, <- IH2. exact IH1.
  - exact IH1.
  - exact IH1.
  - exists a. reflexivity.
  - exact IH1.
  - exists t. reflexivity.
  - exists []. reflexivity.
Qed.

(** Expressions without back-references and anchors: the texts they match, and
    the groups that they add. *)
Fixpoint plain (r : re) : bool :=
  match r with
  | RSeq a b | RAlt a b => plain a && plain b
  | RGrp _ a => plain a
  | RRef _ | REnd => false
  | _ => true
  end.
Fixpoint gl (r : re) (t : pystr) (h : groups) : Prop :=
  match r with
  | RChr f => exists c, t = [c] /\ f c = true /\ h = []
  | REps => t = [] /\ h = []
  | RSeq a b => exists u v hu hv, t = u ++ v /\ h = hv ++ hu /\ gl a u hu /\ gl b v hv
  | RAlt a b => gl a t h \/ gl b t h
  | RStar f => (forall c, In c t -> f c = true) /\ h = []
  | RGrp n a => exists h', h = (n, t) :: h' /\ gl a t h'
  | RRef _ | REnd => False
  end.

Lemma mt_gl : forall r s g s' g', plain r = true -> mt r s g s' g' ->
  exists t h, s = t ++ s' /\ g' = h ++ g /\ gl r t h.
Proof.
  induction r as [f| |a IHa b IHb|a IHa b IHb|f|n a IHa|n|]; intros s g s' g' Hp H; cbn [plain] in Hp; cbn [gl].
  - inversion H; subst. exists [c], []. repeat split. eauto.
  - inversion H; subst. exists [], []. repeat split.
  - apply andb_true_iff in Hp. destruct Hp as [Ha Hb]. inversion H; subst.
    match goal with A : mt a _ _ _ _, B : mt b _ _ _ _ |- _ =>
      apply (IHa _ _ _ _ Ha) in A; destruct A as (u & hu & -> & -> & Ga);
      apply (IHb _ _ _ _ Hb) in B; destruct B as (v & hv & -> & -> & Gb) end.
    exists (u ++ v), (hv ++ hu). rewrite !app_assoc. repeat split. exists u, v, hu, hv. auto.
  - apply andb_true_iff in Hp. destruct Hp as [Ha Hb].
    inversion H; subst;
      match goal with
      | A : mt a _ _ _ _ |- _ => apply (IHa _ _ _ _ Ha) in A; destruct A as (u & hu & -> & -> & G)
      | A : mt b _ _ _ _ |- _ => apply (IHb _ _ _ _ Hb) in A; destruct A as (u & hu & -> & -> & G)
      end; exists u, hu; auto.
  - inversion H; subst. exists a, []. auto.
  - inversion H; subst. match goal with A : mt a _ _ _ _ |- _ => apply (IHa _ _ _ _ Hp) in A; destruct A as (u & hu & -> & -> & G) end.
    exists u, ((n, u) :: hu). rewrite between_app. repeat split. eauto.
  - discriminate.
  - discriminate.
Qed.

Lemma gl_mt : forall r t h s g, gl r t h -> mt r (t ++ s) g s (h ++ g).
Proof.
  induction r as [f| |a IHa b IHb|a IHa b IHb|f|n a IHa|n|]; intros t h s g H; cbn [gl] in H.
  - destruct H as (c & -> & E & ->). constructor. exact E.
  - destruct H as [-> ->]. constructor.
  - destruct H as (u & v & hu & hv & -> & -> & Ga & Gb). rewrite <- !app_assoc. econstructor; eauto.
  - destruct H as [H|H]; [apply Mt_alt_l|apply Mt_alt_r]; auto.
  - destruct H as [H ->]. constructor. exact H.
  - destruct H as (h' & -> & H). pose proof (Mt_grp n a (t ++ s) g s (h' ++ g) (IHa _ _ _ _ H)) as M.
    rewrite between_app in M. exact M.
  - destruct H.
  - destruct H.
Qed.

(** The characters that a match may consume. *)
Fixpoint consumes (r : re) (c : pychar) : bool :=
  match r with
  | RChr f | RStar f => f c
  | REps | REnd => false
  | RSeq a b | RAlt a b => consumes a c || consumes b c
  | RGrp _ a => consumes a c
  | RRef _ => true
  end.
Fixpoint no_ref (r : re) : bool :=
  match r with
  | RSeq a b | RAlt a b => no_ref a && no_ref b
  | RGrp _ a => no_ref a
  | RRef _ => false
  | _ => true
  end.
Lemma mt_consumes : forall r s g s' g', mt r s g s' g' -> no_ref r = true -> exists a, s = a ++ s' /\ forall c, In c a -> consumes r c = true.
Proof.
  intros r s g s' g' H. induction H as [f c s g H|s g|a b s g s1 g1 s2 g2 H1 IH1 H2 IH2|a b s g s1 g1 H1 IH1|a b s g s1 g1 H1 IH1|f a s g H|name a s g s1 g1 H1 IH1|name t s g H|s g H];
    cbn [no_ref consumes]; intros Hn.
  - exists [c]. split; [reflexivity|]. intros d [<-|[]]. exact H.
  - exists []. split; [reflexivity|intros d []].
  - apply andb_true_iff in Hn. destruct Hn as [Na Nb]. destruct (IH1 Na) as (u & -> & Hu), (IH2 Nb) as (w & -> & Hw).
    exists (u ++ w). split; [apply app_assoc|]. intros c Hc. apply in_app_or in Hc. apply orb_true_iff. destruct Hc; auto.
  - apply andb_true_iff in Hn. destruct (IH1 (proj1 Hn)) as (u & -> & Hu). exists u. split; [reflexivity|]. intros c Hc. rewrite Hu by exact Hc. reflexivity.
  - apply andb_true_iff in Hn. destruct (IH1 (proj2 Hn)) as (u & -> & Hu). exists u. split; [reflexivity|]. intros c Hc. rewrite Hu by exact Hc. apply orb_true_r.
  - exists a. auto.
  - exact (IH1 Hn).
  - discriminate Hn.
  - exists []. split; [reflexivity|intros d []].
Qed.

(** Groups hold parts of the text. *)
Lemma mt_groups : forall r s g s' g', mt r s g s' g' -> forall n t, In (n, t) g' -> In (n, t) g \/ incl t s.
Proof.
  intros r s g s' g' H. induction H as [f c s g H|s g|a b s g s1 g1 s2 g2 H1 IH1 H2 IH2|a b s g s1 g1 H1 IH1|a b s g s1 g1 H1 IH1|f a s g H|name a s g s1 g1 H1 IH1|name t s g H|s g H];
    intros n u Hin; auto.
  - destruct (IH2 n u Hin) as [X|X]; [apply IH1; exact X|]. right. destruct (mt_prefix _ _ _ _ _ H1) as (w & ->).
    intros c Hc. apply in_or_app. right. apply X. exact Hc.
  - destruct Hin as [Hin|Hin]; [|apply IH1; exact Hin]. injection Hin as <- <-. right. destruct (mt_prefix _ _ _ _ _ H1) as (w & ->).
    rewrite between_app. intros c Hc. apply in_or_app. left. exact Hc.
Qed.
Lemma group_in : forall n g t, group n g = Some t -> In (n, t) g.
Proof.
  intros n g t. induction g as [|[k v] g IH]; cbn [group]; intros H; [discriminate H|].
  destruct (String.eqb_spec k n) as [->|]; [|right; auto]. injection H as ->. left. reflexivity.
Qed.
Lemma re_match_group : forall r s g n t, re_match r s = Some g -> group n g = Some t -> incl t s.
Proof.
  intros r s g n t H Hg. destruct (rmatch_inv _ _ _ _ _ _ H) as (s' & g' & Hm & Hk). injection Hk as <-.
  apply group_in in Hg. destruct (mt_groups _ _ _ _ _ Hm n t Hg) as [[]|X]. exact X.
Qed.
