(** * Visiting schemas: proofs *)
From Coq Require Import String Lia.
From Verif Require Import PyBase PyBase_Proofs Json Pandel_Model Pandel_Proofs Visit_Model Visit_Spec.
From Verif Require AddProps_Model Enum_Model Tables_Proofs.

Lemma none_nil : forall A (l : list A), none l = true <-> l = [].
Proof. intros A [|x l]; split; intros H; try reflexivity; discriminate. Qed.
Lemma map_nil : forall A B (f : A -> B) l, map f l = [] <-> l = [].
Proof. intros A B f [|x l]; split; intros H; try reflexivity; discriminate. Qed.
Lemma none_map : forall A B (f : A -> B) l, none (map f l) = none l.
Proof. now intros A B f [|x l]. Qed.
Lemma app_nil : forall A (l m : list A), l ++ m = [] <-> l = [] /\ m = [].
Proof. intros A [|x l] m; split; intros H; try (destruct H as (A1 & A2)); try discriminate; auto. Qed.

Lemma replace_same : forall A (l : list A) i x, nth_error l i = Some x -> replace_nth i x l = l.
Proof.
  intros A l. induction l as [|y l IH]; intros [|i] x H; simpl in *; try discriminate; [now injection H as ->|].
  f_equal. now apply IH.
Qed.
Lemma put_same : forall a v x, child a v = Some x -> put a x v = v.
Proof.
  intros [[k|i]|] v x H; simpl in *.
  - destruct v; try discriminate. now rewrite sset_same.
  - destruct v; try discriminate. now rewrite replace_same.
  - now injection H as ->.
Qed.

Lemma numbered_in : forall A (l : list A) i j x, In (j, x) (numbered i l) <-> i <= j /\ nth_error l (j - i) = Some x.
Proof.
  intros A l. induction l as [|y l IH]; intros i j x; simpl.
  - split; [tauto|]. intros (_ & H). now destruct (j - i).
  - rewrite IH. split.
    + intros [E|(Hl & Hn)].
      * injection E as -> ->. rewrite PeanoNat.Nat.sub_diag. auto.
      * split; [lia|]. replace (j - i) with (S (j - S i)) by lia. exact Hn.
    + intros (Hl & Hn). destruct (PeanoNat.Nat.eq_dec i j) as [->|N].
      * rewrite PeanoNat.Nat.sub_diag in Hn. simpl in Hn. injection Hn as ->. now left.
      * right. split; [lia|]. replace (j - i) with (S (j - S i)) in Hn by lia. exact Hn.
Qed.

(** ** Finding keywords *)
Lemma first_such_ext : forall P Q kws k, (forall x, P x <-> Q x) -> first_such P kws k -> first_such Q kws k.
Proof. intros P Q kws k H (b & a & -> & Hk & N). exists b, a. split; [reflexivity|]. split; [now apply H|]. intros k' I X. apply (N k' I). now apply H. Qed.
Lemma find_kw_first : forall A (sel : keyword -> option A) kws a,
  find_kw sel kws = Some a <-> exists k, first_such (fun k => sel k <> None) kws k /\ sel k = Some a.
Proof.
  intros A sel kws a. induction kws as [|k kws IH]; cbn [find_kw].
  - split; [discriminate|]. intros (k & ([|b0 b] & c & E & _) & _); discriminate E.
  - destruct (sel k) as [x|] eqn:Ek.
    + split.
      * intros E. injection E as <-. exists k. split; [|exact Ek]. exists [], kws. split; [reflexivity|]. split; [congruence|intros k' []].
      * intros (k1 & (b & c & E & H1 & N) & H2). destruct b as [|b0 b]; injection E as E1 E2.
        -- subst k1. congruence.
        -- subst b0. exfalso. apply (N k (or_introl eq_refl)). congruence.
    + rewrite IH. split; intros (k1 & (b & c & E & H1 & N) & H2); exists k1; (split; [|exact H2]).
      * exists (k :: b), c. subst kws. split; [reflexivity|]. split; [exact H1|]. intros k' [<-|I']; [congruence|now apply N].
      * destruct b as [|b0 b]; injection E as E1 E2; [congruence|]. exists b, c. split; [exact E2|]. split; [exact H1|].
        intros k' I'. apply N. now right.
Qed.
Lemma find_kw_none : forall A (sel : keyword -> option A) kws, find_kw sel kws = None <-> forall k, In k kws -> sel k = None.
Proof.
  intros A sel kws. induction kws as [|k kws IH]; cbn [find_kw]; [split; [intros _ ? []|reflexivity]|].
  destruct (sel k) as [x|] eqn:Ek.
  - split; [discriminate|]. intros H. rewrite (H k (or_introl eq_refl)) in Ek. discriminate.
  - rewrite IH. split; [intros H k' [<-|I']; auto|]. intros H k' I'. apply H. now right.
Qed.
Lemma the_ref_some : forall kws r, the_ref kws = Some r <-> first_such is_ref kws (VRef r).
Proof.
  intros kws r. unfold the_ref. rewrite find_kw_first. split.
  - intros (k & F & E). destruct k; try discriminate. injection E as ->. eapply first_such_ext; [|exact F].
    intros x. split; [intros N; destruct x; try congruence; eexists; reflexivity|intros (y & ->); discriminate].
  - intros F. exists (VRef r). split; [|reflexivity]. eapply first_such_ext; [|exact F].
    intros x. split; [intros (y & ->); discriminate|intros N; destruct x; try congruence; eexists; reflexivity].
Qed.
Lemma the_ref_none : forall kws, the_ref kws = None <-> forall r, ~ In (VRef r) kws.
Proof.
  intros kws. unfold the_ref. rewrite find_kw_none. split.
  - intros H r I. specialize (H _ I). discriminate.
  - intros H k I. destruct k; try reflexivity. destruct (H _ I).
Qed.
Lemma the_props_first : forall kws k, In k (the_props kws) <-> exists ps s, first_such is_props kws (VProps ps) /\ In (k, s) ps.
Proof.
  assert (X : forall x, (match x with VProps ps => Some (map fst ps) | _ => None end) <> None <-> is_props x).
  { intros x. split; [intros N; destruct x; try congruence; eexists; reflexivity|intros (y & ->); discriminate]. }
  intros kws k. unfold the_props. destruct (find_kw _ kws) as [l|] eqn:E.
  - apply find_kw_first in E. destruct E as (k0 & F & E). destruct k0; try discriminate. injection E as <-. split.
    + intros I. apply in_map_iff in I. destruct I as ((k1 & s) & <- & I). exists ps, s. split; [|exact I]. eapply first_such_ext; [exact X|exact F].
    + intros (ps' & s & F' & I). assert (Y : find_kw (fun k => match k with VProps ps => Some (map fst ps) | _ => None end) kws = Some (map fst ps')).
      { apply find_kw_first. exists (VProps ps'). split; [|reflexivity]. eapply first_such_ext; [|exact F']. intros x. symmetry. apply X. }
      assert (Y' : find_kw (fun k => match k with VProps ps => Some (map fst ps) | _ => None end) kws = Some (map fst ps)).
      { apply find_kw_first. exists (VProps ps). split; [exact F|reflexivity]. }
      rewrite Y in Y'. injection Y' as <-. apply in_map_iff. exists (k, s). auto.
  - split; [intros []|]. intros (ps & s & (b & a & -> & _) & _). assert (Y := proj1 (find_kw_none _ _ _) E (VProps ps)).
    cbn in Y. assert (In (VProps ps) (b ++ VProps ps :: a)) by (apply in_or_app; right; now left). specialize (Y H). discriminate.
Qed.
Lemma the_patterns_first : forall kws,
  (exists ps, first_such is_patterns kws (VPatterns ps) /\ the_patterns kws = map fst ps) \/
  ((forall ps, ~ first_such is_patterns kws (VPatterns ps)) /\ the_patterns kws = []).
Proof.
  assert (X : forall x, (match x with VPatterns ps => Some (map fst ps) | _ => None end) <> None <-> is_patterns x).
  { intros x. split; [intros N; destruct x; try congruence; eexists; reflexivity|intros (y & ->); discriminate]. }
  intros kws. unfold the_patterns. destruct (find_kw _ kws) as [l|] eqn:E.
  - left. apply find_kw_first in E. destruct E as (k0 & F & E). destruct k0; try discriminate. injection E as <-.
    exists ps. split; [|reflexivity]. eapply first_such_ext; [exact X|exact F].
  - right. split; [|reflexivity]. intros ps (b & a & -> & _). assert (Y := proj1 (find_kw_none _ _ _) E (VPatterns ps)).
    cbn in Y. assert (In (VPatterns ps) (b ++ VPatterns ps :: a)) by (apply in_or_app; right; now left). specialize (Y H). discriminate.
Qed.
Lemma first_such_unique : forall P kws k k', first_such P kws k -> first_such P kws k' -> k = k'.
Proof.
  intros P kws. induction kws as [|x kws IH]; intros k k' (b & a & E & H & N) (b' & a' & E' & H' & N').
  - destruct b; discriminate.
  - destruct b as [|y b], b' as [|y' b']; injection E as E1 E2; injection E' as E1' E2'; subst.
    + reflexivity.
    + exfalso. exact (N' _ (or_introl eq_refl) H).
    + exfalso. exact (N _ (or_introl eq_refl) H').
    + apply IH.
      * exists b, a. split; [reflexivity|]. split; [exact H|]. intros z I. apply N. now right.
      * exists b', a'. split; [exact E2'|]. split; [exact H'|]. intros z I. apply N'. now right.
Qed.
Lemma additional_iff : forall kws k, additional kws k <->
  ~ In k (the_props kws) /\ (join (lit "|") (the_patterns kws) = [] \/ AddProps_Model.search (join (lit "|") (the_patterns kws)) k = Ok false).
Proof.
  intros kws k. unfold additional. split; intros (A & B); split.
  - intros I. apply the_props_first in I. destruct I as (ps & s & F & I). exact (A ps s F I).
  - destruct (the_patterns_first kws) as [(ps & F & ->)|(_ & ->)]; [exact (B ps F)|now left].
  - intros ps s F I. apply A. apply the_props_first. eauto.
  - intros ps F. destruct (the_patterns_first kws) as [(ps' & F' & E)|(N & _)]; [|destruct (N ps F)].
    assert (Q := first_such_unique _ _ _ _ F F'). injection Q as <-. now rewrite E in B.
Qed.
Lemma the_items_some : forall kws n, the_items kws = Some n <-> exists ss, first_such is_items kws (VItemsEach ss) /\ n = length ss.
Proof.
  assert (X : forall x, (match x with VItems _ => Some None | VItemsEach ss => Some (Some (length ss)) | _ => None end) <> None <-> is_items x).
  { intros x. split.
    - intros N. destruct x; try congruence; [left|right]; eexists; reflexivity.
    - intros [(y & ->)|(y & ->)]; discriminate. }
  intros kws n. unfold the_items. split.
  - destruct (find_kw _ kws) as [l|] eqn:E; [|discriminate]. intros ->. apply find_kw_first in E. destruct E as (k0 & F & E).
    destruct k0; try discriminate. injection E as <-. exists ss. split; [|reflexivity]. eapply first_such_ext; [exact X|exact F].
  - intros (ss & F & ->).
    assert (Y : find_kw (fun k => match k with VItems _ => Some None | VItemsEach ss => Some (Some (length ss)) | _ => None end) kws = Some (Some (length ss))).
    { apply find_kw_first. exists (VItemsEach ss). split; [|reflexivity]. eapply first_such_ext; [|exact F]. intros x. symmetry. apply X. }
    now rewrite Y.
Qed.

Lemma located_located : forall p sp p' sp' e, located p sp (located p' sp' e) = located (p ++ p') (sp ++ sp') e.
Proof. intros p sp p' sp' [q sq r i c]. simpl. now rewrite !app_assoc. Qed.

Lemma sget_mem : forall V k (d : list (pystr * V)), smem k d = true <-> exists x, sget k d = Some x.
Proof.
  intros V k d. unfold smem, dmem. change (dget str_eqb k d) with (sget k d). destruct (sget k d); split; intros H; eauto; try discriminate.
  now destruct H.
Qed.

Ltac inv_bind H :=
  match type of H with
  | rbind ?e _ = Ok _ =>
      let E := fresh "E" in let r := fresh "r" in
      assert (E : exists r, e = Ok r) by (destruct e; [eexists; reflexivity|discriminate H]);
      destruct E as (r & E); rewrite E in H; cbn [rbind] in H
  end.

Lemma type_is : forall v t, is_type v t = true <-> of_type t v.
Proof. intros v t. split; [destruct t, v; simpl; intros; try discriminate; constructor|intros []; reflexivity]. Qed.

Lemma same_alike : forall x y, same_value x y = true <-> alike x y.
Proof.
  intros x y. unfold same_value, alike. split.
  - intros X. destruct x, y; try discriminate X; try (right; split; [discriminate|]; split; [discriminate|exact X]).
    left. apply Bool.eqb_prop in X. subst. eauto.
  - intros [(b & -> & ->)|(Nc & Nv & X)]; [apply Bool.eqb_reflx|].
    destruct x, y; try exact X; try (exfalso; eapply Nc; reflexivity); exfalso; eapply Nv; reflexivity.
Qed.
Lemma unique_alike : forall l, unique l = true <-> forall i j x y, i < j -> nth_error l i = Some x -> nth_error l j = Some y -> ~ alike x y.
Proof.
  intros l. induction l as [|x l IH]; cbn [unique].
  - split; [intros _ [|i] j x y _ E; discriminate|reflexivity].
  - rewrite Bool.andb_true_iff, forallb_forall, IH. split.
    + intros (A & B) i j y z L Ey Ez. destruct j as [|j]; [lia|]. destruct i as [|i].
      * injection Ey as <-. change (nth_error l j = Some z) in Ez. apply nth_error_In in Ez. specialize (A z Ez). rewrite <- same_alike. apply Bool.negb_true_iff in A. congruence.
      * apply (B i j); [lia|exact Ey|exact Ez].
    + intros G. split.
      * intros y I. apply In_nth_error in I. destruct I as (j & Ej). apply Bool.negb_true_iff, Bool.not_true_iff_false. rewrite same_alike.
        apply (G 0 (S j)); [lia|reflexivity|exact Ej].
      * intros i j y z L. apply (G (S i) (S j)). lia.
Qed.

(** ** Without defaults *)
Section Plain.
  Variable D : bool -> vschema -> json -> out.
  Variable C : vschema -> json -> Prop.
  Variable R : vschema -> json -> verror -> Prop.
  Hypothesis HD : forall st s v v' es, D st s v = Ok (v', es) -> v' = v /\ (es = [] <-> C s v) /\ (forall e, In e es -> R s v e).

  Hypothesis HB : forall b v, C (SBool b) v <-> b = true.

  Lemma visits_plain : forall stop vs v v' es, visits D stop vs v = Ok (v', es) ->
    v' = v /\ (es = [] <-> forall a sp s x, In (a, sp, s) vs -> child a v = Some x -> C s x) /\
    (forall e, In e es -> exists a sp s x e', In (a, sp, s) vs /\ child a v = Some x /\ R s x e' /\ e = located (step a) sp e').
  Proof.
    intros stop vs. induction vs as [|((a & sp) & s) vs IH]; intros v v' es H; simpl in H.
    { injection H as <- <-. split; [reflexivity|]. split; [split; [intros _ ? ? ? ? []|reflexivity]|intros e []]. }
    destruct (child a v) as [x|] eqn:Ec.
    2:{ apply IH in H. destruct H as (-> & A & B). split; [reflexivity|]. split.
        - rewrite A. split; intros G a' sp' s' x' I' Ec'; [destruct I' as [E|I']; [injection E as -> -> ->; congruence|]|]; eapply G; simpl; eauto.
        - intros e Ie. destruct (B e Ie) as (a' & sp' & s' & x' & e' & I' & G). exists a', sp', s', x', e'. simpl. auto. }
    inv_bind H. destruct r as (x' & es1). destruct (HD _ _ _ _ _ E) as (-> & A & B). rewrite (put_same _ _ _ Ec) in H.
    assert (B1 : forall e, In e (map (located (step a) sp) es1) -> exists a0 sp0 s0 x0 e', In (a0, sp0, s0) ((a, sp, s) :: vs) /\ child a0 v = Some x0 /\ R s0 x0 e' /\ e = located (step a0) sp0 e').
    { intros e Ie. apply in_map_iff in Ie. destruct Ie as (e' & <- & Ie'). exists a, sp, s, x, e'. simpl. auto. }
    rewrite none_map in H. destruct (stop && negb (none es1)) eqn:Es.
    - injection H as <- <-. split; [reflexivity|]. split; [|exact B1].
      rewrite map_nil. apply andb_prop in Es. destruct Es as (_ & N). split.
      + intros ->. discriminate.
      + intros G. apply A. eapply G; [now left|exact Ec].
    - inv_bind H. destruct r as (v2 & es2). injection H as <- <-. destruct (IH _ _ _ E0) as (-> & A2 & B2). split; [reflexivity|]. split.
      + rewrite app_nil, map_nil, A, A2. split.
        * intros (G1 & G2) a' sp' s' x'' [E'|I'] Ec'; [injection E' as <- <- <-; rewrite Ec in Ec'; now injection Ec' as <-|eauto].
        * intros G. split; [eapply G; [now left|exact Ec]|]. intros a' sp' s' x'' I' Ec'. eapply G; [now right; eauto|eauto].
      + intros e Ie. apply in_app_or in Ie. destruct Ie as [Ie|Ie]; [now apply B1|].
        destruct (B2 e Ie) as (a' & sp' & s' & x' & e' & I' & G). exists a', sp', s', x', e'. simpl. auto.
  Qed.

  Lemma names_plain : forall stop s ks es, visit_names D stop s ks = Ok es ->
    (es = [] <-> forall k, In k ks -> C s (JStr k)) /\ (forall e, In e es -> exists k, In k ks /\ R s (JStr k) e).
  Proof.
    intros stop s ks. induction ks as [|k ks IH]; intros es H; simpl in H.
    { injection H as <-. split; [split; [intros _ ? []|reflexivity]|intros e []]. }
    inv_bind H. destruct r as (x' & es1). destruct (HD _ _ _ _ _ E) as (-> & A & B).
    destruct (stop && negb (none es1)) eqn:Es.
    - injection H as <-. apply andb_prop in Es. destruct Es as (_ & N). split.
      + split; [intros ->; discriminate|]. intros G. apply A. apply G. now left.
      + intros e Ie. exists k. simpl. auto.
    - inv_bind H. injection H as <-. destruct (IH _ E0) as (A2 & B2). split.
      + rewrite app_nil, A, A2. split.
        * intros (G1 & G2) k' [<-|I']; auto.
        * intros G. split; [apply G; now left|]. intros k' I'. apply G. now right.
      + intros e Ie. apply in_app_or in Ie. destruct Ie as [Ie|Ie]; [exists k; simpl; auto|].
        destruct (B2 e Ie) as (k' & I' & G). exists k'. simpl. auto.
  Qed.

  Lemma alternatives_plain : forall ss i v v' r, alternatives D i ss v = Ok (v', r) ->
    v' = v /\
    match r with
    | inl es => (forall s, In s ss -> ~ C s v) /\
                (forall e, In e es -> exists j s e', nth_error ss j = Some s /\ R s v e' /\ e = located [] [PIdx (i + j)] e')
    | inr left_ => exists before s, ss = before ++ s :: left_ /\ C s v /\ forall s', In s' before -> ~ C s' v
    end.
  Proof.
    intros ss. induction ss as [|s ss IH]; intros i v v' r H; simpl in H.
    { injection H as <- <-. split; [reflexivity|]. split; [intros ? []|intros ? []]. }
    inv_bind H. destruct r0 as (v1 & es1). destruct (HD _ _ _ _ _ E) as (-> & A & B).
    destruct (none es1) eqn:En.
    - injection H as <- <-. split; [reflexivity|]. exists [], s. apply none_nil in En. split; [reflexivity|]. split; [now apply A|intros ? []].
    - assert (NC : ~ C s v) by (intros X; apply A in X; subst; discriminate).
      inv_bind H. destruct r0 as (v2 & r2). injection H as <- <-. destruct (IH _ _ _ _ E0) as (-> & G). split; [reflexivity|].
      destruct r2 as [es2|left_].
      + destruct G as (G1 & G2). split.
        * intros s' [<-|I']; auto.
        * intros e Ie. apply in_app_or in Ie. destruct Ie as [Ie|Ie].
          -- apply in_map_iff in Ie. destruct Ie as (e' & <- & Ie'). exists 0, s, e'. rewrite PeanoNat.Nat.add_0_r. simpl. auto.
          -- destruct (G2 e Ie) as (j & s' & e' & Hn & Hr & ->). exists (S j), s', e'. replace (i + S j) with (S i + j) by lia. simpl. auto.
      + destruct G as (before & s' & -> & Hc & Hb). exists (s :: before), s'. split; [reflexivity|]. split; [exact Hc|].
        intros s'' [<-|I']; auto.
  Qed.
  Lemma some_valid_plain : forall ss v v' b, some_valid D ss v = Ok (v', b) ->
    v' = v /\ (b = true <-> exists s, In s ss /\ C s v).
  Proof.
    intros ss. induction ss as [|s ss IH]; intros v v' b H; simpl in H.
    { injection H as <- <-. split; [reflexivity|]. split; [discriminate|intros (? & [] & _)]. }
    inv_bind H. destruct r as (v1 & es1). destruct (HD _ _ _ _ _ E) as (-> & A & B).
    inv_bind H. destruct r as (v2 & b2). injection H as <- <-. destruct (IH _ _ _ E0) as (-> & G). split; [reflexivity|].
    rewrite Bool.orb_true_iff, none_nil, A, G. split.
    - intros [X|(s' & I' & X)]; [exists s; simpl; auto|exists s'; simpl; auto].
    - intros (s' & [<-|I'] & X); eauto.
  Qed.

  Lemma some_item_plain : forall s is v v' b, some_item D s is v = Ok (v', b) ->
    v' = v /\ (b = true <-> exists i x, In i is /\ child (Some (PIdx i)) v = Some x /\ C s x).
  Proof.
    intros s is. induction is as [|i is IH]; intros v v' b H; cbn [some_item] in H.
    { injection H as <- <-. split; [reflexivity|]. split; [discriminate|intros (? & ? & [] & _)]. }
    destruct (child (Some (PIdx i)) v) as [x|] eqn:Ec.
    2:{ destruct (IH _ _ _ H) as (-> & A). split; [reflexivity|]. rewrite A. split.
        - intros (j & y & I & G). exists j, y. simpl. tauto.
        - intros (j & y & [<-|I] & Ej & G); [congruence|]. exists j, y. tauto. }
    inv_bind H. destruct r as (x' & es). destruct (HD _ _ _ _ _ E) as (-> & A & _). rewrite (put_same _ _ _ Ec) in H.
    destruct (none es) eqn:En.
    - injection H as <- <-. split; [reflexivity|]. split; [|reflexivity]. intros _. exists i, x. apply none_nil in En. split; [now left|]. split; [exact Ec|now apply A].
    - destruct (IH _ _ _ H) as (-> & A'). split; [reflexivity|]. rewrite A'. split.
      + intros (j & y & I & G). exists j, y. simpl. tauto.
      + intros (j & y & [<-|I] & Ej & G); [|exists j, y; tauto]. rewrite Ec in Ej. injection Ej as <-. apply A in G. subst. discriminate.
  Qed.
  Lemma depends_plain : forall stop ps v v' es, depends D stop ps v = Ok (v', es) ->
    v' = v /\ (es = [] <-> forall d p s x, v = JDict d -> In (p, s) ps -> sget p d = Some x -> C s v) /\
    (forall e, In e es -> exists p s e', In (p, s) ps /\ R s v e' /\ e = located [] [PKey p] e').
  Proof.
    intros stop ps. induction ps as [|(p & s) ps IH]; intros v v' es H; cbn [depends] in H.
    { injection H as <- <-. split; [reflexivity|]. split; [split; [intros _ ? ? ? ? _ []|reflexivity]|intros e []]. }
    destruct (match v with JDict d => smem p d | _ => false end) eqn:M.
    2:{ destruct (IH _ _ _ H) as (-> & A & B). split; [reflexivity|]. split.
        - rewrite A. split; [|intros G d q t x Ev I; eapply G; [exact Ev|now right]].
          intros G d q t x Ev [Eq|I] Eg; [|eapply G; eauto]. injection Eq as <- <-. subst v.
          assert (smem p d = true) by (apply sget_mem; eauto). congruence.
        - intros e Ie. destruct (B e Ie) as (q & t & e' & I & G). exists q, t, e'. simpl. auto. }
    destruct v as [| | | | |d]; try discriminate. apply sget_mem in M. destruct M as (y & Ey).
    inv_bind H. destruct r as (x' & es1). destruct (HD _ _ _ _ _ E) as (-> & A & B).
    assert (B1 : forall e, In e (map (located [] [PKey p]) es1) -> exists q t e', In (q, t) ((p, s) :: ps) /\ R t (JDict d) e' /\ e = located [] [PKey q] e').
    { intros e Ie. apply in_map_iff in Ie. destruct Ie as (e' & <- & Ie'). exists p, s, e'. simpl. auto. }
    rewrite none_map in H. destruct (stop && negb (none es1)) eqn:Es.
    - injection H as <- <-. split; [reflexivity|]. split; [|exact B1]. apply andb_prop in Es. destruct Es as (_ & N). rewrite map_nil. split.
      + intros ->. discriminate.
      + intros G. apply A. eapply G; [reflexivity|now left|exact Ey].
    - inv_bind H. destruct r as (v2 & es2). injection H as <- <-. destruct (IH _ _ _ E0) as (-> & A2 & B2). split; [reflexivity|]. split.
      + rewrite app_nil, map_nil, A, A2. split.
        * intros (G1 & G2) d' q t x Ev [Eq|I] Eg; [injection Eq as <- <-; exact G1|eapply G2; eauto].
        * intros G. split; [eapply G; [reflexivity|now left|exact Ey]|]. intros d' q t x Ev I. eapply G; [exact Ev|now right].
      + intros e Ie. apply in_app_or in Ie. destruct Ie as [Ie|Ie]; [now apply B1|].
        destruct (B2 e Ie) as (q & t & e' & I & G). exists q, t, e'. simpl. auto.
  Qed.

  Lemma matching_in : forall p ks l, matching p ks = Ok l -> forall k, In k l <-> In k ks /\ AddProps_Model.search p k = Ok true.
  Proof.
    intros p ks. induction ks as [|k' ks IH]; intros l H k; simpl in H.
    { injection H as <-. simpl. tauto. }
    inv_bind H. inv_bind H. injection H as <-. specialize (IH _ E0 k). destruct r; simpl; rewrite IH.
    - split; [intros [<-|(I & S)]; auto|intros ([<-|I] & S); auto].
    - split; [intros (I & S); auto|intros ([<-|I] & S); [congruence|auto]].
  Qed.
  Lemma matchings_in : forall ps ks vs, matchings ps ks = Ok vs -> forall a sp s,
    In (a, sp, s) vs <-> exists k p, a = Some (PKey k) /\ sp = [PKey p] /\ In (p, s) ps /\ In k ks /\ AddProps_Model.search p k = Ok true.
  Proof.
    intros ps ks. induction ps as [|(p & s0) ps IH]; intros vs H a sp s; simpl in H.
    { injection H as <-. simpl. split; [tauto|]. intros (k & p & _ & _ & [] & _). }
    inv_bind H. inv_bind H. injection H as <-. rewrite in_app_iff, in_map_iff, (IH _ E0). split.
    - intros [(k & Ek & Ik)|(k & p' & -> & -> & I & G)].
      + injection Ek as <- <- <-. apply (matching_in _ _ _ E) in Ik. exists k, p. simpl. tauto.
      + exists k, p'. simpl. tauto.
    - intros (k & p' & -> & -> & [Ep|I] & Ik & G).
      + injection Ep as -> ->. left. exists k. split; [reflexivity|]. now apply (matching_in _ _ _ E).
      + right. exists k, p'. tauto.
  Qed.

  Lemma extras_in : forall props pats d l,
    AddProps_Model.find_additional_properties props pats (map (fun kv : pystr * json => AddProps_Model.KStr (fst kv)) d) = Ok l ->
    forall k, In (AddProps_Model.KStr k) l <-> In k (map fst d) /\ ~ In k props /\ (join (lit "|") pats = [] \/ AddProps_Model.search (join (lit "|") pats) k = Ok false).
  Proof.
    intros props pats d. induction d as [|(k' & x) d IH]; intros l H k; cbn [map AddProps_Model.find_additional_properties fst] in H.
    { injection H as <-. simpl. tauto. }
    inv_bind H. inv_bind H. injection H as <-. specialize (IH _ E0 k).
    assert (N : AddProps_Model.is_named props (AddProps_Model.KStr k') = true <-> In k' props).
    { simpl. rewrite existsb_exists. split; [intros (y & I & Ey); apply str_eqb_eq in Ey; now subst|intros I; exists k'; rewrite str_eqb_eq; auto]. }
    assert (Z : r = false <-> ~ In k' props /\ (join (lit "|") pats = [] \/ AddProps_Model.search (join (lit "|") pats) k' = Ok false)).
    { destruct (AddProps_Model.is_named props (AddProps_Model.KStr k')).
      - injection E as <-. split; [discriminate|]. intros (X & _). destruct X. now apply N.
      - cbn [AddProps_Model.is_matched] in E. destruct (join (lit "|") pats) as [|c cs].
        + injection E as <-. split; [|reflexivity]. intros _. split; [|now left]. intros I. apply N in I. discriminate.
        + change (AddProps_Model.search (c :: cs) k' = Ok r) in E. rewrite E. split; [intros ->; split; [|now right]; intros I; apply N in I; discriminate|].
          intros (_ & [X|X]); [discriminate|now injection X]. }
    simpl fst. destruct r; simpl; rewrite IH.
    - split; [tauto|]. intros ([<-|I] & G); [|tauto]. exfalso. assert (true = false) by (now apply Z). discriminate.
    - split.
      + intros [X|X]; [injection X as <-|tauto]. split; [now left|]. now apply Z.
      + intros ([<-|I] & G); tauto.
  Qed.
  Lemma extras_text : forall props pats (d : list (pystr * json)) l,
    AddProps_Model.find_additional_properties props pats (map (fun kv : pystr * json => AddProps_Model.KStr (fst kv)) d) = Ok l ->
    forall x, In x l -> x = AddProps_Model.KStr (text_of x).
  Proof.
    intros props pats d. induction d as [|(k' & x) d IH]; intros l H y I; cbn [map AddProps_Model.find_additional_properties fst] in H.
    { injection H as <-. destruct I. }
    inv_bind H. inv_bind H. injection H as <-. destruct r; [exact (IH _ E0 _ I)|]. destruct I as [<-|I]; [reflexivity|exact (IH _ E0 _ I)].
  Qed.

  Lemma sget_some_in : forall V k (d : list (pystr * V)), In k (map fst d) <-> exists x, sget k d = Some x.
  Proof. intros V k d. rewrite <- Tables_Proofs.smem_in. apply sget_mem. Qed.

  (** What is told of the errors of a rule *)
  Definition told (kws : list keyword) (k : keyword) (v : json) (e : verror) : Prop :=
    (exists ctx, e = own k v ctx /\ ~ satisfies C kws k v /\
       forall c, In c ctx -> exists i s c', sub_schema k [PIdx i] s /\ c = located [] [PIdx i] c' /\ R s v c') \/
    (exists a sp s x e', sub_schema k sp s /\ e = located (step a) sp e' /\ R s x e' /\
       (child a v = Some x \/ (a = None /\ exists d n y, v = JDict d /\ sget n d = Some y /\ x = JStr n))).

  Lemma unless_plain : forall kws b k v v' es, unless b k v = Ok (v', es) -> (b = true <-> satisfies C kws k v) ->
    v' = v /\ (es = [] <-> satisfies C kws k v) /\ (forall e, In e es -> told kws k v e).
  Proof.
    intros kws b k v v' es H S. unfold unless in H. injection H as <- <-. split; [reflexivity|]. destruct b.
    - split; [|intros e []]. split; [intros _; now apply S|reflexivity].
    - assert (N : ~ satisfies C kws k v) by (intros X; apply S in X; discriminate). split.
      + split; [discriminate|intros X; now destruct N].
      + intros e [<-|[]]. left. exists []. split; [reflexivity|]. split; [exact N|intros c []].
  Qed.
  Lemma nothing_plain : forall kws k v v' es, @Ok (json * list verror) (v, []) = Ok (v', es) -> satisfies C kws k v ->
    v' = v /\ (es = [] <-> satisfies C kws k v) /\ (forall e, In e es -> told kws k v e).
  Proof. intros kws k v v' es H S. injection H as <- <-. split; [reflexivity|]. split; [tauto|intros e []]. Qed.
  Lemma visits_told : forall stop vs kws k v v' es, visits D stop vs v = Ok (v', es) ->
    (forall a sp s, In (a, sp, s) vs -> sub_schema k sp s) ->
    ((forall a sp s x, In (a, sp, s) vs -> child a v = Some x -> C s x) <-> satisfies C kws k v) ->
    v' = v /\ (es = [] <-> satisfies C kws k v) /\ (forall e, In e es -> told kws k v e).
  Proof.
    intros stop vs kws k v v' es H Sub S. destruct (visits_plain _ _ _ _ _ H) as (-> & A & B). split; [reflexivity|]. split.
    - rewrite A. exact S.
    - intros e Ie. destruct (B e Ie) as (a & sp & s & x & e' & I & Ec & Hr & ->). right. exists a, sp, s, x, e'. eauto 10.
  Qed.

  Lemma rule_plain : forall stop kws k v v' es, rule false false false D stop kws k v = Ok (v', es) ->
    v' = v /\ (es = [] <-> satisfies C kws k v) /\ (forall e, In e es -> told kws k v e).
  Proof.
    intros stop kws k v v' es H. destruct k; cbn [rule] in H.
    - (* type *) eapply unless_plain; [exact H|]. rewrite existsb_exists. simpl.
      split; intros (t & I & T); exists t; (split; [exact I|now apply type_is]).
    - (* enum *) eapply unless_plain; [exact H|]. reflexivity.
    - (* minimum *) eapply unless_plain; [exact H|]. cbn [satisfies]. destruct v; split; intros X; try reflexivity; try (intros ? Y; discriminate).
      + intros ? Y. injection Y as <-. now apply Z.leb_le.
      + apply Z.leb_le. now apply X.
    - (* maximum *) eapply unless_plain; [exact H|]. cbn [satisfies]. destruct v; split; intros X; try reflexivity; try (intros ? Y; discriminate).
      + intros ? Y. injection Y as <-. now apply Z.leb_le.
      + apply Z.leb_le. now apply X.
    - (* minItems *) eapply unless_plain; [exact H|]. cbn [satisfies]. destruct v; split; intros X; try reflexivity; try (intros ? Y; discriminate).
      + intros ? Y. injection Y as <-. now apply PeanoNat.Nat.leb_le.
      + apply PeanoNat.Nat.leb_le. now apply X.
    - (* maxItems *) eapply unless_plain; [exact H|]. cbn [satisfies]. destruct v; split; intros X; try reflexivity; try (intros ? Y; discriminate).
      + intros ? Y. injection Y as <-. now apply PeanoNat.Nat.leb_le.
      + apply PeanoNat.Nat.leb_le. now apply X.
    - (* const *) eapply unless_plain; [exact H|]. apply same_alike.
    - (* exclusiveMinimum *) eapply unless_plain; [exact H|]. cbn [satisfies]. destruct v; split; intros X; try reflexivity; try (intros ? Y; discriminate).
      + intros ? Y. injection Y as <-. now apply Z.ltb_lt.
      + apply Z.ltb_lt. now apply X.
    - (* exclusiveMaximum *) eapply unless_plain; [exact H|]. cbn [satisfies]. destruct v; split; intros X; try reflexivity; try (intros ? Y; discriminate).
      + intros ? Y. injection Y as <-. now apply Z.ltb_lt.
      + apply Z.ltb_lt. now apply X.
    - (* multipleOf *) eapply unless_plain; [exact H|]. cbn [satisfies]. destruct v as [| |n| | |]; split; intros X; try reflexivity; try (intros ? Y; discriminate).
      + intros ? Y. injection Y as <-. apply Z.eqb_eq in X. exists (n / Z.pos p)%Z. rewrite Z.mul_comm. now apply Z.div_exact.
      + apply Z.eqb_eq. destruct (X n eq_refl) as (q & ->). now apply Z.mod_mul.
    - (* minLength *) eapply unless_plain; [exact H|]. cbn [satisfies]. destruct v; split; intros X; try reflexivity; try (intros ? Y; discriminate).
      + intros ? Y. injection Y as <-. now apply PeanoNat.Nat.leb_le.
      + apply PeanoNat.Nat.leb_le. now apply X.
    - (* maxLength *) eapply unless_plain; [exact H|]. cbn [satisfies]. destruct v; split; intros X; try reflexivity; try (intros ? Y; discriminate).
      + intros ? Y. injection Y as <-. now apply PeanoNat.Nat.leb_le.
      + apply PeanoNat.Nat.leb_le. now apply X.
    - (* minProperties *) eapply unless_plain; [exact H|]. cbn [satisfies]. destruct v; split; intros X; try reflexivity; try (intros ? Y; discriminate).
      + intros ? Y. injection Y as <-. now apply PeanoNat.Nat.leb_le.
      + apply PeanoNat.Nat.leb_le. now apply X.
    - (* maxProperties *) eapply unless_plain; [exact H|]. cbn [satisfies]. destruct v; split; intros X; try reflexivity; try (intros ? Y; discriminate).
      + intros ? Y. injection Y as <-. now apply PeanoNat.Nat.leb_le.
      + apply PeanoNat.Nat.leb_le. now apply X.
    - (* uniqueItems *) eapply unless_plain; [exact H|]. cbn [satisfies]. destruct v as [| | | |l|]; try (split; [intros _ _ l0 i j x y E; discriminate|reflexivity]).
      rewrite Bool.orb_true_iff, Bool.negb_true_iff, unique_alike. split.
      + intros [->|X] Eb l0 i j x y El; [discriminate|]. injection El as <-. apply X.
      + intros X. destruct b; [right|now left]. intros i j x y. now apply X.
    - (* pattern *)
      destruct v as [| | |s| |]; try (eapply nothing_plain; [exact H|]; cbn [satisfies]; intros; discriminate).
      inv_bind H. eapply unless_plain; [exact H|]. cbn [satisfies]. split.
      + intros -> s' Es. now injection Es as <-.
      + intros X. specialize (X s eq_refl). congruence.
    - (* required *)
      destruct v as [| | | | |d]; try (eapply nothing_plain; [exact H|]; cbn [satisfies]; intros; discriminate).
      injection H as <- <-. split; [reflexivity|].
      assert (A : flat_map (fun p => if smem p d then [] else [own (VRequired ps) (JDict d) []]) ps = [] <-> satisfies C kws (VRequired ps) (JDict d)).
      { cbn [satisfies]. split.
        - intros F d' p Ed I. injection Ed as <-. apply sget_mem. destruct (smem p d) eqn:M; [reflexivity|].
          assert (Q : In (own (VRequired ps) (JDict d) []) (flat_map (fun p => if smem p d then [] else [own (VRequired ps) (JDict d) []]) ps))
            by (apply in_flat_map; exists p; rewrite M; simpl; auto). rewrite F in Q. destruct Q.
        - intros S. induction ps as [|p ps IH]; [reflexivity|]. change (flat_map ?f (p :: ps)) with (f p ++ flat_map f ps).
          destruct (S d p eq_refl (or_introl eq_refl)) as (x & Ex). assert (M : smem p d = true) by (apply sget_mem; eauto).
          cbn beta. rewrite M. simpl app.
          assert (G : forall q qs, (forall d' p', JDict d = JDict d' -> In p' qs -> exists x, sget p' d' = Some x) ->
             flat_map (fun p0 => if smem p0 d then [] else [own q (JDict d) []]) qs = []).
          { clear. intros q qs G. induction qs as [|a qs IH]; [reflexivity|]. simpl.
            assert (M : smem a d = true) by (apply sget_mem; apply (G d a eq_refl); now left). rewrite M. apply IH.
            intros d' p' E I. apply (G d' p' E). now right. }
          apply G. intros d' p' E I. apply (S d' p' E). now right. }
      split; [exact A|]. intros e Ie. left. exists []. apply in_flat_map in Ie. destruct Ie as (p & I & Ie).
      destruct (smem p d) eqn:M; [destruct Ie|]. destruct Ie as [<-|[]]. split; [reflexivity|]. split; [|intros c []].
      intros S. destruct (S d p eq_refl I) as (x & Ex). assert (smem p d = true) by (apply sget_mem; eauto). congruence.
    - (* dependencies, names *)
      destruct v as [| | | | |d]; try (eapply nothing_plain; [exact H|]; cbn [satisfies]; intros; discriminate).
      injection H as <- <-. split; [reflexivity|].
      assert (T : forall e, In e (flat_map (fun pq => if smem (fst pq) d then flat_map (fun q => if smem q d then [] else [own (VNeeds ps) (JDict d) []]) (snd pq) else []) ps) ->
        e = own (VNeeds ps) (JDict d) [] /\ ~ satisfies C kws (VNeeds ps) (JDict d)).
      { intros e Ie. apply in_flat_map in Ie. destruct Ie as ((p & qs) & Ip & Ie). cbn [fst snd] in Ie.
        destruct (smem p d) eqn:M; [|destruct Ie]. apply in_flat_map in Ie. destruct Ie as (q & Iq & Ie).
        destruct (smem q d) eqn:Mq; [destruct Ie|]. destruct Ie as [<-|[]]. split; [reflexivity|]. cbn [satisfies]. intros S.
        apply sget_mem in M. destruct M as (x & Ex). assert (smem q d = true) by (apply sget_mem; eapply S; eauto). congruence. }
      split; [split|].
      + cbn [satisfies]. intros F d' p qs q x Ed Ip Ex Iq. injection Ed as <-. apply sget_mem. destruct (smem q d) eqn:M; [reflexivity|].
        match type of F with ?l = [] => assert (Q : In (own (VNeeds ps) (JDict d) []) l); [|rewrite F in Q; destruct Q] end. apply in_flat_map. exists (p, qs). split; [exact Ip|].
        cbn [fst snd]. assert (Mp : smem p d = true) by (apply sget_mem; eauto). rewrite Mp. apply in_flat_map. exists q. rewrite M. simpl. auto.
      + intros S. match goal with |- ?l = [] => destruct l as [|e l'] eqn:El; [reflexivity|] end.
        destruct (T e) as (_ & N); [now left|]. now destruct N.
      + intros e Ie. destruct (T e Ie) as (-> & N). left. exists []. split; [reflexivity|]. split; [exact N|intros c []].
    - (* properties *)
      destruct v as [| | | | |d]; try (eapply nothing_plain; [exact H|]; cbn [satisfies]; intros; discriminate).
      cbn [filling orb rbind] in H. eapply visits_told; [exact H| |].
      + intros a sp s I. apply in_map_iff in I. destruct I as ((p & s') & E & I). injection E as <- <- <-. now constructor.
      + cbn [satisfies]. split.
        * intros G d' p s x Ed I Eg. injection Ed as <-. eapply G; [apply in_map_iff; exists (p, s); simpl; eauto|exact Eg].
        * intros S a sp s x I Ec. apply in_map_iff in I. destruct I as ((p & s') & E & I). injection E as <- <- <-. eapply S; eauto.
    - (* patternProperties *)
      destruct v as [| | | | |d]; try (eapply nothing_plain; [exact H|]; cbn [satisfies]; intros; discriminate).
      inv_bind H. eapply visits_told; [exact H| |].
      + intros a sp s I. apply (matchings_in _ _ _ E) in I. destruct I as (k & p & -> & -> & I & _). now constructor.
      + cbn [satisfies]. split.
        * intros G d' p s k x Ed I Eg M. injection Ed as <-. eapply (G (Some (PKey k)) [PKey p]); [|exact Eg].
          apply (matchings_in _ _ _ E). exists k, p. repeat split; auto. apply sget_some_in. eauto.
        * intros S a sp s x I Ec. apply (matchings_in _ _ _ E) in I. destruct I as (k & p & -> & -> & I & _ & M). eapply S; eauto.
    - (* additionalProperties *)
      destruct v as [| | | | |d]; try (eapply nothing_plain; [exact H|]; cbn [satisfies]; intros; discriminate).
      inv_bind H.
      assert (X : forall k, In (AddProps_Model.KStr k) r <-> (exists x, sget k d = Some x) /\ additional kws k).
      { intros k. rewrite (extras_in _ _ _ _ E k), additional_iff. rewrite sget_some_in. reflexivity. }
      assert (T : forall x, In x r -> x = AddProps_Model.KStr (text_of x)) by (exact (extras_text _ _ _ _ E)).
      destruct s as [b|ks].
      + eapply unless_plain; [exact H|]. cbn [satisfies]. destruct b; simpl orb.
        * split; [|reflexivity]. intros _ d' k x Ed Eg A. now apply HB.
        * rewrite none_nil. split.
          -- intros -> d' k x Ed Eg A. injection Ed as <-. exfalso. destruct (proj2 (X k)). eauto.
          -- intros S. destruct r as [|y r]; [reflexivity|]. exfalso. specialize (T y (or_introl eq_refl)).
             destruct (proj1 (X (text_of y))) as ((x & Ex) & A); [left; now symmetry|].
             assert (false = true) by (eapply HB, S; eauto). discriminate.
      + eapply visits_told; [exact H| |].
        * intros a sp s I. apply in_map_iff in I. destruct I as (x & Ex & I). injection Ex as <- <- <-. constructor.
        * cbn [satisfies]. split.
          -- intros G d' k x Ed Eg A. injection Ed as <-. eapply (G (Some (PKey k)) []); [|exact Eg].
             apply in_map_iff. exists (AddProps_Model.KStr k). split; [reflexivity|]. apply X. eauto.
          -- intros S a sp s x I Ec. apply in_map_iff in I. destruct I as (y & Ey & I). injection Ey as <- <- <-.
             rewrite (T y I) in I. apply X in I. eapply S; [reflexivity|exact Ec|tauto].
    - (* propertyNames *)
      destruct v as [| | | | |d]; try (eapply nothing_plain; [exact H|]; cbn [satisfies]; intros; discriminate).
      inv_bind H. injection H as <- <-. destruct (names_plain _ _ _ _ E) as (A & B). split; [reflexivity|]. split.
      + rewrite A. cbn [satisfies]. split.
        * intros G d' k x Ed Eg. injection Ed as <-. apply G. apply sget_some_in. eauto.
        * intros S k I. apply sget_some_in in I. destruct I as (x & Ex). eapply S; eauto.
      + intros e Ie. destruct (B e Ie) as (k & I & Hr). apply sget_some_in in I. destruct I as (x & Ex).
        right. exists None, [], s, (JStr k), e. split; [constructor|]. split; [now destruct e|]. split; [exact Hr|]. right. eauto 10.
    - (* items *)
      destruct v as [| | | |l|]; try (eapply nothing_plain; [exact H|]; cbn [satisfies]; intros; discriminate).
      eapply visits_told; [exact H| |].
      + intros a sp s' I. apply in_map_iff in I. destruct I as (i & E & I). injection E as <- <- <-. constructor.
      + cbn [satisfies]. split.
        * intros G l' x El I. injection El as <-. apply In_nth_error in I. destruct I as (i & Ei). eapply (G (Some (PIdx i)) []); [|exact Ei].
          apply in_map_iff. exists i. split; [reflexivity|]. apply in_seq. split; [lia|]. apply nth_error_Some. congruence.
        * intros S a sp s' x I Ec. apply in_map_iff in I. destruct I as (i & E & I). injection E as <- <- <-.
          eapply S; [reflexivity|]. eapply nth_error_In. exact Ec.
    - (* items, each *)
      destruct v as [| | | |l|]; try (eapply nothing_plain; [exact H|]; cbn [satisfies]; intros; discriminate).
      eapply visits_told; [exact H| |].
      + intros a sp s' I. apply in_map_iff in I. destruct I as ((i & s) & E & I). injection E as <- <- <-.
        apply numbered_in in I. rewrite PeanoNat.Nat.sub_0_r in I. now constructor.
      + cbn [satisfies]. split.
        * intros G l' i s x El Es Ei. injection El as <-. eapply (G (Some (PIdx i)) [PIdx i]); [|exact Ei].
          apply in_map_iff. exists (i, s). split; [reflexivity|]. apply numbered_in. rewrite PeanoNat.Nat.sub_0_r. split; [lia|exact Es].
        * intros S a sp s' x I Ec. apply in_map_iff in I. destruct I as ((i & s) & E & I). injection E as <- <- <-.
          apply numbered_in in I. rewrite PeanoNat.Nat.sub_0_r in I. eapply S; [reflexivity|apply I|exact Ec].
    - (* additionalItems *)
      destruct v as [| | | |l|]; try (eapply nothing_plain; [exact H|]; cbn [satisfies]; intros; discriminate).
      destruct (the_items kws) as [n|] eqn:Ei.
      2: { eapply nothing_plain; [exact H|]. cbn [satisfies]. intros l' ss i x _ F. exfalso.
           assert (Y : the_items kws = Some (length ss)) by (apply the_items_some; eauto). congruence. }
      assert (U : forall ss, first_such is_items kws (VItemsEach ss) -> length ss = n).
      { intros ss F. assert (Y : the_items kws = Some (length ss)) by (apply the_items_some; eauto). congruence. }
      destruct (proj1 (the_items_some _ _) Ei) as (ss0 & F0 & En).
      destruct s as [b|ks].
      + eapply unless_plain; [exact H|]. cbn [satisfies]. destruct b; simpl orb.
        * split; [|reflexivity]. intros _ l' m i x El Em Hi Ex. now apply HB.
        * rewrite PeanoNat.Nat.leb_le. split.
          -- intros L l' m i x El Em Hi Ex. injection El as <-. exfalso. assert (i < length l) by (apply nth_error_Some; congruence).
             apply U in Em. lia.
          -- intros S. destruct (Compare_dec.le_lt_dec (length l) n) as [L|L]; [exact L|]. exfalso.
             destruct (nth_error l n) as [x|] eqn:Ex; [|apply nth_error_None in Ex; lia].
             assert (false = true) by (eapply HB, S; [reflexivity|exact F0| |exact Ex]; lia). discriminate.
      + eapply visits_told; [exact H| |].
        * intros a sp s I. apply in_map_iff in I. destruct I as (i & E & I). injection E as <- <- <-. constructor.
        * cbn [satisfies]. split.
          -- intros G l' m i x El Em Hi Ex. injection El as <-. apply U in Em. eapply (G (Some (PIdx i)) []); [|exact Ex].
             apply in_map_iff. exists i. split; [reflexivity|]. apply in_seq.
             assert (i < length l) by (apply nth_error_Some; congruence). lia.
          -- intros S a sp s x I Ec. apply in_map_iff in I. destruct I as (i & E & I). injection E as <- <- <-. apply in_seq in I.
             eapply S; [reflexivity|exact F0| |exact Ec]. lia.
    - (* anyOf *)
      inv_bind H. destruct r as (v1 & r). injection H as <- <-. destruct (alternatives_plain _ _ _ _ _ E) as (-> & G). split; [reflexivity|].
      destruct r as [es1|left_].
      + destruct G as (G1 & G2).
        assert (N : ~ satisfies C kws (VAnyOf ss) v) by (intros (s & I & X); exact (G1 s I X)). split.
        * split; [discriminate|intros X; now destruct N].
        * intros e [<-|[]]. left. exists es1. split; [reflexivity|]. split; [exact N|]. intros c Ic.
          destruct (G2 c Ic) as (j & s & e' & Hn & Hr & ->). exists j, s, e'. split; [now constructor|]. auto.
      + split; [|intros e []]. split; [|reflexivity]. intros _. destruct G as (before & s & -> & Hc & _). exists s. split; [|exact Hc].
        apply in_or_app. right. now left.
    - (* allOf *)
      eapply visits_told; [exact H| |].
      + intros a sp s' I. apply in_map_iff in I. destruct I as ((i & s) & E & I). injection E as <- <- <-.
        apply numbered_in in I. rewrite PeanoNat.Nat.sub_0_r in I. now constructor.
      + cbn [satisfies]. split.
        * intros G s I. apply In_nth_error in I. destruct I as (i & Ei). eapply (G None [PIdx i]); [|reflexivity].
          apply in_map_iff. exists (i, s). split; [reflexivity|]. apply numbered_in. rewrite PeanoNat.Nat.sub_0_r. split; [lia|exact Ei].
        * intros S a sp s' x I Ec. apply in_map_iff in I. destruct I as ((i & s) & E & I). injection E as <- <- <-.
          simpl in Ec. injection Ec as <-. apply numbered_in in I. apply S. eapply nth_error_In. apply I.
    - (* oneOf *)
      inv_bind H. destruct r as (v1 & r). destruct (alternatives_plain _ _ _ _ _ E) as (-> & G).
      destruct r as [es1|left_].
      + injection H as <- <-. split; [reflexivity|]. destruct G as (G1 & G2).
        assert (N : ~ satisfies C kws (VOneOf ss) v).
        { intros (i & s & Hn & X & _). exact (G1 s (nth_error_In _ _ Hn) X). }
        split.
        * split; [discriminate|intros X; now destruct N].
        * intros e [<-|[]]. left. exists es1. split; [reflexivity|]. split; [exact N|]. intros c Ic.
          destruct (G2 c Ic) as (j & s & e' & Hn & Hr & ->). exists j, s, e'. split; [now constructor|]. auto.
      + inv_bind H. destruct r as (v2 & more). injection H as <- <-. destruct (some_valid_plain _ _ _ _ E0) as (-> & M). split; [reflexivity|].
        destruct G as (before & s & -> & Hc & Hb).
        assert (A : more = false <-> satisfies C kws (VOneOf (before ++ s :: left_)) v).
        { cbn [satisfies]. split.
          - intros Mf. exists (length before), s. split; [rewrite nth_error_app2 by lia; rewrite PeanoNat.Nat.sub_diag; reflexivity|].
            split; [exact Hc|]. intros j s' Hn X. destruct (Compare_dec.lt_eq_lt_dec j (length before)) as [[L|Q]|L]; [| exact Q|].
            + rewrite nth_error_app1 in Hn by lia. destruct (Hb s' (nth_error_In _ _ Hn) X).
            + rewrite nth_error_app2 in Hn by lia. destruct (j - length before) as [|q] eqn:Q; [lia|]. simpl in Hn.
              assert (more = true) by (apply M; exists s'; split; [exact (nth_error_In _ _ Hn)|exact X]). congruence.
          - intros (i & s' & Hn & X & U). destruct more; [|reflexivity]. destruct (proj1 M eq_refl) as (s'' & I & X'').
            apply In_nth_error in I. destruct I as (q & Hq).
            assert (length before + S q = i).
            { apply (U _ s''); [|exact X'']. rewrite nth_error_app2 by lia. replace (length before + S q - length before) with (S q) by lia. exact Hq. }
            assert (length before = i).
            { apply (U _ s); [|exact Hc]. rewrite nth_error_app2 by lia. rewrite PeanoNat.Nat.sub_diag. reflexivity. }
            lia. }
        rewrite <- A. split.
        * destruct more; split; intros; try discriminate; reflexivity.
        * intros e Ie. destruct more; [|destruct Ie]. destruct Ie as [<-|[]]. left. exists []. split; [reflexivity|]. split; [rewrite <- A; discriminate|intros c []].
    - (* not *)
      inv_bind H. destruct r as (v1 & es1). injection H as <- <-. destruct (HD _ _ _ _ _ E) as (-> & A & _). split; [reflexivity|].
      cbn [satisfies]. rewrite <- A. destruct es1 as [|e1 es1]; simpl.
      + split; [split; [discriminate|intros X; now destruct X]|]. intros e [<-|[]]. left. exists []. split; [reflexivity|].
        split; [cbn [satisfies]; rewrite <- A; intros X; now apply X|intros c []].
      + split; [split; [intros _; discriminate|reflexivity]|intros e []].
    - (* contains *)
      destruct v as [| | | |l|]; try (eapply nothing_plain; [exact H|]; cbn [satisfies]; intros; discriminate).
      inv_bind H. destruct r as (v1 & b). injection H as <- <-. destruct (some_item_plain _ _ _ _ _ E) as (-> & A). split; [reflexivity|].
      assert (S : b = true <-> satisfies C kws (VContains s) (JList l)).
      { rewrite A. cbn [satisfies child]. split.
        - intros (i & x & _ & Ex & G) l' El. injection El as <-. exists x. split; [|exact G]. eapply nth_error_In. exact Ex.
        - intros G. destruct (G l eq_refl) as (x & I & X). apply In_nth_error in I. destruct I as (i & Ei). exists i, x. split; [|auto].
          apply in_seq. split; [lia|]. apply nth_error_Some. congruence. }
      rewrite <- S. destruct b.
      + split; [tauto|intros e []].
      + split; [split; discriminate|]. intros e [<-|[]]. left. exists []. split; [reflexivity|]. split; [rewrite <- S; discriminate|intros c []].
    - (* dependencies, schemas *)
      destruct (depends_plain _ _ _ _ _ H) as (-> & A & B). split; [reflexivity|]. split; [exact A|].
      intros e Ie. destruct (B e Ie) as (p & s & e' & Ip & Hr & ->). right. exists None, [PKey p], s, v, e'.
      split; [now constructor|]. split; [reflexivity|]. split; [exact Hr|now left].
    - (* if *)
      inv_bind H. destruct r as (v1 & es1). destruct (HD _ _ _ _ _ E) as (-> & A & _). destruct (none es1) eqn:En.
      + apply none_nil in En. assert (Y := proj1 A En). eapply visits_told; [exact H| |].
        * intros a sp s [I|[]]. injection I as <- <- <-. constructor.
        * cbn [satisfies]. split.
          -- intros G. split; [|tauto]. intros _. eapply (G None); [now left|reflexivity].
          -- intros (G & _) a sp s x [I|[]] Ec. injection I as <- <- <-. injection Ec as <-. auto.
      + assert (Y : ~ C c v) by (intros X; apply A in X; subst; discriminate). eapply visits_told; [exact H| |].
        * intros a sp s [I|[]]. injection I as <- <- <-. constructor.
        * cbn [satisfies]. split.
          -- intros G. split; [tauto|]. intros _. eapply (G None); [now left|reflexivity].
          -- intros (_ & G) a sp s x [I|[]] Ec. injection I as <- <- <-. injection Ec as <-. auto.
    - eapply nothing_plain; [exact H|exact I].
    - eapply nothing_plain; [exact H|exact I].
    - eapply nothing_plain; [exact H|exact I].
    - eapply nothing_plain; [exact H|exact I].
    - eapply nothing_plain; [exact H|exact I].
    - eapply nothing_plain; [exact H|exact I].
  Qed.
End Plain.

(** ** Where errors are *)
Lemma step_path : forall a p v x, child a v = Some x -> at_path (step a ++ p) v = at_path p x.
Proof.
  intros [[k|i]|] p v x H; simpl in *.
  - destruct v; try discriminate. now rewrite H.
  - destruct v; try discriminate. now rewrite H.
  - now injection H as ->.
Qed.
Lemma leads_up : forall defs kws k sp s p n t, (forall r, ~ In (VRef r) kws) -> In k kws -> sub_schema k sp s -> leads defs s p n t ->
  leads defs (SObj kws) ([PKey (name_of k)] ++ sp ++ p) (S n) t.
Proof. intros. simpl. eapply leads_sub; eauto. Qed.

(** What a path leads to, or the name of a property that it is *)
Definition leads_to (p : list part) (v w : json) : Prop :=
  at_path p v = Some w \/ (exists d k x, at_path p v = Some (JDict d) /\ sget k d = Some x /\ w = JStr k).
Lemma leads_to_up : forall a v x p w,
  child a v = Some x \/ (a = None /\ exists d n y, v = JDict d /\ sget n d = Some y /\ x = JStr n) ->
  leads_to p x w -> leads_to (step a ++ p) v w.
Proof.
  intros a v x p w [Ec|(-> & d & n & y & -> & Ey & ->)] L.
  - unfold leads_to. now rewrite (step_path _ _ _ _ Ec).
  - assert (T : forall z, at_path p (JStr n) = Some z -> p = [] /\ z = JStr n).
    { intros z Ez. destruct p as [|[k|i] p]; simpl in Ez; try discriminate. now injection Ez as <-. }
    destruct L as [L|(d' & k & x & L & _)]; apply T in L; destruct L as (-> & L); [|discriminate].
    subst w. right. exists d, n, y. simpl. auto.
Qed.

Lemma right_up : forall defs n kws k v e, (forall r, ~ In (VRef r) kws) -> In k kws ->
  told (conforms defs n) (right_error defs n) kws k v e ->
  right_error defs (S n) (SObj kws) v (located [] [PKey (name_of k)] e).
Proof.
  intros defs n kws k v e Hr Hk [(ctx & -> & N & H)|(a & sp & s & x & e' & Hs & -> & R & Hc)].
  - simpl. change [PKey (name_of k)] with ([] ++ [PKey (name_of k)]).
    eapply right_keyword with (m := 0) (c := n); [now left|constructor|reflexivity|exact Hr|exact Hk|exact N|].
    intros c Ic. destruct (H c Ic) as (i & s & [q sq r u cs] & Hs & -> & R). exists i, s, q, sq, r, u, cs. auto.
  - rewrite located_located. inversion R as [n0 s0 v0 p sp' w m L Ld Lt|n0 s0 v0 p sp' w m kws' k' c ctx L Ld En Hr' Hk' N Hx]; subst; simpl.
    + eapply right_false with (m := S m); [exact (leads_to_up _ _ _ _ _ Hc L)| |lia].
      change (PKey (name_of k) :: sp ++ sp') with ([PKey (name_of k)] ++ sp ++ sp'). eapply leads_up; eauto.
    + replace (PKey (name_of k) :: sp ++ sp' ++ [PKey (name_of k')]) with (([PKey (name_of k)] ++ sp ++ sp') ++ [PKey (name_of k')])
        by (simpl; now rewrite <- !app_assoc).
      eapply right_keyword with (m := S m) (c := c); [exact (leads_to_up _ _ _ _ _ Hc L)| |reflexivity|exact Hr'|exact Hk'|exact N|exact Hx].
      eapply leads_up; eauto.
Qed.

Section Keywords.
  Variable D : bool -> vschema -> json -> out.
  Variable C : vschema -> json -> Prop.
  Variable R : vschema -> json -> verror -> Prop.
  Hypothesis HD : forall st s v v' es, D st s v = Ok (v', es) -> v' = v /\ (es = [] <-> C s v) /\ (forall e, In e es -> R s v e).
  Hypothesis HB : forall b v, C (SBool b) v <-> b = true.

  Lemma keywords_plain : forall stop kws todo v v' es, keywords false false false D stop kws todo v = Ok (v', es) ->
    v' = v /\ (es = [] <-> forall k, In k todo -> satisfies C kws k v) /\
    (forall e, In e es -> exists k e', In k todo /\ e = located [] [PKey (name_of k)] e' /\ told C R kws k v e').
  Proof.
    intros stop kws todo. induction todo as [|k todo IH]; intros v v' es H; simpl in H.
    { injection H as <- <-. split; [reflexivity|]. split; [split; [intros _ ? []|reflexivity]|intros e []]. }
    inv_bind H. destruct r as (v1 & es1). destruct (rule_plain D C R HD HB _ _ _ _ _ _ E) as (-> & A & B).
    assert (B1 : forall e, In e (map (located [] [PKey (name_of k)]) es1) -> exists k0 e', In k0 (k :: todo) /\ e = located [] [PKey (name_of k0)] e' /\ told C R kws k0 v e').
    { intros e Ie. apply in_map_iff in Ie. destruct Ie as (e' & <- & Ie'). exists k, e'. simpl. auto. }
    rewrite none_map in H. destruct (stop && negb (none es1)) eqn:Es.
    - injection H as <- <-. split; [reflexivity|]. split; [|exact B1].
      rewrite map_nil. apply andb_prop in Es. destruct Es as (_ & N). split.
      + intros ->. discriminate.
      + intros G. apply A. apply G. now left.
    - inv_bind H. destruct r as (v2 & es2). injection H as <- <-. destruct (IH _ _ _ E0) as (-> & A2 & B2). split; [reflexivity|]. split.
      + rewrite app_nil, map_nil, A, A2. split.
        * intros (G1 & G2) k' [<-|I']; auto.
        * intros G. split; [apply G; now left|]. intros k' I'. apply G. now right.
      + intros e Ie. apply in_app_or in Ie. destruct Ie as [Ie|Ie]; [now apply B1|].
        destruct (B2 e Ie) as (k' & e' & I' & G). exists k', e'. simpl. auto.
  Qed.
End Keywords.

Lemma right_ref : forall defs n kws r s v e, first_such is_ref kws (VRef r) -> sget r defs = Some s -> right_error defs n s v e -> right_error defs (S n) (SObj kws) v e.
Proof.
  intros defs n kws r s v e Hr Hs R. inversion R as [n0 s0 v0 p sp' w m L Ld Lt|n0 s0 v0 p sp' w m kws' k' c ctx L Ld En Hr' Hk' N Hx]; subst.
  - eapply right_false with (m := S m); [exact L| |lia]. eapply leads_ref; eauto.
  - eapply right_keyword with (m := S m) (c := c); eauto. eapply leads_ref; eauto.
Qed.

Lemma iter_plain : forall defs n stop s v v' es, iter_errors false false false defs n stop s v = Ok (v', es) ->
  v' = v /\ (es = [] <-> conforms defs n s v) /\ (forall e, In e es -> right_error defs n s v e).
Proof.
  intros defs n. induction n as [|n IH]; intros stop s v v' es H; simpl in H; [discriminate|].
  destruct s as [b|kws].
  - destruct b; injection H as <- <-; (split; [reflexivity|]); simpl.
    + split; [tauto|intros e []].
    + split; [split; discriminate|]. intros e [<-|[]]. eapply right_false with (m := 0); [now left|constructor|lia].
  - cbn [conforms]. destruct (the_ref kws) as [r|] eqn:Er.
    + destruct (sget r defs) as [s|] eqn:Es; [|discriminate]. destruct (IH _ _ _ _ _ H) as (-> & A & B). split; [reflexivity|]. split.
      * apply the_ref_some in Er. rewrite A. split.
        -- intros X. split.
           ++ intros r' F. assert (Q := first_such_unique _ _ _ _ Er F). injection Q as <-. exists s. auto.
           ++ intros N. exfalso. destruct Er as (b & a & -> & _). apply (N r). apply in_or_app. right. now left.
        -- intros (X & _). destruct (X r Er) as (s' & E' & X'). rewrite Es in E'. now injection E' as <-.
      * intros e Ie. eapply right_ref; eauto. now apply the_ref_some.
    + destruct (keywords_plain _ (conforms defs n) (right_error defs n) IH (fun b v => match n with O => iff_refl _ | S _ => iff_refl _ end) _ _ _ _ _ _ H) as (-> & A & B).
      assert (Nr := proj1 (the_ref_none _) Er). split; [reflexivity|]. split.
      * rewrite A. split.
        -- intros X. split; [|auto]. intros r (b & a & -> & _). exfalso. apply (Nr r). apply in_or_app. right. now left.
        -- intros (_ & X). exact (X Nr).
      * intros e Ie. destruct (B e Ie) as (k & e' & Ik & -> & T). now apply right_up.
Qed.
