(** * Visiting schemas: what properties are filled with *)
From Coq Require Import String Lia.
From Verif Require Import PyBase PyBase_Proofs Json Pandel_Model Pandel_Proofs Visit_Model Visit_Spec Visit_Proofs Visit2_Proofs.

(** ** Finding the keywords with values *)
Definition selects (sel : keyword -> option json) (key : json -> keyword) : Prop := forall k v, sel k = Some v <-> k = key v.
Lemma says_find : forall sel key kws v, selects sel key -> (find_kw sel kws = Some v <-> says key kws v).
Proof.
  intros sel key kws v S. assert (X : forall k, sel k <> None <-> of_kind key k).
  { intros k. split.
    - intros N. destruct (sel k) as [w|] eqn:E; [|congruence]. exists w. now apply S.
    - intros (w & ->). rewrite (proj2 (S (key w) w) eq_refl). discriminate. }
  rewrite find_kw_first. unfold says. split.
  - intros (k & F & E). apply S in E. subst k. eapply first_such_ext; [exact X|exact F].
  - intros F. exists (key v). split; [|now apply S]. eapply first_such_ext; [|exact F]. intros k. symmetry. apply X.
Qed.
Lemma truthy_falsy : forall v, first_defined (Some v) false = true <-> ~ falsy v.
Proof.
  intros v. unfold falsy. split.
  - intros H I. simpl in I. repeat (destruct I as [<-|I]; [discriminate H|]). exact I.
  - intros N. destruct v as [|b|z|s|l|d]; simpl in *.
    + exfalso. tauto.
    + destruct b; [reflexivity|exfalso; tauto].
    + destruct (Z.eqb_spec z 0) as [->|E]; [exfalso; tauto|reflexivity].
    + destruct s; [exfalso; tauto|reflexivity].
    + destruct l; [exfalso; tauto|reflexivity].
    + destruct d; [exfalso; tauto|reflexivity].
Qed.
Lemma set_on_iff : forall sel key flag kws, selects sel key -> (first_defined (find_kw sel kws) flag = true <-> set_on key flag kws).
Proof.
  intros sel key flag kws S. unfold set_on. destruct (find_kw sel kws) as [v|] eqn:E.
  - assert (F := proj1 (says_find _ _ _ _ S) E).
    assert (U : forall w, says key kws w -> w = v) by (intros w Hw; apply (says_find _ _ _ _ S) in Hw; congruence).
    destruct (is_null v) eqn:Nv.
    + assert (v = JNull) as -> by (destruct v; try discriminate; reflexivity). simpl. split.
      * intros ->. right. auto.
      * intros [(w & Hw & N)|(-> & _)]; [|reflexivity]. apply U in Hw. subst w. exfalso. apply N. now left.
    + assert (Q : first_defined (Some v) flag = first_defined (Some v) false) by (destruct v; try reflexivity; discriminate).
      rewrite Q, truthy_falsy. split.
      * intros N. left. eauto.
      * intros [(w & Hw & N)|(_ & H)]; [apply U in Hw; now subst w|]. rewrite (H v F) in Nv. discriminate.
  - assert (N : forall w, ~ says key kws w) by (intros w Hw; apply (says_find _ _ _ _ S) in Hw; congruence). simpl. split.
    + intros ->. right. split; [reflexivity|]. intros w Hw. destruct (N w Hw).
    + intros [(w & Hw & _)|(-> & _)]; [destruct (N w Hw)|reflexivity].
Qed.
Lemma nullable_iff : forall kws, null_in_type (the_type kws) = true <-> nullable kws.
Proof.
  intros kws. unfold nullable, the_type.
  assert (X : forall ts, find_kw (fun k => match k with VType ts => Some ts | _ => None end) kws = Some ts <-> first_such (fun k => exists ts, k = VType ts) kws (VType ts)).
  { assert (Y : forall k, (match k with VType ts => Some ts | _ => None end) <> None <-> exists ts, k = VType ts).
    { intros k. split; [intros N; destruct k; try congruence; eexists; reflexivity|intros (y & ->); discriminate]. }
    intros ts. rewrite find_kw_first. split.
    - intros (k & F & E). destruct k; try discriminate. injection E as ->. eapply first_such_ext; [exact Y|exact F].
    - intros F. exists (VType ts). split; [|reflexivity]. eapply first_such_ext; [|exact F]. intros k. symmetry. apply Y. }
  split.
  - destruct (find_kw _ kws) as [ts|] eqn:E; [|discriminate]. intros H. simpl in H. apply existsb_exists in H. destruct H as (t & I & Et).
    exists ts. split; [now apply X|]. destruct t; try discriminate. exact I.
  - intros (ts & F & I). apply X in F. rewrite F. simpl. apply existsb_exists. exists TNull. split; [exact I|reflexivity].
Qed.
Ltac selecting :=
  let k := fresh in let w := fresh in let H := fresh in
  intros k w; split; [intros H; destruct k; try discriminate; now injection H as ->|intros ->; reflexivity].

Section Filling.
  Variables ad adn arn : bool.

  Lemma fill_property_becomes : forall p sub d d', fill_property ad adn arn p (SObj sub) d = Ok d' ->
    becomes ad adn arn sub (sget p d) (sget p d') /\ forall k, k <> p -> sget k d' = sget k d.
  Proof.
    intros p sub d d' H. unfold fill_property in H.
    assert (S0 : forall v, the_default sub = Some v <-> says VDefault sub v) by (intros v; apply says_find; selecting).
    assert (S1 : first_defined (the_auto sub) ad = true <-> set_on VAutoDefault ad sub) by (apply set_on_iff; selecting).
    assert (S2 : first_defined (the_auto_null sub) adn = true <-> set_on VAutoDefaultNull adn sub) by (apply set_on_iff; selecting).
    assert (S3 : first_defined (the_remove_null sub) arn = true <-> set_on VAutoRemoveNull arn sub) by (apply set_on_iff; selecting).
    assert (S4 := nullable_iff sub).
    set (given := sget p d) in *.
    assert (G : (match given with Some v => is_null v | None => false end) = true <-> given = Some JNull).
    { destruct given as [v|]; [|split; discriminate]. split; [intros E; destruct v; try discriminate; reflexivity|intros E; injection E as ->; reflexivity]. }
    assert (G0 : (match given with None => true | Some _ => false end) = true <-> given = None) by (destruct given; split; congruence).
    assert (W : (first_defined (the_auto sub) ad && match given with None => true | Some _ => false end)
      || (first_defined (the_auto_null sub) adn && negb (null_in_type (the_type sub)) && match given with Some v => is_null v | None => false end) = true
      <-> takes_default ad adn sub given).
    { unfold takes_default. rewrite Bool.orb_true_iff, !Bool.andb_true_iff, Bool.negb_true_iff, <- Bool.not_true_iff_false, S1, S2, S4, G, G0. tauto. }
    assert (V : first_defined (the_remove_null sub) arn && negb (null_in_type (the_type sub)) && match given with Some v => is_null v | None => false end = true
      <-> goes arn sub given).
    { unfold goes. rewrite !Bool.andb_true_iff, Bool.negb_true_iff, <- Bool.not_true_iff_false, S3, S4, G. tauto. }
    cbv zeta in H. destruct (_ || _) in H, W; destruct (_ && _ && _) in H, V; destruct (the_default sub) as [w|] eqn:Ed; injection H as <-;
      (split; [|intros k Nk; solve [reflexivity|apply sget_sset_neq; congruence|apply sget_sdel_neq; congruence]]).
    all: try (rewrite sget_sset_eq; apply b_default; [now apply S0|now apply W]).
    all: try (rewrite sget_sdel_eq; apply b_gone; [intros v Hv; apply S0 in Hv; try discriminate; intros T; apply W in T; discriminate|now apply V]).
    all: apply b_kept; [intros v Hv; apply S0 in Hv; try discriminate; intros T; apply W in T; discriminate|intros T; apply V in T; discriminate].
  Qed.

  Lemma fill_properties_becomes : forall ps d d', NoDup (map fst ps) -> fill_properties ad adn arn ps d = Ok d' ->
    (forall p sub, In (p, SObj sub) ps -> becomes ad adn arn sub (sget p d) (sget p d')) /\
    (forall k, ~ In k (map fst ps) -> sget k d' = sget k d).
  Proof.
    intros ps. induction ps as [|(p & s) ps IH]; intros d d' N H; cbn [fill_properties] in H.
    - injection H as <-. split; [intros p sub []|reflexivity].
    - inv_bind H. inversion N as [|p0 l0 Np N']; subst. destruct (IH _ _ N' H) as (A & B). destruct s as [b|sub0]; [discriminate E|].
      destruct (fill_property_becomes _ _ _ _ E) as (A1 & B1). split.
      + intros q sub [Eq|I].
        * injection Eq as -> ->. rewrite (B q Np). exact A1.
        * assert (Q : q <> p) by (intros ->; apply Np; apply in_map_iff; exists (p, SObj sub); auto). specialize (A q sub I). now rewrite B1 in A.
      + intros k Nk. simpl in Nk. rewrite B by tauto. apply B1. intros ->. tauto.
  Qed.

  Lemma visits_both : forall (D : bool -> vschema -> json -> out) stop ps d v' es,
    (forall st s v v' es, D st s v = Ok (v', es) -> grown v v') -> NoDup (map fst ps) ->
    visits D stop (map (fun ps : pystr * vschema => (Some (PKey (fst ps)), [PKey (fst ps)], snd ps)) ps) (JDict d) = Ok (v', es) ->
    exists e, v' = JDict e /\ (forall k, both_grown (sget k d) (sget k e)) /\ (forall k, ~ In k (map fst ps) -> sget k e = sget k d).
  Proof.
    intros D stop ps d v' es HD. assert (Z : forall x, both_grown x x) by (intros [x|]; constructor; constructor).
    revert d v' es. induction ps as [|(p & s) ps IH]; intros d v' es N H; cbn [map visits fst snd] in H.
    - injection H as <- <-. exists d. auto.
    - inversion N as [|p0 l0 Np N']; subst. cbn [child] in H. destruct (sget p d) as [x|] eqn:Ex.
      + inv_bind H. destruct r as (x' & es1). apply HD in E. cbn [put] in H.
        assert (O : forall k, both_grown (sget k d) (sget k (sset p x' d))).
        { intros k. destruct (list_eq_dec N.eq_dec p k) as [<-|K]; [rewrite Ex, sget_sset_eq; now constructor|]. rewrite sget_sset_neq by exact K. apply Z. }
        destruct (_ && _).
        * injection H as <- <-. exists (sset p x' d). split; [reflexivity|]. split; [exact O|].
          intros k Nk. apply sget_sset_neq. intros ->. apply Nk. now left.
        * inv_bind H. destruct r as (v2 & es2). injection H as <- <-. destruct (IH _ _ _ N' E0) as (e & -> & A & B). exists e. split; [reflexivity|]. split.
          -- intros k. destruct (list_eq_dec N.eq_dec p k) as [<-|K].
             ++ rewrite (B p Np). apply O.
             ++ specialize (A k). now rewrite sget_sset_neq in A by exact K.
          -- intros k Nk. simpl in Nk. rewrite B by tauto. apply sget_sset_neq. intros ->. tauto.
      + destruct (IH _ _ _ N' H) as (e & -> & A & B). exists e. split; [reflexivity|]. split; [exact A|]. intros k Nk. apply B. simpl in Nk. tauto.
  Qed.
End Filling.

Lemma iter_filled : forall ad adn arn defs n stop ps d v' es,
  ad || adn || arn = true -> NoDup (map fst ps) -> iter_errors ad adn arn defs n stop (SObj [VProps ps]) (JDict d) = Ok (v', es) ->
  exists e, v' = JDict e /\
    (forall p sub, In (p, SObj sub) ps -> exists x, becomes ad adn arn sub (sget p d) x /\ both_grown x (sget p e)) /\
    (forall k, ~ In k (map fst ps) -> sget k e = sget k d).
Proof.
  intros ad adn arn defs [|n] stop ps d v' es F N H; [discriminate|]. cbn [iter_errors the_ref find_kw keywords rule] in H.
  unfold filling in H. rewrite F in H. inv_bind H. destruct r as (v1 & es1). inv_bind E.
  destruct (fill_properties_becomes ad adn arn _ _ _ N E0) as (A & B).
  destruct (visits_both _ _ _ _ _ _ (fun st s v v' es X => proj1 (iter_grown _ _ _ _ _ _ _ _ _ _ X)) N E) as (e & -> & A2 & B2).
  assert (v' = JDict e) as ->.
  { destruct (_ && _) in H; [now injection H as <- <-|]. simpl in H. now injection H as <- <-. }
  exists e. split; [reflexivity|]. split.
  - intros p sub I. exists (sget p r). split; [now apply A|apply A2].
  - intros k Nk. rewrite B2 by exact Nk. now apply B.
Qed.
