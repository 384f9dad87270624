(** * The two models of the visitor agree: proofs *)
From Coq Require Import String Lia.
From Verif Require Import PyBase PyBase_Proofs Json Pandel_Model Pandel_Proofs Visit_Model Visit_Spec Visit_Proofs Agree_Spec.

Lemma checkless_more : forall n s, checkless n s -> forall m, n <= m -> checkless m s.
Proof.
  intros n. induction n as [|n IH]; intros s H m L; inversion H as [n0 s0 A B]; subst; constructor; auto; intros ps p sub I J;
    destruct (B ps p sub I J) as (n' & E & C); [discriminate|]. injection E as <-. destruct m as [|m]; [lia|]. exists m. split; [reflexivity|]. apply (IH _ C). lia.
Qed.

Lemma same_located : forall p sp es es', Forall2 same_error es es' -> Forall2 same_error es (map (located p sp) es').
Proof. intros p sp es es' H. induction H as [|e e' es es' S H IH]; constructor; [|exact IH]. destruct S; simpl; now constructor. Qed.

Lemma find_as : forall A (sel : keyword -> option A) (sel' : kw -> option A) s, (forall k, sel (as_keyword k) = sel' k) -> find_kw sel (map as_keyword s) = kw_get sel' s.
Proof. intros A sel sel' s H. induction s as [|k s IH]; simpl; [reflexivity|]. rewrite H, IH. reflexivity. Qed.
Lemma no_ref : forall s, the_ref (map as_keyword s) = None.
Proof. intros s. unfold the_ref. rewrite (find_as _ _ (fun _ => None)); [|now intros []]. induction s; auto. Qed.

Section Agree.
  Variables ad adn arn : bool.
  Variable other : nat -> json -> list nat.

  Lemma fill_property_as : forall p sub d, fill_property ad adn arn p (as_schema sub) d = Ok (fill_prop ad adn arn p sub d).
  Proof.
    intros p sub d. unfold fill_property, as_schema, fill_prop, the_default, the_auto, the_auto_null, the_remove_null, the_type, get_default, get_auto, get_auto_null, get_remove_null, get_type.
    rewrite !(find_as _ _ (fun k => match k with KDefault v => Some v | _ => None end)) by (now intros []).
    rewrite !(find_as _ _ (fun k => match k with KAutoDefault v => Some v | _ => None end)) by (now intros []).
    rewrite !(find_as _ _ (fun k => match k with KAutoDefaultNull v => Some v | _ => None end)) by (now intros []).
    rewrite !(find_as _ _ (fun k => match k with KAutoRemoveNull v => Some v | _ => None end)) by (now intros []).
    rewrite !(find_as _ _ (fun k => match k with KType v => Some v | _ => None end)) by (now intros []).
    reflexivity.
  Qed.
  Lemma fill_properties_as : forall ps d,
    fill_properties ad adn arn (map (fun ps => (fst ps, SObj (map as_keyword (snd ps)))) ps) d = Ok (fold_left (fun d ps => fill_prop ad adn arn (fst ps) (snd ps) d) ps d).
  Proof.
    induction ps as [|(p & sub) ps IH]; intros d; [reflexivity|]. cbn [map fill_properties fst snd fold_left].
    rewrite (fill_property_as p sub d : fill_property ad adn arn p (SObj (map as_keyword sub)) d = _). cbn [rbind]. apply IH.
  Qed.

  Definition agrees (n : nat) (s : schema) : Prop := forall v, exists es,
    iter_errors ad adn arn [] n false (as_schema s) v = Ok (fst (visit ad adn arn other s v), es) /\ Forall2 same_error (snd (visit ad adn arn other s v)) es.

  Lemma props_as : forall n ps d, (forall p sub, In (p, sub) ps -> agrees n sub) -> exists es,
    visits (iter_errors ad adn arn [] n) false (map (fun ps => (Some (PKey (fst ps)), [PKey (fst ps)], snd ps)) (map (fun ps : pystr * schema => (fst ps, SObj (map as_keyword (snd ps)))) ps)) (JDict d)
    = Ok (JDict (fst (visit_props ad adn arn other ps d)), es) /\ Forall2 same_error (snd (visit_props ad adn arn other ps d)) es.
  Proof.
    intros n ps. induction ps as [|(p & sub) ps IH]; intros d H; cbn [map visits fst snd].
    - exists []. split; [reflexivity|constructor].
    - assert (H' : forall q sub, In (q, sub) ps -> agrees n sub) by (intros q s I; apply (H q s); now right).
      cbn [child visit_props]. destruct (sget p d) as [x|].
      + destruct (H p sub (or_introl eq_refl) x) as (es1 & E1 & F1). unfold as_schema in E1. rewrite E1. cbn [rbind put].
        destruct (IH (sset p (fst (visit ad adn arn other sub x)) d) H') as (es2 & E2 & F2).
        rewrite E2. cbn [rbind andb]. eexists. split.
        * f_equal. destruct (visit ad adn arn other sub x) as (x1 & e1). cbn [fst snd].
          destruct (visit_props ad adn arn other ps (sset p x1 d)) as (d2 & e2). reflexivity.
        * destruct (visit ad adn arn other sub x) as (x1 & e1). cbn [fst snd] in *. destruct (visit_props ad adn arn other ps (sset p x1 d)) as (d2 & e2). cbn [fst snd] in *.
          apply Forall2_app; [now apply same_located|exact F2].
      + apply IH. exact H'.
  Qed.

  Lemma kw_as : forall n k kws v, (forall m, k <> KOther m) -> (forall ps p sub, k = KProps ps -> In (p, sub) ps -> agrees n sub) -> exists es,
    rule ad adn arn (iter_errors ad adn arn [] n) false kws (as_keyword k) v = Ok (fst (visit_kw ad adn arn other k v), es)
    /\ Forall2 same_error (snd (visit_kw ad adn arn other k v)) es.
  Proof.
    intros n k kws v N H. destruct k; cbn [as_keyword rule]; try (exists []; split; [reflexivity|constructor]).
    - unfold unless. eexists. split; [reflexivity|]. cbn [visit_kw snd]. destruct (existsb _ ts); repeat constructor.
    - eexists. split; [reflexivity|]. cbn [visit_kw snd]. destruct v; try constructor. clear H N. induction ps as [|p ps IH]; cbn [flat_map]; [constructor|].
      destruct (smem p d) eqn:M; [exact IH|]. constructor; [|exact IH]. constructor.
      destruct (sget p d) as [x|] eqn:E; [|reflexivity]. rewrite (proj2 (sget_mem _ p d)) in M by eauto. discriminate.
    - destruct v; try (exists []; split; [reflexivity|constructor]). rewrite visit_kw_props. unfold fill, installed, filling.
      assert (F : (if ad || adn || arn then fill_properties ad adn arn (map (fun ps => (fst ps, SObj (map as_keyword (snd ps)))) ps) d else Ok d)
        = Ok (if ad || adn || arn then fold_left (fun d ps => fill_prop ad adn arn (fst ps) (snd ps) d) ps d else d)).
      { destruct (ad || adn || arn); [apply fill_properties_as|reflexivity]. }
      rewrite F. cbn [rbind]. destruct (props_as n ps (if ad || adn || arn then fold_left (fun d ps => fill_prop ad adn arn (fst ps) (snd ps) d) ps d else d)) as (es & E & S); [intros p sub I; now apply (H ps p)|].
      exists es. revert E S. set (d0 := if ad || adn || arn then _ else _). intros E S. split; [refine (eq_trans E _)|].
      + now destruct (visit_props ad adn arn other ps d0).
      + now destruct (visit_props ad adn arn other ps d0).
    - exfalso. eapply N. reflexivity.
  Qed.

  Lemma keywords_as : forall n todo kws v, (forall k, In k todo -> (forall m, k <> KOther m) /\ forall ps p sub, k = KProps ps -> In (p, sub) ps -> agrees n sub) -> exists es,
    keywords ad adn arn (iter_errors ad adn arn [] n) false kws (map as_keyword todo) v = Ok (fst (visit ad adn arn other todo v), es)
    /\ Forall2 same_error (snd (visit ad adn arn other todo v)) es.
  Proof.
    intros n todo kws. induction todo as [|k todo IH]; intros v H; cbn [map keywords].
    - exists []. split; [reflexivity|constructor].
    - destruct (H k (or_introl eq_refl)) as (N & S). destruct (kw_as n k kws v N S) as (es1 & E1 & F1). rewrite E1. cbn [rbind andb].
      destruct (IH (fst (visit_kw ad adn arn other k v))) as (es2 & E2 & F2); [intros k0 I; apply H; now right|].
      rewrite E2. cbn [rbind]. eexists. rewrite visit_cons, visit_cons_errors. split; [reflexivity|]. apply Forall2_app; [now apply same_located|exact F2].
  Qed.

  Lemma iter_next : forall n s v, iter_errors ad adn arn [] (S n) false (as_schema s) v = keywords ad adn arn (iter_errors ad adn arn [] n) false (map as_keyword s) (map as_keyword s) v.
  Proof. intros n s v. unfold as_schema. cbn [iter_errors]. now rewrite no_ref. Qed.
  Lemma iter_as : forall n s, checkless n s -> agrees (S n) s.
  Proof.
    intros n. induction n as [|n IH]; intros s H; inversion H as [n0 s0 A B]; subst; intros v; rewrite iter_next; apply keywords_as.
    - intros k I. split; [intros m ->; exact (A m I)|]. intros ps p sub -> J. destruct (B ps p sub I J) as (m & E & _). discriminate.
    - intros k I. split; [intros m ->; exact (A m I)|]. intros ps p sub -> J. destruct (B ps p sub I J) as (m & E & C). injection E as <-. now apply IH.
  Qed.
End Agree.
