(** * Visiting schemas: more proofs, with defaults *)
From Coq Require Import String Lia.
From Verif Require Import PyBase PyBase_Proofs Json Pandel_Model Pandel_Proofs Visit_Model Visit_Spec Visit_Proofs.
From Verif Require AddProps_Model Enum_Model Tables_Proofs.

(** ** Growing *)
Lemma grown_nonnull : forall x y, grown x y -> x <> JNull -> y <> JNull.
Proof. intros x y [v|l m _ _|d e _ _] H; [exact H|discriminate|discriminate]. Qed.
Lemma grown_null : forall x, grown x JNull -> x = JNull.
Proof. intros x H. now inversion H. Qed.
Lemma grown_trans : forall x y, grown x y -> forall z, grown y z -> grown x z.
Proof.
  intros x y H. induction H as [v|l m El Hl IH|d e H1 H2 IH]; intros z Hz; [exact Hz| |].
  - inversion Hz as [v|l' m' El' Hl'|]; subst; [now constructor|]. constructor; [congruence|]. intros i x y Ex Ey.
    destruct (nth_error m i) as [w|] eqn:Ew.
    + eapply IH; eauto.
    + apply nth_error_None in Ew. assert (i < length m') by (apply nth_error_Some; congruence). lia.
  - inversion Hz as [v| |d' e' H1' H2']; subst; [now constructor|].
    assert (G : forall k x, sget k d = Some x -> x <> JNull -> exists w, sget k e = Some w /\ grown x w /\ w <> JNull).
    { intros k x Ex Nx. destruct (sget k e) as [w|] eqn:Ew; [|now destruct (H1 k x Ex Nx)]. exists w. split; [reflexivity|].
      assert (grown x w) by (eapply H2; eauto). split; [exact H|]. eapply grown_nonnull; eauto. }
    constructor.
    + intros k x Ex Nx. destruct (G k x Ex Nx) as (w & Ew & Gw & Nw). eapply H1'; eauto.
    + intros k x y Ex Nx Ey. destruct (G k x Ex Nx) as (w & Ew & Gw & Nw). eapply IH; eauto.
Qed.

Lemma replace_length : forall A (l : list A) i x, length (replace_nth i x l) = length l.
Proof. intros A l. induction l as [|y l IH]; intros [|i] x; simpl; auto. Qed.
Lemma replace_at : forall A (l : list A) i x y, nth_error l i = Some y -> nth_error (replace_nth i x l) i = Some x.
Proof. intros A l. induction l as [|z l IH]; intros [|i] x y H; simpl in *; try discriminate; [reflexivity|]. eapply IH; eauto. Qed.
Lemma replace_else : forall A (l : list A) i j x, i <> j -> nth_error (replace_nth i x l) j = nth_error l j.
Proof. intros A l. induction l as [|z l IH]; intros [|i] [|j] x H; simpl; try congruence. apply IH. congruence. Qed.

Lemma child_put : forall a v x x', child a v = Some x -> child a (put a x' v) = Some x'.
Proof.
  intros [[k|i]|] v x x' H; simpl in *; [| |reflexivity].
  - destruct v; try discriminate. simpl. apply sget_sset_eq.
  - destruct v; try discriminate. simpl. eapply replace_at; eauto.
Qed.
Lemma put_grown : forall a v x x', child a v = Some x -> grown x x' -> grown v (put a x' v).
Proof.
  intros [[k|i]|] v x x' H G; simpl in *.
  - destruct v as [| | | | |d]; try discriminate. constructor; intros k'; (destruct (list_eq_dec N.eq_dec k k') as [<-|N];
      [rewrite sget_sset_eq|rewrite (sget_sset_neq _ k k') by exact N]).
    + discriminate.
    + intros y Ey Ny. congruence.
    + intros y z Ey Ny Ez. injection Ez as <-. rewrite H in Ey. now injection Ey as <-.
    + intros y z Ey Ny Ez. rewrite Ey in Ez. injection Ez as <-. constructor.
  - destruct v as [| | | |l|]; try discriminate. constructor; [now rewrite replace_length|]. intros j y z Ey Ez.
    destruct (PeanoNat.Nat.eq_dec i j) as [<-|N].
    + rewrite (replace_at _ _ _ _ _ H) in Ez. injection Ez as <-. rewrite H in Ey. now injection Ey as <-.
    + rewrite replace_else in Ez by exact N. rewrite Ey in Ez. injection Ez as <-. constructor.
  - now injection H as ->.
Qed.

Lemma at_path_grown : forall p v w v', at_path p v = Some w -> grown v v' ->
  (exists w', at_path p v' = Some w' /\ grown w w') \/ (w = JNull /\ exists q k d, p = q ++ [PKey k] /\ at_path q v' = Some (JDict d)).
Proof.
  intros p. induction p as [|[k|i] p IH]; intros v w v' H G; simpl in H.
  - injection H as <-. left. exists v'. simpl. auto.
  - destruct v as [| | | | |d]; try discriminate. destruct (sget k d) as [x|] eqn:Ex; [|discriminate].
    inversion G as [v| |d' e H1 H2]; subst.
    + left. exists w. simpl. rewrite Ex. split; [exact H|constructor].
    + destruct (sget k e) as [y|] eqn:Ey.
      * destruct (match x with JNull => true | _ => false end) eqn:Nx.
        -- destruct x; try discriminate. destruct p as [|[k'|i'] p]; simpl in H; try discriminate. injection H as <-.
           right. split; [reflexivity|]. exists [], k, e. auto.
        -- assert (x <> JNull) by (intros ->; discriminate).
           destruct (IH x w y H) as [(w' & Ew & Gw)|(-> & q & k' & d0 & -> & Eq)]; [eapply H2; eauto| |].
           ++ left. exists w'. simpl. rewrite Ey. auto.
           ++ right. split; [reflexivity|]. exists (PKey k :: q), k', d0. simpl. rewrite Ey. auto.
      * assert (x = JNull) by (destruct x; try reflexivity; exfalso; apply (H1 k _ Ex); congruence). subst x.
        destruct p as [|[k'|i'] p]; simpl in H; try discriminate. injection H as <-. right. split; [reflexivity|]. exists [], k, e. auto.
  - destruct v as [| | | |l|]; try discriminate. destruct (nth_error l i) as [x|] eqn:Ex; [|discriminate].
    inversion G as [v|l' m El Hl|]; subst.
    + left. exists w. simpl. rewrite Ex. split; [exact H|constructor].
    + destruct (nth_error m i) as [y|] eqn:Ey.
      2:{ apply nth_error_None in Ey. assert (i < length l) by (apply nth_error_Some; congruence). lia. }
      destruct (IH x w y H) as [(w' & Ew & Gw)|(-> & q & k' & d0 & -> & Eq)]; [eapply Hl; eauto| |].
      * left. exists w'. simpl. rewrite Ey. auto.
      * right. split; [reflexivity|]. exists (PIdx i :: q), k', d0. simpl. rewrite Ey. auto.
Qed.
Lemma at_dict_grown : forall p v d v', at_path p v = Some (JDict d) -> grown v v' -> exists d', at_path p v' = Some (JDict d').
Proof.
  intros p v d v' H G. destruct (at_path_grown _ _ _ _ H G) as [(w' & Ew & Gw)|(E & _)]; [|discriminate].
  inversion Gw; subst; eauto.
Qed.
Lemma placed_grown : forall v v' e, placed v e -> grown v v' -> placed v' e.
Proof.
  intros v v' [p sp r w c] [(w' & Ew & Gw)|[(-> & q & k & d & -> & Eq)|(d & k & Ed & ->)]] G; simpl.
  - destruct (at_path_grown _ _ _ _ Ew G) as [(w2 & Ew2 & Gw2)|(-> & q & k & d & -> & Eq)].
    + left. exists w2. split; [exact Ew2|]. eapply grown_trans; eauto.
    + right. left. split; [now apply grown_null|]. eauto.
  - destruct (at_dict_grown _ _ _ _ Eq G) as (d' & Ed'). right. left. eauto 10.
  - destruct (at_dict_grown _ _ _ _ Ed G) as (d' & Ed'). right. right. eauto.
Qed.
Lemma placed_up : forall a v x sp e, child a v = Some x -> placed x e -> placed v (located (step a) sp e).
Proof.
  intros a v x sp [p sp' r w c] Ec [(w' & Ew & Gw)|[(-> & q & k & d & -> & Eq)|(d & k & Ed & ->)]]; simpl.
  - left. exists w'. rewrite (step_path _ _ _ _ Ec). auto.
  - right. left. split; [reflexivity|]. exists (step a ++ q), k, d. rewrite (step_path _ _ _ _ Ec), app_assoc. auto.
  - right. right. exists d, k. rewrite (step_path _ _ _ _ Ec). auto.
Qed.
Lemma placed_here : forall k v ctx, placed v (own k v ctx).
Proof. intros k v ctx. left. exists v. split; [reflexivity|constructor]. Qed.
Lemma placed_name : forall n d e, placed (JStr n) e -> placed (JDict d) e.
Proof.
  intros n d [p sp r w c] H.
  assert (T : forall q z, at_path q (JStr n) = Some z -> q = [] /\ z = JStr n).
  { intros q z Ez. destruct q as [|[k|i] q]; simpl in Ez; try discriminate. now injection Ez as <-. }
  destruct H as [(w' & Ew & Gw)|[(-> & q & k & d' & -> & Eq)|(d' & k & Ed & ->)]].
  - apply T in Ew. destruct Ew as (-> & ->). inversion Gw; subst. right. right. exists d, n. auto.
  - apply T in Eq. destruct Eq. discriminate.
  - apply T in Ed. destruct Ed. discriminate.
Qed.

Section Grown.
  Variables auto_default auto_default_nulls auto_remove_nulls : bool.

  Lemma fill_property_grown : forall p s d d', fill_property auto_default auto_default_nulls auto_remove_nulls p s d = Ok d' -> grown (JDict d) (JDict d').
  Proof.
    intros p [b|s] d d' H; simpl in H; [discriminate|]. injection H as <-.
    assert (Set_ : forall v, (forall x, sget p d = Some x -> x = JNull) -> grown (JDict d) (JDict (sset p v d))).
    { intros v N. constructor; intros k x; (destruct (list_eq_dec N.eq_dec p k) as [<-|Nk]; [rewrite sget_sset_eq|rewrite (sget_sset_neq _ p k) by exact Nk]).
      - discriminate.
      - congruence.
      - intros y Ex Nx. now destruct (Nx (N x Ex)).
      - intros y Ex Nx Ey. rewrite Ex in Ey. injection Ey as <-. constructor. }
    assert (Del : (forall x, sget p d = Some x -> x = JNull) -> grown (JDict d) (JDict (sdel p d))).
    { intros N. constructor; intros k x; (destruct (list_eq_dec N.eq_dec p k) as [<-|Nk]; [rewrite sget_sdel_eq|rewrite (sget_sdel_neq _ p k) by exact Nk]).
      - intros Ex Nx. now destruct (Nx (N x Ex)).
      - congruence.
      - discriminate.
      - intros y Ex Nx Ey. rewrite Ex in Ey. injection Ey as <-. constructor. }
    assert (Null : match sget p d with Some v => is_null v | None => false end = true -> forall x, sget p d = Some x -> x = JNull).
    { destruct (sget p d) as [[]|]; simpl; try discriminate; intros _ x E; now injection E as <-. }
    assert (Absent : match sget p d with None => true | Some _ => false end = true -> forall x, sget p d = Some x -> x = JNull).
    { destruct (sget p d); [discriminate|]. intros _ x E. discriminate. }
    set (rm := (_ && match sget p d with Some v => is_null v | None => false end)%bool) in *.
    match goal with |- context [if ?b then sdel p d else d] => set (rmv := b) in * end.
    assert (Rest : grown (JDict d) (JDict (if rmv then sdel p d else d))).
    { unfold rmv. match goal with |- context [if ?b then _ else _] => destruct b eqn:B end; [|constructor].
      apply andb_prop in B. destruct B as (_ & B). now apply Del, Null. }
    destruct (the_default s) as [v|]; [|exact Rest].
    match goal with |- context [match ?b with true => _ | false => _ end] => destruct b eqn:B end; [|exact Rest].
    apply Set_. apply Bool.orb_true_iff in B. destruct B as [B|B]; apply andb_prop in B; destruct B as (_ & B); [now apply Absent|now apply Null].
  Qed.
  Lemma fill_properties_grown : forall ps d d', fill_properties auto_default auto_default_nulls auto_remove_nulls ps d = Ok d' -> grown (JDict d) (JDict d').
  Proof.
    intros ps. induction ps as [|(p & s) ps IH]; intros d d' H; simpl in H; [injection H as <-; constructor|].
    inv_bind H. eapply grown_trans; [eapply fill_property_grown; eauto|eauto].
  Qed.

  Variable D : bool -> vschema -> json -> out.
  Hypothesis HD : forall st s v v' es, D st s v = Ok (v', es) -> grown v v' /\ (forall e, In e es -> placed v' e).

  Lemma visits_grown : forall stop vs v v' es, visits D stop vs v = Ok (v', es) -> grown v v' /\ (forall e, In e es -> placed v' e).
  Proof.
    intros stop vs. induction vs as [|((a & sp) & s) vs IH]; intros v v' es H; simpl in H.
    { injection H as <- <-. split; [constructor|intros e []]. }
    destruct (child a v) as [x|] eqn:Ec; [|exact (IH _ _ _ H)].
    inv_bind H. destruct r as (x' & es1). destruct (HD _ _ _ _ _ E) as (A & B).
    assert (G : grown v (put a x' v)) by (eapply put_grown; eauto).
    assert (P : forall e, In e (map (located (step a) sp) es1) -> placed (put a x' v) e).
    { intros e Ie. apply in_map_iff in Ie. destruct Ie as (e' & <- & Ie'). eapply placed_up; [eapply child_put; eauto|auto]. }
    destruct (stop && negb (none (map (located (step a) sp) es1))).
    - injection H as <- <-. auto.
    - inv_bind H. destruct r as (v2 & es2). injection H as <- <-. destruct (IH _ _ _ E0) as (A2 & B2). split; [eapply grown_trans; eauto|].
      intros e Ie. apply in_app_or in Ie. destruct Ie as [Ie|Ie]; [eapply placed_grown; eauto|auto].
  Qed.
  Lemma names_grown : forall stop s d ks es, visit_names D stop s ks = Ok es -> forall e, In e es -> placed (JDict d) e.
  Proof.
    intros stop s d ks. induction ks as [|k ks IH]; intros es H; simpl in H.
    { injection H as <-. intros e []. }
    inv_bind H. destruct r as (x' & es1). destruct (HD _ _ _ _ _ E) as (A & B).
    assert (P : forall e, In e es1 -> placed (JDict d) e).
    { intros e Ie. inversion A; subst. eapply placed_name. eauto. }
    destruct (stop && negb (none es1)); [injection H as <-; exact P|].
    inv_bind H. injection H as <-. intros e Ie. apply in_app_or in Ie. destruct Ie as [Ie|Ie]; [auto|exact (IH _ E0 e Ie)].
  Qed.
  Lemma alternatives_grown : forall ss i v v' r, alternatives D i ss v = Ok (v', r) -> grown v v'.
  Proof.
    intros ss. induction ss as [|s ss IH]; intros i v v' r H; simpl in H; [injection H as <- <-; constructor|].
    inv_bind H. destruct r0 as (v1 & es1). destruct (HD _ _ _ _ _ E) as (A & _). destruct (none es1).
    - injection H as <- <-. exact A.
    - inv_bind H. destruct r0 as (v2 & r2). injection H as <- <-. eapply grown_trans; eauto.
  Qed.
  Lemma some_valid_grown : forall ss v v' b, some_valid D ss v = Ok (v', b) -> grown v v'.
  Proof.
    intros ss. induction ss as [|s ss IH]; intros v v' b H; simpl in H; [injection H as <- <-; constructor|].
    inv_bind H. destruct r as (v1 & es1). destruct (HD _ _ _ _ _ E) as (A & _).
    inv_bind H. destruct r as (v2 & b2). injection H as <- <-. eapply grown_trans; eauto.
  Qed.

  Lemma some_item_grown : forall s is v v' b, some_item D s is v = Ok (v', b) -> grown v v'.
  Proof.
    intros s is. induction is as [|i is IH]; intros v v' b H; cbn [some_item] in H; [injection H as <- <-; constructor|].
    destruct (child (Some (PIdx i)) v) as [x|] eqn:Ec; [|exact (IH _ _ _ H)].
    inv_bind H. destruct r as (x' & es1). destruct (HD _ _ _ _ _ E) as (A & _).
    assert (G : grown v (put (Some (PIdx i)) x' v)) by (eapply put_grown; eauto).
    destruct (none es1); [injection H as <- <-; exact G|]. eapply grown_trans; eauto.
  Qed.
  Lemma depends_grown : forall stop ps v v' es, depends D stop ps v = Ok (v', es) -> grown v v' /\ (forall e, In e es -> placed v' e).
  Proof.
    intros stop ps. induction ps as [|(p & s) ps IH]; intros v v' es H; cbn [depends] in H.
    { injection H as <- <-. split; [constructor|intros e []]. }
    destruct (match v with JDict d => smem p d | _ => false end); [|exact (IH _ _ _ H)].
    inv_bind H. destruct r as (v1 & es1). destruct (HD _ _ _ _ _ E) as (A & B).
    assert (P : forall e, In e (map (located [] [PKey p]) es1) -> placed v1 e).
    { intros e Ie. apply in_map_iff in Ie. destruct Ie as ([q sq r w c] & <- & Ie'). exact (B _ Ie'). }
    destruct (stop && negb (none (map (located [] [PKey p]) es1))).
    - injection H as <- <-. auto.
    - inv_bind H. destruct r as (v2 & es2). injection H as <- <-. destruct (IH _ _ _ E0) as (A2 & B2). split; [eapply grown_trans; eauto|].
      intros e Ie. apply in_app_or in Ie. destruct Ie as [Ie|Ie]; [eapply placed_grown; eauto|auto].
  Qed.

  Lemma unless_grown : forall b k v v' es, unless b k v = Ok (v', es) -> grown v v' /\ (forall e, In e es -> placed v' e).
  Proof.
    intros b k v v' es H. injection H as <- <-. split; [constructor|]. destruct b; [intros e []|]. intros e [<-|[]]. apply placed_here.
  Qed.
  Lemma nothing_grown : forall v v' es, @Ok (json * list verror) (v, []) = Ok (v', es) -> grown v v' /\ (forall e, In e es -> placed v' e).
  Proof. intros v v' es H. injection H as <- <-. split; [constructor|intros e []]. Qed.

  Lemma rule_grown : forall stop kws k v v' es, rule auto_default auto_default_nulls auto_remove_nulls D stop kws k v = Ok (v', es) ->
    grown v v' /\ (forall e, In e es -> placed v' e).
  Proof.
    intros stop kws k v v' es H. destruct k; cbn [rule] in H; try (eapply unless_grown; exact H); try (eapply nothing_grown; exact H).
    - destruct v as [| | |s| |]; try (eapply nothing_grown; exact H). inv_bind H. eapply unless_grown; exact H.
    - injection H as <- <-. split; [constructor|]. destruct v; try (intros e []). intros e Ie. apply in_flat_map in Ie.
      destruct Ie as (p & _ & Ie). destruct (smem p d); [destruct Ie|]. destruct Ie as [<-|[]]. apply placed_here.
    - injection H as <- <-. split; [constructor|]. destruct v; try (intros e []). intros e Ie. apply in_flat_map in Ie.
      destruct Ie as (p & _ & Ie). destruct (smem (fst p) d); [|destruct Ie]. apply in_flat_map in Ie. destruct Ie as (q & _ & Ie).
      destruct (smem q d); [destruct Ie|]. destruct Ie as [<-|[]]. apply placed_here.
    - destruct v as [| | | | |d]; try (eapply nothing_grown; exact H). inv_bind H.
      assert (G : grown (JDict d) (JDict r)).
      { destruct (filling _ _ _); [eapply fill_properties_grown; eauto|injection E as <-; constructor]. }
      destruct (visits_grown _ _ _ _ _ H) as (A & B). split; [eapply grown_trans; eauto|exact B].
    - destruct v as [| | | | |d]; try (eapply nothing_grown; exact H). inv_bind H. eapply visits_grown; eauto.
    - destruct v as [| | | | |d]; try (eapply nothing_grown; exact H). inv_bind H.
      destruct s; [eapply unless_grown; exact H|eapply visits_grown; eauto].
    - destruct v as [| | | | |d]; try (eapply nothing_grown; exact H). inv_bind H. injection H as <- <-. split; [constructor|]. eapply names_grown; eauto.
    - destruct v as [| | | |l|]; try (eapply nothing_grown; exact H). eapply visits_grown; eauto.
    - destruct v as [| | | |l|]; try (eapply nothing_grown; exact H). eapply visits_grown; eauto.
    - destruct v as [| | | |l|]; try (eapply nothing_grown; exact H). destruct (the_items kws); [|eapply nothing_grown; exact H].
      destruct s; [eapply unless_grown; exact H|eapply visits_grown; eauto].
    - inv_bind H. destruct r as (v1 & r). injection H as <- <-. split; [eapply alternatives_grown; eauto|].
      destruct r; [|intros e []]. intros e [<-|[]]. apply placed_here.
    - eapply visits_grown; eauto.
    - inv_bind H. destruct r as (v1 & r). assert (G := alternatives_grown _ _ _ _ _ E). destruct r as [es1|left_].
      + injection H as <- <-. split; [exact G|]. intros e [<-|[]]. apply placed_here.
      + inv_bind H. destruct r as (v2 & more). injection H as <- <-. split; [eapply grown_trans; [exact G|eapply some_valid_grown; eauto]|].
        destruct more; [|intros e []]. intros e [<-|[]]. apply placed_here.
    - inv_bind H. destruct r as (v1 & es1). injection H as <- <-. destruct (HD _ _ _ _ _ E) as (A & _). split; [exact A|].
      destruct (none es1); [|intros e []]. intros e [<-|[]]. apply placed_here.
    - destruct v as [| | | |l|]; try (eapply nothing_grown; exact H). inv_bind H. destruct r as (v1 & b). injection H as <- <-.
      assert (G := some_item_grown _ _ _ _ _ E). split; [exact G|]. destruct b; [intros e []|]. intros e [<-|[]]. apply placed_here.
    - eapply depends_grown; eauto.
    - inv_bind H. destruct r as (v1 & es1). destruct (HD _ _ _ _ _ E) as (A & _).
      destruct (none es1); destruct (visits_grown _ _ _ _ _ H) as (A2 & B2); (split; [eapply grown_trans; eauto|exact B2]).
  Qed.
  Lemma placed_located : forall v n e, placed v e -> placed v (located [] [PKey n] e).
  Proof. intros v n [p sp r w c] H. exact H. Qed.
  Lemma keywords_grown : forall stop kws todo v v' es, keywords auto_default auto_default_nulls auto_remove_nulls D stop kws todo v = Ok (v', es) ->
    grown v v' /\ (forall e, In e es -> placed v' e).
  Proof.
    intros stop kws todo. induction todo as [|k todo IH]; intros v v' es H; simpl in H; [exact (nothing_grown _ _ _ H)|].
    inv_bind H. destruct r as (v1 & es1). destruct (rule_grown _ _ _ _ _ _ E) as (A & B).
    assert (P : forall e, In e (map (located [] [PKey (name_of k)]) es1) -> placed v1 e).
    { intros e Ie. apply in_map_iff in Ie. destruct Ie as (e' & <- & Ie'). apply placed_located. auto. }
    destruct (stop && negb (none (map (located [] [PKey (name_of k)]) es1))).
    - injection H as <- <-. auto.
    - inv_bind H. destruct r as (v2 & es2). injection H as <- <-. destruct (IH _ _ _ E0) as (A2 & B2). split; [eapply grown_trans; eauto|].
      intros e Ie. apply in_app_or in Ie. destruct Ie as [Ie|Ie]; [eapply placed_grown; eauto|auto].
  Qed.
End Grown.

Lemma iter_grown : forall ad adn arn defs n stop s v v' es, iter_errors ad adn arn defs n stop s v = Ok (v', es) ->
  grown v v' /\ (forall e, In e es -> placed v' e).
Proof.
  intros ad adn arn defs n. induction n as [|n IH]; intros stop s v v' es H; simpl in H; [discriminate|].
  destruct s as [b|kws].
  - destruct b; injection H as <- <-; (split; [constructor|]); [intros e []|]. intros e [<-|[]]. left. exists v. split; [reflexivity|constructor].
  - destruct (the_ref kws) as [r|].
    + destruct (sget r defs); [|discriminate]. eauto.
    + eapply keywords_grown; eauto.
Qed.
