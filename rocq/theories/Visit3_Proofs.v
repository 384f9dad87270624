(** * Visiting schemas: levels, defaults that are not there, and errors of types *)
From Coq Require Import String Lia.
From Verif Require Import PyBase PyBase_Proofs Json Pandel_Model Pandel_Proofs Visit_Model Visit_Spec Visit_Proofs Visit2_Proofs.
From Verif Require AddProps_Model.

(** ** Equal results, unless levels were too few *)
Definition le {A} (r r' : res A) : Prop := r = Raise OutOfFuel \/ r = r'.
Lemma le_refl : forall A (r : res A), le r r.
Proof. now right. Qed.
Lemma le_bind : forall A B (r r' : res A) (f g : A -> res B), le r r' -> (forall x, le (f x) (g x)) -> le (rbind r f) (rbind r' g).
Proof. intros A B r r' f g [->| ->] H; [now left|]. destruct r' as [x|e]; simpl; [apply H|apply le_refl]. Qed.
Lemma le_if : forall A (b : bool) (r r' q q' : res A), le r r' -> le q q' -> le (if b then r else q) (if b then r' else q').
Proof. now intros A []. Qed.

Section Le.
  Variables ad adn arn ad' adn' arn' : bool.
  Variables D D' : bool -> vschema -> json -> out.
  Definition agree (s : vschema) : Prop := forall st v, le (D st s v) (D' st s v).

  Lemma visits_le : forall stop vs, (forall a sp s, In (a, sp, s) vs -> agree s) -> forall v, le (visits D stop vs v) (visits D' stop vs v).
  Proof.
    intros stop vs. induction vs as [|((a & sp) & s) vs IH]; intros H v; simpl; [apply le_refl|].
    assert (IH' : forall v, le (visits D stop vs v) (visits D' stop vs v)) by (apply IH; intros; eapply H; right; eauto).
    destruct (child a v) as [x|]; [|apply IH']. apply le_bind; [eapply H; now left|]. intros (x' & es). apply le_if; [apply le_refl|].
    apply le_bind; [apply IH'|]. intros (v2 & es2). apply le_refl.
  Qed.
  Lemma names_le : forall stop s ks, agree s -> le (visit_names D stop s ks) (visit_names D' stop s ks).
  Proof.
    intros stop s ks H. induction ks as [|k ks IH]; simpl; [apply le_refl|]. apply le_bind; [apply H|]. intros (x & es). apply le_if; [apply le_refl|].
    apply le_bind; [exact IH|]. intros es'. apply le_refl.
  Qed.
  Lemma alternatives_le : forall ss i v, (forall s, In s ss -> agree s) -> le (alternatives D i ss v) (alternatives D' i ss v).
  Proof.
    intros ss. induction ss as [|s ss IH]; intros i v H; simpl; [apply le_refl|]. apply le_bind; [apply H; now left|]. intros (x & es).
    apply le_if; [apply le_refl|]. apply le_bind; [apply IH; intros; apply H; now right|]. intros (v2 & r). apply le_refl.
  Qed.
  Lemma some_valid_le : forall ss v, (forall s, In s ss -> agree s) -> le (some_valid D ss v) (some_valid D' ss v).
  Proof.
    intros ss. induction ss as [|s ss IH]; intros v H; simpl; [apply le_refl|]. apply le_bind; [apply H; now left|]. intros (x & es).
    apply le_bind; [apply IH; intros; apply H; now right|]. intros (v2 & r). apply le_refl.
  Qed.

  Lemma some_item_le : forall s is v, agree s -> le (some_item D s is v) (some_item D' s is v).
  Proof.
    intros s is. induction is as [|i is IH]; intros v H; cbn [some_item]; [apply le_refl|]. destruct (child (Some (PIdx i)) v); [|now apply IH].
    apply le_bind; [apply H|]. intros (x & es). apply le_if; [apply le_refl|now apply IH].
  Qed.
  Lemma depends_le : forall stop ps, (forall p s, In (p, s) ps -> agree s) -> forall v, le (depends D stop ps v) (depends D' stop ps v).
  Proof.
    intros stop ps. induction ps as [|(p & s) ps IH]; intros H v; cbn [depends]; [apply le_refl|].
    assert (IH' : forall v, le (depends D stop ps v) (depends D' stop ps v)) by (apply IH; intros q t I; apply (H q t); now right).
    apply le_if; [|apply IH']. apply le_bind; [apply (H p s); now left|]. intros (x' & es). apply le_if; [apply le_refl|].
    apply le_bind; [apply IH'|]. intros (v2 & es2). apply le_refl.
  Qed.

  Lemma nth_in_any : forall ss s, In s ss -> under (VAnyOf ss) s /\ under (VOneOf ss) s.
  Proof. intros ss s I. apply In_nth_error in I. destruct I as (i & Ei). split; left; exists [PIdx i]; now constructor. Qed.
  Lemma left_in : forall ss i v v' l, alternatives D' i ss v = Ok (v', inr l) -> forall s, In s l -> In s ss.
  Proof.
    intros ss. induction ss as [|s ss IH]; intros i v v' l H t I; simpl in H; [discriminate|]. inv_bind H. destruct r as (v1 & es1).
    destruct (none es1).
    - injection H as <- <-. now right.
    - inv_bind H. destruct r as (v2 & r). injection H as <- E'. destruct r; [discriminate|]. injection E' as ->. right. eapply IH; eauto.
  Qed.

  Lemma rule_le : forall stop kws k v, (forall s, under k s -> agree s) ->
    (forall ps d, k = VProps ps -> (if filling ad adn arn then fill_properties ad adn arn ps d else Ok d) = (if filling ad' adn' arn' then fill_properties ad' adn' arn' ps d else Ok d)) ->
    le (rule ad adn arn D stop kws k v) (rule ad' adn' arn' D' stop kws k v).
  Proof.
    intros stop kws k v H F. destruct k; cbn [rule]; try apply le_refl.
    - destruct v; try apply le_refl. rewrite (F ps d eq_refl). apply le_bind; [apply le_refl|]. intros d'. apply visits_le.
      intros a sp s I. apply in_map_iff in I. destruct I as ((p & s') & E & I). injection E as <- <- <-. apply H. left. eexists; econstructor; exact I.
    - destruct v; try apply le_refl. destruct (matchings ps (map fst d)) as [vs|] eqn:E; [|apply le_refl]. simpl. apply visits_le.
      intros a sp s I. apply (matchings_in _ _ _ E) in I. destruct I as (k & p & -> & -> & I & _). apply H. left. eexists; econstructor; exact I.
    - destruct v; try apply le_refl. apply le_bind; [apply le_refl|]. intros extras. destruct s as [b|ks]; [apply le_refl|]. apply visits_le.
      intros a sp s I. apply in_map_iff in I. destruct I as (x & E & I). injection E as <- <- <-. apply H. left. eexists; econstructor.
    - destruct v; try apply le_refl. apply le_bind; [|intros es; apply le_refl]. apply names_le. apply H. left. eexists; econstructor.
    - destruct v; try apply le_refl. apply visits_le. intros a sp s' I. apply in_map_iff in I. destruct I as (x & E & I). injection E as <- <- <-.
      apply H. left. eexists; econstructor.
    - destruct v; try apply le_refl. apply visits_le. intros a sp s' I. apply in_map_iff in I. destruct I as ((i & s) & E & I). injection E as <- <- <-.
      apply numbered_in in I. apply H. left. eexists; econstructor; apply I.
    - destruct v; try apply le_refl. destruct (the_items kws); [|apply le_refl]. destruct s as [b|ks]; [apply le_refl|]. apply visits_le.
      intros a sp s' I. apply in_map_iff in I. destruct I as (x & E & I). injection E as <- <- <-. apply H. left. eexists; econstructor.
    - apply le_bind; [|intros (v1 & r); apply le_refl]. apply alternatives_le. intros s I. apply H. now apply nth_in_any.
    - apply visits_le. intros a sp s' I. apply in_map_iff in I. destruct I as ((i & s) & E & I). injection E as <- <- <-.
      apply numbered_in in I. apply H. left. eexists; econstructor; apply I.
    - assert (L : le (alternatives D 0 ss v) (alternatives D' 0 ss v)) by (apply alternatives_le; intros s I; apply H; now apply nth_in_any).
      destruct L as [->| ->]; [now left|]. destruct (alternatives D' 0 ss v) as [(v1 & [es|l])|] eqn:E; cbn [rbind]; try apply le_refl.
      apply le_bind; [|intros (v2 & b); apply le_refl]. apply some_valid_le. intros s I. apply H. apply nth_in_any. eapply left_in; eauto.
    - apply le_bind; [|intros (v1 & es); apply le_refl]. apply H. right. now left.
    - destruct v; try apply le_refl. apply le_bind; [|intros (v1 & b); apply le_refl]. apply some_item_le. apply H. right. right. now left.
    - apply depends_le. intros p s I. apply H. left. eexists; econstructor; exact I.
    - apply le_bind; [apply H; right; right; right; eauto|]. intros (v1 & es).
      apply le_if; apply visits_le; intros a sp s [I|[]]; injection I as <- <- <-; apply H; left; eexists; econstructor.
  Qed.
  Lemma keywords_le : forall stop kws todo, (forall k s, In k todo -> under k s -> agree s) ->
    (forall ps d, In (VProps ps) todo -> (if filling ad adn arn then fill_properties ad adn arn ps d else Ok d) = (if filling ad' adn' arn' then fill_properties ad' adn' arn' ps d else Ok d)) ->
    forall v, le (keywords ad adn arn D stop kws todo v) (keywords ad' adn' arn' D' stop kws todo v).
  Proof.
    intros stop kws todo. induction todo as [|k todo IH]; intros H F v; simpl; [apply le_refl|].
    apply le_bind; [apply rule_le|].
    - intros s U. apply (H k s); [now left|exact U].
    - intros ps d ->. apply F. now left.
    - intros (v1 & es). apply le_if; [apply le_refl|]. apply le_bind; [|intros (v2 & es2); apply le_refl]. apply IH.
      + intros k' s I U. apply (H k' s); [now right|exact U].
      + intros ps d I. apply F. now right.
  Qed.
End Le.

Lemma find_ref : forall kws r, the_ref kws = Some r -> In (VRef r) kws.
Proof.
  intros kws r. unfold the_ref. induction kws as [|k kws IH]; simpl; [discriminate|]. intros H.
  destruct k; try (right; now apply IH). injection H as ->. now left.
Qed.

(** One more level *)
Lemma iter_more : forall ad adn arn defs n stop s v, le (iter_errors ad adn arn defs n stop s v) (iter_errors ad adn arn defs (S n) stop s v).
Proof.
  intros ad adn arn defs n. induction n as [|n IH]; intros stop s v; [now left|].
  destruct s as [b|kws]; [now right|]. change (iter_errors ad adn arn defs (S (S n)) stop (SObj kws) v) with
    (match the_ref kws with
     | Some r => match sget r defs with Some s => iter_errors ad adn arn defs (S n) stop s v | None => Raise RefResolutionError end
     | None => keywords ad adn arn (iter_errors ad adn arn defs (S n)) stop kws kws v
     end).
  change (iter_errors ad adn arn defs (S n) stop (SObj kws) v) with
    (match the_ref kws with
     | Some r => match sget r defs with Some s => iter_errors ad adn arn defs n stop s v | None => Raise RefResolutionError end
     | None => keywords ad adn arn (iter_errors ad adn arn defs n) stop kws kws v
     end).
  destruct (the_ref kws) as [r|].
  - destruct (sget r defs); [apply IH|apply le_refl].
  - apply keywords_le; [|reflexivity]. intros k s _ _ st v'. apply IH.
Qed.
Lemma iter_levels : forall ad adn arn defs n m stop s v r, iter_errors ad adn arn defs n stop s v = r -> r <> Raise OutOfFuel -> n <= m ->
  iter_errors ad adn arn defs m stop s v = r.
Proof.
  intros ad adn arn defs n m stop s v r H N L. induction L as [|m L IH]; [exact H|].
  destruct (iter_more ad adn arn defs m stop s v) as [E|E]; congruence.
Qed.

(** Without defaults *)
Lemma fill_nothing : forall ad adn ps d,
  (forall q s, In (q, s) ps -> exists ks, s = SObj ks /\ (forall k v, In k ks -> k <> VDefault v /\ k <> VAutoRemoveNull v)) ->
  fill_properties ad adn false ps d = Ok d.
Proof.
  intros ad adn ps. induction ps as [|(p & s) ps IH]; intros d H; simpl; [reflexivity|].
  destruct (H p s (or_introl eq_refl)) as (ks & -> & Hk).
  assert (Nd : the_default ks = None).
  { unfold the_default. clear -Hk. induction ks as [|k ks IH]; [reflexivity|]. simpl.
    assert (Hk' : forall k v, In k ks -> k <> VDefault v /\ k <> VAutoRemoveNull v) by (intros; apply Hk; now right).
    destruct k; try (now apply IH). destruct (Hk (VDefault v) v (or_introl eq_refl)) as (X & _). now destruct X. }
  assert (Nr : the_remove_null ks = None).
  { unfold the_remove_null. clear -Hk. induction ks as [|k ks IH]; [reflexivity|]. simpl.
    assert (Hk' : forall k v, In k ks -> k <> VDefault v /\ k <> VAutoRemoveNull v) by (intros; apply Hk; now right).
    destruct k; try (now apply IH). destruct (Hk (VAutoRemoveNull v) v (or_introl eq_refl)) as (_ & X). now destruct X. }
  simpl. rewrite Nd, Nr. simpl. apply IH. intros q s I. apply (H q s). now right.
Qed.
Lemma iter_defaultless : forall ad adn defs n stop s v, (forall t, reaches defs s t -> defaultless_props t) ->
  le (iter_errors ad adn false defs n stop s v) (iter_errors false false false defs n stop s v).
Proof.
  intros ad adn defs n. induction n as [|n IH]; intros stop s v H; [now left|].
  destruct s as [b|kws]; [now right|]. simpl. destruct (the_ref kws) as [r|] eqn:Er.
  - destruct (sget r defs) as [s|] eqn:Es; [|apply le_refl]. apply IH. intros t T. apply H. eapply reach_ref; eauto. now apply find_ref.
  - apply keywords_le.
    + intros k s Ik U st v'. apply IH. intros t T. apply H. eapply reach_sub; eauto.
    + intros ps d Ip. cbn [filling orb]. destruct (filling ad adn false); [|reflexivity]. apply fill_nothing.
      intros q s Iq. apply (H (SObj kws) (reach_self _ _) kws ps q s eq_refl Ip Iq).
Qed.

(** ** Exceptions that are not raised *)
Section Avoids.
  Variable X : exn.
  Definition avoids {A} (r : res A) : Prop := r <> Raise X.
  Lemma avoids_ok : forall A (x : A), avoids (Ok x).
  Proof. discriminate. Qed.
  Lemma avoids_bind : forall A B (r : res A) (f : A -> res B), avoids r -> (forall x, r = Ok x -> avoids (f x)) -> avoids (rbind r f).
  Proof. intros A B [x|e] f H G; simpl; [now apply G|]. intros E. apply H. congruence. Qed.

  Hypothesis search_avoids : forall p s, avoids (AddProps_Model.search p s).
  Lemma extras_avoids : forall props pats ks, avoids (AddProps_Model.find_additional_properties props pats (map AddProps_Model.KStr ks)).
  Proof.
    intros props pats ks. induction ks as [|k ks IH]; cbn [map AddProps_Model.find_additional_properties]; [apply avoids_ok|].
    apply avoids_bind; [|intros b _; apply avoids_bind; [exact IH|intros; apply avoids_ok]].
    destruct (AddProps_Model.is_named _ _); [apply avoids_ok|]. unfold AddProps_Model.is_matched. destruct (join _ _); [apply avoids_ok|apply search_avoids].
  Qed.
  Lemma matching_avoids : forall p ks, avoids (matching p ks).
  Proof.
    intros p ks. induction ks as [|k ks IH]; simpl; [apply avoids_ok|]. apply avoids_bind; [apply search_avoids|]. intros b _.
    apply avoids_bind; [exact IH|intros; apply avoids_ok].
  Qed.
  Lemma matchings_avoids : forall ps ks, avoids (matchings ps ks).
  Proof.
    intros ps ks. induction ps as [|(p & s) ps IH]; simpl; [apply avoids_ok|]. apply avoids_bind; [apply matching_avoids|]. intros b _.
    apply avoids_bind; [exact IH|intros; apply avoids_ok].
  Qed.

  Variables ad adn arn : bool.
  Variable D : bool -> vschema -> json -> out.
  Definition safe (s : vschema) : Prop := forall st v, avoids (D st s v).

  Lemma visits_avoids : forall stop vs, (forall a sp s, In (a, sp, s) vs -> safe s) -> forall v, avoids (visits D stop vs v).
  Proof.
    intros stop vs. induction vs as [|((a & sp) & s) vs IH]; intros H v; simpl; [apply avoids_ok|].
    assert (IH' : forall v, avoids (visits D stop vs v)) by (apply IH; intros; eapply H; right; eauto).
    destruct (child a v) as [x|]; [|apply IH']. apply avoids_bind; [eapply H; now left|]. intros (x' & es) _.
    destruct (stop && _); [apply avoids_ok|]. apply avoids_bind; [apply IH'|]. intros (v2 & es2) _. apply avoids_ok.
  Qed.
  Lemma names_avoids : forall stop s ks, safe s -> avoids (visit_names D stop s ks).
  Proof.
    intros stop s ks H. induction ks as [|k ks IH]; simpl; [apply avoids_ok|]. apply avoids_bind; [apply H|]. intros (x & es) _.
    destruct (stop && _); [apply avoids_ok|]. apply avoids_bind; [exact IH|]. intros; apply avoids_ok.
  Qed.
  Lemma alternatives_avoids : forall ss i v, (forall s, In s ss -> safe s) -> avoids (alternatives D i ss v).
  Proof.
    intros ss. induction ss as [|s ss IH]; intros i v H; simpl; [apply avoids_ok|]. apply avoids_bind; [apply H; now left|]. intros (x & es) _.
    destruct (none es); [apply avoids_ok|]. apply avoids_bind; [apply IH; intros; apply H; now right|]. intros (v2 & r) _. apply avoids_ok.
  Qed.
  Lemma some_valid_avoids : forall ss v, (forall s, In s ss -> safe s) -> avoids (some_valid D ss v).
  Proof.
    intros ss. induction ss as [|s ss IH]; intros v H; simpl; [apply avoids_ok|]. apply avoids_bind; [apply H; now left|]. intros (x & es) _.
    apply avoids_bind; [apply IH; intros; apply H; now right|]. intros (v2 & r) _. apply avoids_ok.
  Qed.
  Lemma some_item_avoids : forall s is v, safe s -> avoids (some_item D s is v).
  Proof.
    intros s is. induction is as [|i is IH]; intros v H; cbn [some_item]; [apply avoids_ok|]. destruct (child (Some (PIdx i)) v); [|now apply IH].
    apply avoids_bind; [apply H|]. intros (x & es) _. destruct (none es); [apply avoids_ok|now apply IH].
  Qed.
  Lemma depends_avoids : forall stop ps, (forall p s, In (p, s) ps -> safe s) -> forall v, avoids (depends D stop ps v).
  Proof.
    intros stop ps. induction ps as [|(p & s) ps IH]; intros H v; cbn [depends]; [apply avoids_ok|].
    assert (IH' : forall v, avoids (depends D stop ps v)) by (apply IH; intros q t I; apply (H q t); now right).
    destruct (match v with JDict d => smem p d | _ => false end); [|apply IH']. apply avoids_bind; [apply (H p s); now left|]. intros (x' & es) _.
    destruct (stop && _); [apply avoids_ok|]. apply avoids_bind; [apply IH'|]. intros (v2 & es2) _. apply avoids_ok.
  Qed.
  Lemma rule_avoids : forall stop kws k v, (forall s, under k s -> safe s) -> (forall ps d, k = VProps ps -> filling ad adn arn = true -> avoids (fill_properties ad adn arn ps d)) ->
    avoids (rule ad adn arn D stop kws k v).
  Proof.
    intros stop kws k v H F. destruct k; cbn [rule]; try apply avoids_ok.
    - destruct v; try apply avoids_ok. apply avoids_bind; [apply search_avoids|intros; apply avoids_ok].
    - destruct v; try apply avoids_ok. apply avoids_bind.
      + destruct (filling ad adn arn) eqn:Ef; [|apply avoids_ok]. now apply F.
      + intros d' _. apply visits_avoids. intros a sp s I. apply in_map_iff in I. destruct I as ((p & s') & E & I). injection E as <- <- <-.
        apply H. left. eexists; econstructor; exact I.
    - destruct v; try apply avoids_ok. apply avoids_bind; [apply matchings_avoids|]. intros vs E. apply visits_avoids.
      intros a sp s I. apply (matchings_in _ _ _ E) in I. destruct I as (k & p & -> & -> & I & _). apply H. left. eexists; econstructor; exact I.
    - destruct v; try apply avoids_ok. apply avoids_bind; [rewrite <- (map_map fst AddProps_Model.KStr); apply extras_avoids|]. intros extras _.
      destruct s as [b|ks]; [apply avoids_ok|]. apply visits_avoids.
      intros a sp s I. apply in_map_iff in I. destruct I as (x & E & I). injection E as <- <- <-. apply H. left. eexists; econstructor.
    - destruct v; try apply avoids_ok. apply avoids_bind; [|intros es _; apply avoids_ok]. apply names_avoids. apply H. left. eexists; econstructor.
    - destruct v; try apply avoids_ok. apply visits_avoids. intros a sp s' I. apply in_map_iff in I. destruct I as (x & E & I). injection E as <- <- <-.
      apply H. left. eexists; econstructor.
    - destruct v; try apply avoids_ok. apply visits_avoids. intros a sp s' I. apply in_map_iff in I. destruct I as ((i & s) & E & I). injection E as <- <- <-.
      apply numbered_in in I. apply H. left. eexists; econstructor; apply I.
    - destruct v; try apply avoids_ok. destruct (the_items kws); [|apply avoids_ok]. destruct s as [b|ks]; [apply avoids_ok|]. apply visits_avoids.
      intros a sp s' I. apply in_map_iff in I. destruct I as (x & E & I). injection E as <- <- <-. apply H. left. eexists; econstructor.
    - apply avoids_bind; [|intros (v1 & r) _; apply avoids_ok]. apply alternatives_avoids. intros s I. apply H. now apply nth_in_any.
    - apply visits_avoids. intros a sp s' I. apply in_map_iff in I. destruct I as ((i & s) & E & I). injection E as <- <- <-.
      apply numbered_in in I. apply H. left. eexists; econstructor; apply I.
    - apply avoids_bind; [apply alternatives_avoids; intros s I; apply H; now apply nth_in_any|]. intros (v1 & [es|l]) E; [apply avoids_ok|].
      apply avoids_bind; [|intros (v2 & b) _; apply avoids_ok]. apply some_valid_avoids. intros s I. apply H. apply nth_in_any. eapply left_in; eauto.
    - apply avoids_bind; [|intros (v1 & es) _; apply avoids_ok]. apply H. right. now left.
    - destruct v; try apply avoids_ok. apply avoids_bind; [|intros (v1 & b) _; apply avoids_ok]. apply some_item_avoids. apply H. right. right. now left.
    - apply depends_avoids. intros p s I. apply H. left. eexists; econstructor; exact I.
    - apply avoids_bind; [apply H; right; right; right; eauto|]. intros (v1 & es) _.
      destruct (none es); apply visits_avoids; intros a sp s [I|[]]; injection I as <- <- <-; apply H; left; eexists; econstructor.
  Qed.
  Lemma keywords_avoids : forall stop kws todo, (forall k s, In k todo -> under k s -> safe s) ->
    (forall ps d, In (VProps ps) todo -> filling ad adn arn = true -> avoids (fill_properties ad adn arn ps d)) ->
    forall v, avoids (keywords ad adn arn D stop kws todo v).
  Proof.
    intros stop kws todo. induction todo as [|k todo IH]; intros H F v; simpl; [apply avoids_ok|].
    apply avoids_bind; [apply rule_avoids|].
    - intros s U. apply (H k s); [now left|exact U].
    - intros ps d ->. apply F. now left.
    - intros (v1 & es) _. destruct (stop && _); [apply avoids_ok|]. apply avoids_bind; [|intros (v2 & es2) _; apply avoids_ok]. apply IH.
      + intros k' s I U. apply (H k' s); [now right|exact U].
      + intros ps d I. apply F. now right.
  Qed.
End Avoids.
Arguments avoids X {A} r.

(** *** Errors of types *)
Ltac avoids_tac := repeat first
  [ assumption
  | apply avoids_ok
  | discriminate
  | match goal with H : forall _ _ _, avoids _ _ |- avoids _ _ => apply H end
  | apply avoids_bind; [|intros; try match goal with |- avoids _ (match ?x with pair _ _ => _ end) => destruct x end]
  | match goal with |- avoids _ (if ?b then _ else _) => destruct b end
  | match goal with |- avoids _ (match ?x with _ => _ end) => destruct x end ].
Lemma quantifier_avoids : forall f s, avoids TypeError (AddProps_Model.with_quantifier f s).
Proof. intros f [|c s]; unfold AddProps_Model.with_quantifier; avoids_tac. Qed.
Lemma not_quantified_avoids : forall s, avoids TypeError (AddProps_Model.not_quantified s).
Proof. intros [|c s]; unfold AddProps_Model.not_quantified; avoids_tac. Qed.
Lemma parse_typed : forall n, (forall s k o, avoids TypeError (AddProps_Model.parse_alt n s k o)) /\ (forall s k o, avoids TypeError (AddProps_Model.parse_seq n s k o)).
Proof.
  intros n. induction n as [|n (IHa & IHs)]; (split; [intros s k o|intros s k o]); try discriminate.
  - cbn [AddProps_Model.parse_alt]. apply avoids_bind; [apply IHs|]. intros (a & n1) _. avoids_tac.
  - assert (Hq := quantifier_avoids). assert (Hn := not_quantified_avoids). cbn [AddProps_Model.parse_seq]. destruct s as [|c s]; [apply avoids_ok|].
    cbv zeta. avoids_tac; first [apply Hq|apply Hn|idtac].
Qed.
Lemma search_typed : forall p s, avoids TypeError (AddProps_Model.search p s).
Proof.
  intros p s. unfold AddProps_Model.search, AddProps_Model.compile. apply avoids_bind; [|intros; apply avoids_ok].
  apply avoids_bind; [apply parse_typed|]. intros (a & n) _. destruct (snd a); [apply avoids_ok|discriminate].
Qed.
Lemma fill_typed : forall ad adn arn ps d, (forall q b, ~ In (q, SBool b) ps) -> avoids TypeError (fill_properties ad adn arn ps d).
Proof.
  intros ad adn arn ps. induction ps as [|(p & s) ps IH]; intros d H; simpl; [apply avoids_ok|]. apply avoids_bind.
  - destruct s as [b|ks]; [destruct (H p b); now left|apply avoids_ok].
  - intros d' _. apply IH. intros q b I. apply (H q b). now right.
Qed.
Lemma iter_typed : forall ad adn arn defs n stop s v, (filling ad adn arn = true -> forall t, reaches defs s t -> object_props t) ->
  avoids TypeError (iter_errors ad adn arn defs n stop s v).
Proof.
  intros ad adn arn defs n. induction n as [|n IH]; intros stop s v H; [discriminate|].
  destruct s as [[|]|kws]; [apply avoids_ok|apply avoids_ok|]. simpl. destruct (the_ref kws) as [r|] eqn:Er.
  - destruct (sget r defs) as [s|] eqn:Es; [|discriminate]. apply IH. intros Hf t T. apply (H Hf). eapply reach_ref; eauto. now apply find_ref.
  - apply keywords_avoids; [exact search_typed| |].
    + intros k s Ik U st v'. apply IH. intros Hf t T. apply (H Hf). eapply reach_sub; eauto.
    + intros ps d Ip Hf. apply fill_typed. intros q b. apply (H Hf (SObj kws) (reach_self _ _) kws ps q b eq_refl Ip).
Qed.
(** Boolean sub-schemas of named properties *)
Lemma fill_untyped : forall ad adn arn ps d q b, In (q, SBool b) ps -> fill_properties ad adn arn ps d = Raise TypeError.
Proof.
  intros ad adn arn ps. induction ps as [|(p & s) ps IH]; intros d q b I; [destruct I|]. simpl.
  destruct s as [b'|ks]; [reflexivity|]. destruct I as [E|I]; [discriminate|]. simpl. eapply IH; eauto.
Qed.

(** *** Enough levels *)
Lemma quantifier_rest : forall f s a s', AddProps_Model.with_quantifier f s = Ok (a, s') -> length s' <= length s.
Proof.
  intros f [|c s] a s' H; unfold AddProps_Model.with_quantifier in H.
  - injection H as <- <-. auto.
  - repeat match type of H with context [if ?b then _ else _] => destruct b end; try discriminate; injection H as <- <-; simpl; lia.
Qed.
Lemma quantifier_fuel : forall f s, avoids OutOfFuel (AddProps_Model.with_quantifier f s).
Proof. intros f [|c s]; unfold AddProps_Model.with_quantifier; avoids_tac. Qed.
Lemma not_quantified_fuel : forall s, avoids OutOfFuel (AddProps_Model.not_quantified s).
Proof. intros [|c s]; unfold AddProps_Model.not_quantified; avoids_tac. Qed.

Definition ends (s : pystr) (r : res (AddProps_Model.rx * pystr * nat)) : Prop :=
  match r with Ok (a, _) => length (snd a) <= length s | Raise e => e <> OutOfFuel end.
Lemma ends_bind : forall s A (r : res A) (f : A -> res (AddProps_Model.rx * pystr * nat)),
  avoids OutOfFuel r -> (forall x, r = Ok x -> ends s (f x)) -> ends s (rbind r f).
Proof. intros s A [x|e] f H G; simpl; [now apply G|]. intros ->. now apply H. Qed.
Lemma ends_avoids : forall s r, ends s r -> avoids OutOfFuel r.
Proof. intros s [(a & n)|e] H; [discriminate|]. intros E. apply H. congruence. Qed.
Lemma ends_shorter : forall s s' r, ends s r -> length s <= length s' -> ends s' r.
Proof. intros s s' [(a & n)|e] H L; simpl in *; [lia|exact H]. Qed.
Lemma parse_ends : forall n,
  (forall s k o, 2 * length s + 2 <= n -> ends s (AddProps_Model.parse_alt n s k o)) /\
  (forall s k o, 2 * length s + 1 <= n -> ends s (AddProps_Model.parse_seq n s k o)).
Proof.
  intros n. induction n as [|n (IHa & IHs)]; (split; intros s k o L); try lia.
  - cbn [AddProps_Model.parse_alt]. assert (H := IHs s k o ltac:(lia)). apply ends_bind; [eapply ends_avoids; eauto|].
    intros ((x & rest) & n1) E. rewrite E in H. simpl in H. cbn [snd fst]. destruct rest as [|c s']; [simpl; lia|].
    destruct (c =? chr "|")%N; [|simpl in *; lia]. simpl in H. assert (H' := IHa s' n1 o ltac:(lia)).
    apply ends_bind; [eapply ends_avoids; eauto|]. intros ((y & rest') & n2) E'. rewrite E' in H'. simpl in *. lia.
  - cbn [AddProps_Model.parse_seq]. destruct s as [|c s]; [simpl; lia|]. simpl in L.
    assert (Sq : forall s1 k1 o1 (g : AddProps_Model.rx -> AddProps_Model.rx), length s1 <= length s ->
      ends (c :: s) (do (b, n2) <- AddProps_Model.parse_seq n s1 k1 o1; Ok (g (fst b), snd b, n2))).
    { intros s1 k1 o1 g L1. assert (H := IHs s1 k1 o1 ltac:(lia)). apply ends_bind; [eapply ends_avoids; eauto|].
      intros ((y & rest) & n2) E. rewrite E in H. simpl in *. lia. }
    assert (Si : forall f s1 (n1 := k), length s1 <= length s ->
      ends (c :: s) (do (a, s2) <- AddProps_Model.with_quantifier f s1; do (b, n2) <- AddProps_Model.parse_seq n s2 k o; Ok (AddProps_Model.XSeq a (fst b), snd b, n2))).
    { intros f s1 n1 L1. apply ends_bind; [apply quantifier_fuel|]. intros (a & s2) E. apply quantifier_rest in E.
      apply (Sq s2 k o (AddProps_Model.XSeq a)). lia. }
    cbv zeta. destruct ((c =? chr "|")%N || (c =? chr ")")%N); [simpl; lia|].
    destruct (c =? chr "(")%N.
    { apply ends_bind; [apply not_quantified_fuel|]. intros _ _. assert (H := IHa s (S k) (k :: o) ltac:(lia)).
      apply ends_bind; [eapply ends_avoids; eauto|]. intros ((x & rest) & n1) E. rewrite E in H. simpl in H. cbn [snd fst].
      destruct rest as [|d s1]; [discriminate|]. destruct (d =? chr ")")%N; [|discriminate]. simpl in H.
      apply ends_bind; [apply not_quantified_fuel|]. intros _ _. apply (Sq s1 n1 o (AddProps_Model.XSeq (AddProps_Model.XGrp k x))). lia. }
    destruct (c =? chr "^")%N; [apply ends_bind; [apply not_quantified_fuel|]; intros _ _; apply (Sq s k o (AddProps_Model.XSeq AddProps_Model.XBos)); lia|].
    destruct (c =? chr "$")%N; [apply ends_bind; [apply not_quantified_fuel|]; intros _ _; apply (Sq s k o (AddProps_Model.XSeq AddProps_Model.XEos)); lia|].
    destruct (c =? chr ".")%N; [apply Si; lia|].
    destruct (c =? chr "\")%N.
    { destruct s as [|d s1]; [discriminate|]. simpl in L. destruct ((49 <=? d)%N && (d <=? 57)%N).
      - destruct (match s1 with e :: _ => is_digit e || AddProps_Model.quantifier e | [] => false end); [discriminate|].
        destruct ((k <=? _)%nat || _); [discriminate|]. apply (Sq s1 k o (AddProps_Model.XSeq (AddProps_Model.XRef (N.to_nat (d - 48))))). simpl. lia.
      - destruct (AddProps_Model.special d); [|discriminate]. apply Si. simpl. lia. }
    destruct (AddProps_Model.quantifier c && _); [discriminate|]. destruct (AddProps_Model.special c); [discriminate|]. apply Si. lia.
Qed.
Lemma search_fuel : forall p s, avoids OutOfFuel (AddProps_Model.search p s).
Proof.
  intros p s. unfold AddProps_Model.search, AddProps_Model.compile. apply avoids_bind; [|intros; apply avoids_ok].
  apply avoids_bind; [|intros (a & n) _; destruct (snd a); [apply avoids_ok|discriminate]].
  eapply ends_avoids. apply parse_ends. lia.
Qed.
Lemma fill_fuel : forall ad adn arn ps d, avoids OutOfFuel (fill_properties ad adn arn ps d).
Proof.
  intros ad adn arn ps. induction ps as [|(p & s) ps IH]; intros d; simpl; [apply avoids_ok|]. apply avoids_bind.
  - destruct s as [b|ks]; [discriminate|apply avoids_ok].
  - intros d' _. apply IH.
Qed.

(** The sub-schemas of a keyword, as a list *)
Definition subs (k : keyword) : list vschema :=
  match k with
  | VProps ps | VPatterns ps | VDepends ps => map snd ps
  | VAddProps s | VNames s | VItems s | VAddItems s | VNot s | VContains s => [s]
  | VIf c t e => [c; t; e]
  | VItemsEach ss | VAnyOf ss | VAllOf ss | VOneOf ss => ss
  | _ => []
  end.
Lemma under_subs : forall k s, under k s -> In s (subs k).
Proof.
  intros k s [(sp & H)|[->|[->|(t & e & ->)]]]; [|now left|now left|now left]. destruct H; try (simpl; tauto); simpl; try (now left); try (eapply nth_error_In; eassumption); apply in_map_iff; exists (p, s); auto.
Qed.
Section Induction.
  Variable P : vschema -> Prop.
  Hypothesis Hb : forall b, P (SBool b).
  Hypothesis Ho : forall kws, (forall k, In k kws -> Forall P (subs k)) -> P (SObj kws).
  Fixpoint vschema_ind' (s : vschema) : P s :=
    match s with
    | SBool b => Hb b
    | SObj kws =>
        Ho kws
          (proj1 (Forall_forall _ _)
             ((fix all (kws : list keyword) : Forall (fun k => Forall P (subs k)) kws :=
                 match kws with
                 | [] => Forall_nil _
                 | k :: kws' => Forall_cons k (keyword_ind' k) (all kws')
                 end) kws))
    end
  with keyword_ind' (k : keyword) : Forall P (subs k) :=
    let each := fix each (l : list vschema) : Forall P l :=
      match l with [] => Forall_nil _ | s :: l' => Forall_cons s (vschema_ind' s) (each l') end in
    let named := fix named (l : list (pystr * vschema)) : Forall P (map snd l) :=
      match l with [] => Forall_nil _ | ps :: l' => Forall_cons (snd ps) (vschema_ind' (snd ps)) (named l') end in
    match k with
    | VProps ps => named ps
    | VPatterns ps => named ps
    | VDepends ps => named ps
    | VAddProps s | VNames s | VItems s | VAddItems s | VNot s | VContains s => Forall_cons s (vschema_ind' s) (Forall_nil _)
    | VIf c t e => Forall_cons c (vschema_ind' c) (Forall_cons t (vschema_ind' t) (Forall_cons e (vschema_ind' e) (Forall_nil _)))
    | VItemsEach ss => each ss
    | VAnyOf ss => each ss
    | VAllOf ss => each ss
    | VOneOf ss => each ss
    | _ => Forall_nil _
    end.
End Induction.

Lemma bound_all : forall A (Q : nat -> A -> Prop) l, (forall n m x, Q n x -> n <= m -> Q m x) -> Forall (fun x => exists n, Q n x) l -> exists n, Forall (Q n) l.
Proof.
  intros A Q l M F. induction F as [|x l (n & Hn) F (m & Hm)]; [exists 0; constructor|]. exists (Nat.max n m). constructor.
  - eapply M; [exact Hn|lia].
  - eapply Forall_impl; [|exact Hm]. intros y Hy. eapply M; [exact Hy|lia].
Qed.
Lemma iter_enough : forall ad adn arn defs s, (forall t kws r, reaches defs s t -> t = SObj kws -> ~ In (VRef r) kws) ->
  exists n, forall stop v, iter_errors ad adn arn defs n stop s v <> Raise OutOfFuel.
Proof.
  intros ad adn arn defs s. induction s as [b|kws IH] using vschema_ind'; intros H.
  - exists 1. intros stop v. destruct b; discriminate.
  - assert (Mono : forall n m t, (forall stop v, iter_errors ad adn arn defs n stop t v <> Raise OutOfFuel) -> n <= m ->
      forall stop v, iter_errors ad adn arn defs m stop t v <> Raise OutOfFuel).
    { intros n m t Hn L stop v. rewrite (iter_levels ad adn arn defs n m stop t v _ eq_refl (Hn stop v) L). apply Hn. }
    assert (Hr : the_ref kws = None).
    { destruct (the_ref kws) as [r|] eqn:E; [|reflexivity]. apply find_ref in E. destruct (H (SObj kws) kws r (reach_self _ _) eq_refl E). }
    assert (B : exists n, Forall (fun t => forall stop v, iter_errors ad adn arn defs n stop t v <> Raise OutOfFuel)
      (flat_map subs kws)).
    { apply bound_all; [exact Mono|]. apply Forall_forall. intros t It.
      apply in_flat_map in It. destruct It as (k & Ik & It). specialize (IH k Ik). rewrite Forall_forall in IH. apply (IH t It).
      intros t' kws' r R. apply (H t' kws' r). eapply reach_sub; [exact Ik| |exact R].
      clear -It. destruct k; simpl in It; try (destruct It as [<-|[<-|[<-|[]]]]; [right; right; right; eauto|left; eexists; constructor|left; eexists; constructor]);
        try destruct It as [<-|[]]; try (now destruct It);
        try (left; eexists; constructor; fail); try (right; left; reflexivity); try (right; right; left; reflexivity);
        try (apply in_map_iff in It; destruct It as ((p & s') & <- & It); left; eexists; econstructor; exact It);
        try (apply In_nth_error in It; destruct It as (i & Ei); left; eexists; econstructor; exact Ei). }
    destruct B as (n & B). exists (S n). intros stop v. simpl. rewrite Hr. rewrite Forall_forall in B.
    change (avoids OutOfFuel (keywords ad adn arn (iter_errors ad adn arn defs n) stop kws kws v)).
    apply keywords_avoids; [exact search_fuel| |intros; apply fill_fuel].
    intros k t Ik U st v'. apply B. apply in_flat_map. exists k. split; [exact Ik|now apply under_subs].
Qed.
