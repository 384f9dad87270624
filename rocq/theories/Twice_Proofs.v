(** * Visiting twice: proofs *)
From Coq Require Import String Lia.
From Verif Require Import PyBase PyBase_Proofs Json Pandel_Model Pandel_Proofs Visit_Model Visit_Spec Visit_Proofs Visit2_Proofs Visit4_Proofs Twice_Spec.
From Verif Require AddProps_Model Enum_Model.

Lemma grown_null : forall x, grown x JNull -> x = JNull.
Proof. intros x H. now inversion H. Qed.

Lemma replace_length : forall A i (x : A) l, length (replace_nth i x l) = length l.
Proof. intros A i x l. revert i. induction l as [|y l IH]; intros [|i]; simpl; auto. Qed.
Lemma replace_eq : forall A i (x : A) l, i < length l -> nth_error (replace_nth i x l) i = Some x.
Proof. intros A i x l. revert i. induction l as [|y l IH]; intros [|i] H; simpl in *; try lia; auto. apply IH. lia. Qed.
Lemma replace_neq : forall A i j (x : A) l, i <> j -> nth_error (replace_nth i x l) j = nth_error l j.
Proof. intros A i j x l. revert i j. induction l as [|y l IH]; intros [|i] [|j] H; simpl; auto; try lia. Qed.

(** ** A pass without errors *)
Section Passing.
  Variable D : bool -> vschema -> json -> out.
  Hypothesis HG : forall st s v v' es, D st s v = Ok (v', es) -> grown v v'.
  Variable stop : bool.

  Definition keyed (x : pystr * list part * vschema) : option part * list part * vschema :=
    match x with (q, sp, s) => (Some (PKey q), sp, s) end.

  Lemma visits_keys : forall vs d v', visits D stop (map keyed vs) (JDict d) = Ok (v', []) ->
    exists e, v' = JDict e /\
      (forall q, (forall sp s, ~ In (q, sp, s) vs) -> sget q e = sget q d) /\
      (forall q, sget q e = None <-> sget q d = None) /\
      (forall q, sget q e = Some JNull -> sget q d = Some JNull) /\
      (forall q sp s x', In (q, sp, s) vs -> sget q e = Some x' -> exists sp' s' z, In (q, sp', s') vs /\ D stop s' z = Ok (x', [])).
  Proof.
    induction vs as [|((p & sp) & s) vs IH]; intros d v' H; cbn [map keyed visits] in H.
    - injection H as <-. exists d. repeat split; auto. intros q sp s x' [].
    - cbn [child] in H. destruct (sget p d) as [x|] eqn:Ex.
      + inv_bind H. destruct r as (x1 & es1). cbn [put] in H. rewrite none_map in H. destruct es1 as [|e1 es1].
        2:{ exfalso. destruct stop; simpl in H; [discriminate|]. inv_bind H. destruct r. discriminate. }
        simpl in H. rewrite Bool.andb_false_r in H. inv_bind H. destruct r as (v2 & es2). injection H as <- ->.
        destruct (IH _ _ E0) as (e & -> & A & B & C & G). exists e. split; [reflexivity|]. split; [|split; [|split]].
        * intros q N. rewrite A by (intros sp' s' I; apply (N sp' s'); now right). apply sget_sset_neq. intros ->. apply (N sp s). now left.
        * intros q. rewrite B. destruct (list_eq_dec N.eq_dec p q) as [<-|K]; [rewrite sget_sset_eq, Ex; split; discriminate|].
          rewrite sget_sset_neq by exact K. reflexivity.
        * intros q Hq. apply C in Hq. destruct (list_eq_dec N.eq_dec p q) as [<-|K].
          -- rewrite sget_sset_eq in Hq. injection Hq as ->. apply HG in E. apply grown_null in E. now subst x.
          -- rewrite sget_sset_neq in Hq by exact K. exact Hq.
        * intros q sp' s' x' I Hq.
          assert (Dec : (exists sp2 s2, In (q, sp2, s2) vs) \/ forall sp2 s2, ~ In (q, sp2, s2) vs).
          { clear. induction vs as [|((a & b) & c) vs IH]; [right; intros sp2 s2 []|]. destruct (list_eq_dec N.eq_dec a q) as [->|K].
            - left. exists b, c. now left.
            - destruct IH as [(b' & c' & I)|N]; [left; exists b', c'; now right|]. right. intros b' c' [Eq|I]; [congruence|exact (N _ _ I)]. }
          destruct Dec as [(sp2 & s2 & I2)|N].
          -- destruct (G _ _ _ _ I2 Hq) as (sp3 & s3 & z & I3 & Z). exists sp3, s3, z. split; [now right|exact Z].
          -- destruct I as [Eq|I]; [|destruct (N _ _ I)]. injection Eq as <- <- <-. rewrite A in Hq by exact N. rewrite sget_sset_eq in Hq. injection Hq as ->.
             exists sp, s, x. split; [now left|exact E].
      + destruct (IH _ _ H) as (e & -> & A & B & C & G). exists e. split; [reflexivity|]. split; [|split; [exact B|split; [exact C|]]].
        * intros q N. apply A. intros sp' s' I. apply (N sp' s'). now right.
        * intros q sp' s' x' [Eq|I] Hq.
          -- injection Eq as <- <- <-. assert (sget p e = None) by (now apply B). congruence.
          -- destruct (G _ _ _ _ I Hq) as (sp3 & s3 & z & I3 & Z). exists sp3, s3, z. split; [now right|exact Z].
  Qed.

  Lemma visits_indices : forall s is l v', visits D stop (map (fun i => (Some (PIdx i), [], s)) is) (JList l) = Ok (v', []) ->
    exists m, v' = JList m /\ length m = length l /\
      (forall i, ~ In i is -> nth_error m i = nth_error l i) /\
      (forall i x', In i is -> nth_error m i = Some x' -> exists z, D stop s z = Ok (x', [])).
  Proof.
    intros s is. induction is as [|j is IH]; intros l v' H; cbn [map visits] in H.
    - injection H as <-. exists l. repeat split; auto. intros i x' [].
    - cbn [child] in H. destruct (nth_error l j) as [x|] eqn:Ex.
      + inv_bind H. destruct r as (x1 & es1). cbn [put] in H. rewrite none_map in H. destruct es1 as [|e1 es1].
        2:{ exfalso. destruct stop; simpl in H; [discriminate|]. inv_bind H. destruct r. discriminate. }
        simpl in H. rewrite Bool.andb_false_r in H. inv_bind H. destruct r as (v2 & es2). injection H as <- ->.
        destruct (IH _ _ E0) as (m & -> & L & A & G). rewrite replace_length in L. exists m. split; [reflexivity|]. split; [exact L|]. split.
        * intros i N. rewrite A by (intros I; apply N; now right). apply replace_neq. intros ->. apply N. now left.
        * intros i x' I Hi. destruct (in_dec PeanoNat.Nat.eq_dec i is) as [I'|N]; [exact (G i x' I' Hi)|].
          destruct I as [<-|I]; [|now destruct N]. rewrite A in Hi by exact N. rewrite replace_eq in Hi.
          -- injection Hi as ->. eauto.
          -- apply nth_error_Some. congruence.
      + destruct (IH _ _ H) as (m & -> & L & A & G). exists m. split; [reflexivity|]. split; [exact L|]. split.
        * intros i N. apply A. intros I. apply N. now right.
        * intros i x' [<-|I] Hi; [|exact (G i x' I Hi)]. exfalso. apply nth_error_None in Ex. assert (j < length m) by (apply nth_error_Some; congruence). lia.
  Qed.
End Passing.

(** ** Where nothing changes *)
Lemma visits_still : forall D stop vs v,
  (forall a sp s x, In (a, sp, s) vs -> child a v = Some x -> D stop s x = Ok (x, [])) -> visits D stop vs v = Ok (v, []).
Proof.
  intros D stop vs v. induction vs as [|((a & sp) & s) vs IH]; intros H; simpl; [reflexivity|].
  rewrite IH by (intros a' sp' s' x I; apply (H a' sp' s' x); now right).
  destruct (child a v) as [x|] eqn:Ex; [|reflexivity]. rewrite (H a sp s x) by (auto; now left). cbn [rbind map none negb].
  rewrite Bool.andb_false_r, (put_same _ _ _ Ex), IH by (intros a' sp' s' y I; apply (H a' sp' s' y); now right). reflexivity.
Qed.

Definition wants (ad adn : bool) (sub : list keyword) (given : option json) : bool :=
  (first_defined (the_auto sub) ad && match given with None => true | Some _ => false end)
  || (first_defined (the_auto_null sub) adn && negb (null_in_type (the_type sub)) && match given with Some v => is_null v | None => false end).
(** Filling has nothing to do for a property *)
Definition filled (ad adn : bool) (s : vschema) (given : option json) : Prop :=
  exists sub, s = SObj sub /\ forall w, the_default sub = Some w -> wants ad adn sub given = true -> given = Some w.

Lemma fill_property_cases : forall ad adn p sub d, the_remove_null sub = None ->
  fill_property ad adn false p (SObj sub) d =
  Ok match the_default sub, wants ad adn sub (sget p d) with Some v, true => sset p v d | _, _ => d end.
Proof. intros ad adn p sub d N. unfold fill_property. rewrite N. reflexivity. Qed.

Lemma fill_property_still : forall ad adn p s d, (forall ks v, s = SObj ks -> ~ In (VAutoRemoveNull v) ks) -> filled ad adn s (sget p d) ->
  fill_property ad adn false p s d = Ok d.
Proof.
  intros ad adn p s d N (sub & -> & H). rewrite fill_property_cases.
  - destruct (the_default sub) as [w|]; [|reflexivity]. destruct (wants ad adn sub (sget p d)); [|reflexivity].
    f_equal. apply sset_same. now apply H.
  - apply find_kw_none. intros k I. destruct k; try reflexivity. destruct (N sub v eq_refl I).
Qed.
Lemma fill_property_filled : forall ad adn p s d d', (forall ks v, s = SObj ks -> ~ In (VAutoRemoveNull v) ks) ->
  fill_property ad adn false p s d = Ok d' ->
  filled ad adn s (sget p d') /\ (forall q, q <> p -> sget q d' = sget q d) /\ (forall q, sget q d <> None -> sget q d' <> None).
Proof.
  intros ad adn p s d d' N H. destruct s as [b|sub]; [discriminate|]. rewrite fill_property_cases in H.
  2:{ apply find_kw_none. intros k I. destruct k; try reflexivity. destruct (N sub v eq_refl I). }
  injection H as <-. destruct (the_default sub) as [w|] eqn:Ed; [destruct (wants ad adn sub (sget p d)) eqn:W|].
  - split; [|split].
    + exists sub. split; [reflexivity|]. intros w' E _. rewrite sget_sset_eq. congruence.
    + intros q K. apply sget_sset_neq. congruence.
    + intros q K. destruct (list_eq_dec N.eq_dec p q) as [<-|K']; [rewrite sget_sset_eq; discriminate|]. now rewrite sget_sset_neq.
  - split; [|split; auto]. exists sub. split; [reflexivity|]. intros w' _ E. congruence.
  - split; [|split; auto]. exists sub. split; [reflexivity|]. intros w' E. congruence.
Qed.

Definition keeps_nulls (ps : list (pystr * vschema)) : Prop := forall p ks v, In (p, SObj ks) ps -> ~ In (VAutoRemoveNull v) ks.
Lemma fill_properties_still : forall ad adn ps d, keeps_nulls ps -> (forall p s, In (p, s) ps -> filled ad adn s (sget p d)) ->
  fill_properties ad adn false ps d = Ok d.
Proof.
  intros ad adn ps d. induction ps as [|(p & s) ps IH]; intros K H; simpl; [reflexivity|].
  rewrite fill_property_still; [simpl; apply IH| |].
  - intros p' ks v I. apply (K p' ks v). now right.
  - intros p' s' I. apply H. now right.
  - intros ks v -> I. apply (K p ks v); [now left|exact I].
  - apply H. now left.
Qed.
Lemma fill_properties_filled : forall ad adn ps d d', keeps_nulls ps -> NoDup (map fst ps) -> fill_properties ad adn false ps d = Ok d' ->
  (forall p s, In (p, s) ps -> filled ad adn s (sget p d')) /\
  (forall q, ~ In q (map fst ps) -> sget q d' = sget q d) /\ (forall q, sget q d <> None -> sget q d' <> None).
Proof.
  intros ad adn ps. induction ps as [|(p & s) ps IH]; intros d d' K N H; cbn [fill_properties] in H.
  - injection H as <-. repeat split; auto. intros p s [].
  - inv_bind H. inversion N as [|p0 l0 Np N']; subst.
    destruct (fill_property_filled ad adn p s d r) as (A1 & B1 & C1); [intros ks v -> I; apply (K p ks v); [now left|exact I]|exact E|].
    destruct (IH r d') as (A & B & C); [intros p' ks v I; apply (K p' ks v); now right|exact N'|exact H|]. split; [|split].
    + intros p' s' [Eq|I]; [|now apply A]. injection Eq as <- <-. now rewrite B.
    + intros q Nq. simpl in Nq. rewrite B by tauto. apply B1. intros ->. tauto.
    + auto.
Qed.

(** ** One schema *)
Lemma the_props_in : forall kws ps, NoDup (map name_of kws) -> In (VProps ps) kws -> the_props kws = map fst ps.
Proof.
  intros kws ps. unfold the_props. induction kws as [|k kws IH]; intros N I; [destruct I|].
  inversion N as [|x l Nk N']; subst. destruct I as [->|I]; [reflexivity|]. cbn [find_kw].
  destruct k; try (now apply IH). exfalso. apply Nk. apply in_map_iff. exists (VProps ps). auto.
Qed.

Section Steady.
  Variables ad adn : bool.
  Variable D : bool -> vschema -> json -> out.
  Hypothesis HG : forall st s v v' es, D st s v = Ok (v', es) -> grown v v'.
  (** The visitor of the second time *)
  Variables ad' adn' : bool.
  Variable D' : bool -> vschema -> json -> out.
  Variable stop' : bool.
  Hypothesis flags : ad' || adn' = true -> ad' = ad /\ adn' = adn.
  Variable kws : list keyword.
  Hypothesis HD : forall k s, In k kws -> under k s -> forall st v v', D st s v = Ok (v', []) -> D' stop' s v' = Ok (v', []).
  Hypothesis names : NoDup (map name_of kws).
  Hypothesis steadies : forall k, In k kws -> steady_keyword k.

  Definition stable (k : keyword) (v : json) : Prop :=
    match k with
    | VType ts => existsb (is_type v) ts = true
    | VEnum l => Enum_Model.rule_enum l v = true
    | VMinimum m => match v with JNum z => (m <=? z)%Z | _ => true end = true
    | VMaximum m => match v with JNum z => (z <=? m)%Z | _ => true end = true
    | VConst c => same_value c v = true
    | VExclMin m => match v with JNum z => (m <? z)%Z | _ => true end = true
    | VExclMax m => match v with JNum z => (z <? m)%Z | _ => true end = true
    | VMultiple p => match v with JNum z => (z mod Z.pos p =? 0)%Z | _ => true end = true
    | VMinLength n => match v with JStr s => (n <=? length s)%nat | _ => true end = true
    | VMaxLength n => match v with JStr s => (length s <=? n)%nat | _ => true end = true
    | VPattern p => forall s, v = JStr s -> AddProps_Model.search p s = Ok true
    | VMinItems n => match v with JList l => (n <=? length l)%nat | _ => true end = true
    | VMaxItems n => match v with JList l => (length l <=? n)%nat | _ => true end = true
    | VRequired ps => forall d p, v = JDict d -> In p ps -> sget p d <> None
    | VProps ps => forall d p s, v = JDict d -> In (p, s) ps ->
        (ad' || adn' = true -> filled ad' adn' s (sget p d)) /\ (forall x, sget p d = Some x -> D' stop' s x = Ok (x, []))
    | VAddProps s => forall d q x, v = JDict d -> sget q d = Some x -> ~ In q (the_props kws) ->
        match s with SObj _ => D' stop' s x = Ok (x, []) | SBool b => b = true end
    | VItems s => forall l x, v = JList l -> In x l -> D' stop' s x = Ok (x, [])
    | _ => True
    end.

  Lemma no_patterns : the_patterns kws = [].
  Proof.
    unfold the_patterns. destruct (find_kw _ kws) as [l|] eqn:E; [|reflexivity]. apply find_kw_first in E.
    destruct E as (k & (b & a & -> & _) & E). destruct k; try discriminate. exfalso.
    apply (steadies (VPatterns ps)). apply in_or_app. right. now left.
  Qed.
  Lemma extras_ok : forall d, exists l,
    AddProps_Model.find_additional_properties (the_props kws) (the_patterns kws) (map (fun kv : pystr * json => AddProps_Model.KStr (fst kv)) d) = Ok l.
  Proof.
    rewrite no_patterns. intros d. induction d as [|(q & x) d (l & IH)]; [exists []; reflexivity|].
    cbn [map fst AddProps_Model.find_additional_properties]. rewrite IH.
    destruct (AddProps_Model.is_named _ _); cbn; eexists; reflexivity.
  Qed.
  Lemma extras_are : forall d l, AddProps_Model.find_additional_properties (the_props kws) (the_patterns kws) (map (fun kv : pystr * json => AddProps_Model.KStr (fst kv)) d) = Ok l ->
    forall q, In (AddProps_Model.KStr q) l <-> sget q d <> None /\ ~ In q (the_props kws).
  Proof.
    intros d l H q. rewrite (extras_in _ _ _ _ H), no_patterns, sget_some_in. simpl. split.
    - intros ((x & Ex) & N & _). split; [congruence|exact N].
    - intros (N1 & N). split; [|auto]. destruct (sget q d) as [x|]; [eauto|congruence].
  Qed.

  Lemma stable_rule : forall k v, In k kws -> stable k v -> rule ad' adn' false D' stop' kws k v = Ok (v, []).
  Proof.
    intros k v I S. assert (T := steadies k I). destruct k; cbn [rule stable steady_keyword] in *; try contradiction; try reflexivity; unfold unless.
    all: try (rewrite S; reflexivity).
    - (* pattern *) destruct v as [| | |s| |]; try reflexivity. now rewrite (S s eq_refl).
    - (* required *) f_equal. f_equal. destruct v; try reflexivity. assert (Q : forall p, In p ps -> smem p d = true).
      { intros p Ip. specialize (S d p eq_refl Ip). apply sget_mem. destruct (sget p d) as [x|]; [eauto|congruence]. }
      clear S T I. induction ps as [|p ps IH]; simpl; [reflexivity|]. rewrite Q by (now left). simpl. apply IH. intros q Iq. apply Q. now right.
    - (* properties *) destruct v; try reflexivity. destruct T as (N & K). unfold filling. rewrite Bool.orb_false_r.
      assert (F : (if ad' || adn' then fill_properties ad' adn' false ps d else Ok d) = Ok d).
      { destruct (ad' || adn') eqn:F; [|reflexivity]. apply fill_properties_still; [exact K|]. intros p s Ip. now apply (S d p s eq_refl Ip). }
      rewrite F. cbn [rbind]. apply visits_still. intros a sp s x Ia Hc. apply in_map_iff in Ia. destruct Ia as ((p & s0) & Eq & Ip). injection Eq as <- <- <-.
      cbn [child fst snd] in *. now apply (S d p s0 eq_refl Ip).
    - (* additional properties *) destruct v; try reflexivity. destruct (extras_ok d) as (l & El). rewrite El. cbn [rbind].
      assert (Q := extras_are _ _ El). destruct s as [b|ks].
      + destruct b; [reflexivity|]. destruct l as [|x l]; [reflexivity|]. exfalso.
        assert (Ix := extras_text _ _ _ _ El x (or_introl eq_refl)).
        destruct (proj1 (Q (text_of x))) as (N1 & N2); [rewrite <- Ix; now left|]. destruct (sget (text_of x) d) as [y|] eqn:Ey; [|congruence].
        specialize (S d _ y eq_refl Ey N2). discriminate.
      + apply visits_still. intros a sp s x Ia Hc. apply in_map_iff in Ia. destruct Ia as (q & Eq & Iq). injection Eq as <- <- <-. cbn [child] in Hc.
        rewrite (extras_text _ _ _ _ El q Iq) in Iq. apply Q in Iq. apply (S d _ x eq_refl Hc). tauto.
    - (* items *) destruct v; try reflexivity. apply visits_still. intros a sp s0 x Ia Hc. apply in_map_iff in Ia. destruct Ia as (i & Eq & Ii). injection Eq as <- <- <-.
      cbn [child] in Hc. apply (S l x eq_refl). eapply nth_error_In. exact Hc.
  Qed.

  (** What a rule changes *)
  Definition touched (k : keyword) (v v' : json) : Prop :=
    v' = v \/
    match k with
    | VProps ps => exists d e, v = JDict d /\ v' = JDict e /\ (forall q, sget q d <> None -> sget q e <> None) /\ (forall q, ~ In q (map fst ps) -> sget q e = sget q d)
    | VAddProps _ => exists d e, v = JDict d /\ v' = JDict e /\ (forall q, sget q e = None <-> sget q d = None) /\ (forall q, In q (the_props kws) -> sget q e = sget q d)
    | VItems _ => exists l m, v = JList l /\ v' = JList m /\ length m = length l
    | _ => False
    end.

  Lemma unless_passes : forall b k v v', unless b k v = Ok (v', []) -> v' = v /\ b = true.
  Proof. intros b k v v' H. unfold unless in H. injection H as <- H. destruct b; [auto|discriminate]. Qed.

  Lemma rule_passes : forall stop k v v', In k kws -> rule ad adn false D stop kws k v = Ok (v', []) -> touched k v v' /\ stable k v'.
  Proof.
    intros stop k v v' I H. assert (T := steadies k I). destruct k; cbn [rule steady_keyword] in H, T; try contradiction.
    all: try (apply unless_passes in H; destruct H as (-> & H); split; [now left|exact H]).
    all: try (injection H as <-; split; [now left|exact Logic.I]).
    - (* pattern *) destruct v as [| | |s| |]; try (injection H as <-; split; [now left|intros ? ?; discriminate]). inv_bind H.
      apply unless_passes in H. destruct H as (-> & ->). split; [now left|]. intros s' Es. now injection Es as <-.
    - (* required *) injection H as <- H. split; [now left|]. intros d p -> Ip. intros X. revert H Ip. clear - X. induction ps as [|q ps IH]; intros H Ip; [destruct Ip|]. simpl in H. destruct Ip as [->|Ip].
      + destruct (smem p d) eqn:M; [|discriminate]. apply sget_mem in M. destruct M as (x & M). congruence.
      + destruct (smem q d); [|discriminate]. now apply IH.
    - (* properties *) destruct v; try (injection H as <-; split; [now left|intros ? ? ? ?; discriminate]). destruct T as (N & K).
      inv_bind H. rename r into d1.
      assert (F : (ad || adn = true -> forall p s, In (p, s) ps -> filled ad adn s (sget p d1)) /\ (forall q, ~ In q (map fst ps) -> sget q d1 = sget q d) /\ (forall q, sget q d <> None -> sget q d1 <> None)).
      { unfold filling in E. rewrite Bool.orb_false_r in E. destruct (ad || adn) eqn:F.
        - destruct (fill_properties_filled _ _ _ _ _ K N E) as (A & B & C). auto.
        - injection E as <-. split; [discriminate|auto]. }
      destruct F as (F1 & F2 & F3).
      assert (M : map (fun ps : pystr * vschema => (Some (PKey (fst ps)), [PKey (fst ps)], snd ps)) ps = map keyed (map (fun ps => (fst ps, [PKey (fst ps)], snd ps)) ps)).
      { rewrite map_map. apply map_ext. now intros (p & s). }
      rewrite M in H. clear M. destruct (visits_keys D HG stop _ _ _ H) as (e & -> & A & B & C & G). split.
      + right. exists d, e. split; [reflexivity|]. split; [reflexivity|]. split.
        * intros q Q X. apply B in X. now apply F3 in Q.
        * intros q Nq. rewrite <- F2 by exact Nq. apply A. intros sp s Is. apply in_map_iff in Is. destruct Is as ((p & s0) & Eq & Ip). injection Eq as <- _ _.
          apply Nq. apply in_map_iff. exists (p, s0). auto.
      + intros d0 p s Eq Ip. injection Eq as <-. split.
        * intros F. destruct (flags F) as (-> & ->). destruct (F1 F p s Ip) as (sub & -> & W). exists sub. split; [reflexivity|]. intros w Ew Hw.
          destruct (sget p e) as [x|] eqn:Ex.
          -- assert (x = JNull) as ->. { unfold wants in Hw. rewrite !Bool.andb_false_r in Hw. simpl in Hw. apply Bool.andb_true_iff in Hw. destruct x; try reflexivity; destruct Hw; discriminate. }
             assert (Z := C p Ex). specialize (W w Ew). rewrite Z in W. apply W in Hw. exact Hw.
          -- assert (Z : sget p d1 = None) by (now apply B). specialize (W w Ew). rewrite Z in W. now apply W in Hw.
        * intros x Ex. destruct (G p [PKey p] s x) as (sp' & s' & z & I' & Z); [apply in_map_iff; exists (p, s); auto|exact Ex|].
          apply in_map_iff in I'. destruct I' as ((p' & s0) & Eq & Ip'). injection Eq as -> <- ->.
          assert (s' = s) as ->.
          { clear - N Ip Ip'. simpl in *. induction ps as [|(a & b) ps IH]; [destruct Ip|]. inversion N as [|x l Na N']; subst.
            destruct Ip as [Eq|Ip], Ip' as [Eq'|Ip'].
            - congruence.
            - injection Eq as -> ->. exfalso. apply Na. apply in_map_iff. exists (p, s'). auto.
            - injection Eq' as -> ->. exfalso. apply Na. apply in_map_iff. exists (p, s). auto.
            - now apply IH. }
          eapply HD; [exact I| |exact Z]. left. exists [PKey p]. constructor. exact Ip.
    - (* additional properties *) destruct v; try (injection H as <-; split; [now left|intros ? ? ? ?; discriminate]).
      destruct (extras_ok d) as (l & El). rewrite El in H. cbn [rbind] in H. assert (Q := extras_are _ _ El). destruct s as [b|ks].
      + apply unless_passes in H. destruct H as (-> & H). split; [now left|]. intros d0 q x Eq Ex Nq. injection Eq as <-.
        destruct b; [reflexivity|]. simpl in H. apply none_nil in H. subst l. destruct (proj2 (Q q)). split; [congruence|exact Nq].
      + assert (M : map (fun x => (Some (PKey (text_of x)), @nil part, SObj ks)) l = map keyed (map (fun x => (text_of x, [], SObj ks)) l)).
        { rewrite map_map. reflexivity. }
        rewrite M in H. clear M. destruct (visits_keys D HG stop _ _ _ H) as (e & -> & A & B & C & G). split.
        * right. exists d, e. split; [reflexivity|]. split; [reflexivity|]. split; [exact B|]. intros q Iq. apply A. intros sp s Is.
          apply in_map_iff in Is. destruct Is as (x & Eq & Ix). injection Eq as <- _ _. rewrite (extras_text _ _ _ _ El x Ix) in Ix. apply Q in Ix. tauto.
        * intros d0 q x Eq Ex Nq. injection Eq as <-. destruct (G q [] (SObj ks) x) as (sp' & s' & z & I' & Z); [|exact Ex|].
          -- apply in_map_iff. exists (AddProps_Model.KStr q). split; [reflexivity|]. apply Q. split; [|exact Nq]. intros X. apply B in X. congruence.
          -- apply in_map_iff in I'. destruct I' as (y & Eq & _). injection Eq as _ _ <-. eapply HD; [exact I| |exact Z]. left. exists []. constructor.
    - (* items *) destruct v; try (injection H as <-; split; [now left|intros ? ? ?; discriminate]).
      destruct (visits_indices D stop _ _ _ _ H) as (m & -> & L & _ & G). split.
      + right. exists l, m. auto.
      + intros m0 x Eq Ix. injection Eq as <-. apply In_nth_error in Ix. destruct Ix as (i & Ei).
        destruct (G i x) as (z & Z); [|exact Ei|].
        * apply in_seq. assert (i < length m) by (apply nth_error_Some; congruence). lia.
        * eapply HD; [exact I| |exact Z]. left. exists []. constructor.
  Qed.

  Lemma enum_scalar : forall l v, (forall x, In x l -> scalar x) -> Enum_Model.rule_enum l v = true -> scalar v.
  Proof.
    intros l v H R. destruct v as [|b|z|s|m|d]; try (split; intros; discriminate); exfalso; simpl in R; apply existsb_exists in R; destruct R as (x & I & Ex);
      destruct (H x I) as (A & B); destruct x; simpl in Ex; try discriminate; [now apply (A l0)|now apply (B d0)].
  Qed.

  Lemma const_scalar : forall c v, scalar c -> same_value c v = true -> scalar v.
  Proof.
    intros c v (A & B) R. destruct v as [|b|z|s|m|d]; try (split; intros; discriminate); exfalso; destruct c; simpl in R; try discriminate; [now apply (A l)|now apply (B d0)].
  Qed.

  Lemma touched_stable : forall k k' v v', In k kws -> In k' kws -> name_of k <> name_of k' -> touched k' v v' -> stable k v -> stable k v'.
  Proof.
    intros k k' v v' I I' Nn [->|T] S; [exact S|]. destruct k'; try contradiction.
    - (* properties *) destruct T as (d & e & -> & -> & A & B). destruct k; cbn [stable] in *; try exact S; try (now destruct Nn); try (intros ? Q; discriminate Q).
      + exfalso. destruct (enum_scalar _ _ (steadies _ I) S) as (_ & X). now apply (X d).
      + exfalso. destruct (const_scalar _ _ (steadies _ I) S) as (_ & X). now apply (X d).
      + intros e0 p Eq Ip. injection Eq as <-. apply A. now apply (S d p eq_refl).
      + intros e0 q x Eq Ex Nq. injection Eq as <-. apply (S d q x eq_refl); [|exact Nq]. rewrite <- B; [exact Ex|].
        now rewrite <- (the_props_in _ _ names I').
      + intros l x; discriminate.
    - (* additional properties *) destruct T as (d & e & -> & -> & A & B). destruct k; cbn [stable] in *; try exact S; try (now destruct Nn); try (intros ? Q; discriminate Q).
      + exfalso. destruct (enum_scalar _ _ (steadies _ I) S) as (_ & X). now apply (X d).
      + exfalso. destruct (const_scalar _ _ (steadies _ I) S) as (_ & X). now apply (X d).
      + intros e0 p Eq Ip X. injection Eq as <-. apply A in X. now apply (S d p eq_refl).
      + intros e0 p s0 Eq Ip. injection Eq as <-. rewrite B; [now apply (S d p s0 eq_refl)|]. rewrite (the_props_in _ _ names I). apply in_map_iff. exists (p, s0). auto.
      + intros l x; discriminate.
    - (* items *) destruct T as (l & m & -> & -> & L). destruct k; cbn [stable] in *; try exact S; try (now destruct Nn); try (now rewrite L); try (intros; discriminate).
      + exfalso. destruct (enum_scalar _ _ (steadies _ I) S) as (X & _). now apply (X l).
      + exfalso. destruct (const_scalar _ _ (steadies _ I) S) as (X & _). now apply (X l).
  Qed.

  Lemma keywords_stable : forall stop todo done v v', kws = done ++ todo -> (forall k, In k done -> stable k v) ->
    keywords ad adn false D stop kws todo v = Ok (v', []) -> forall k, In k kws -> stable k v'.
  Proof.
    intros stop todo. induction todo as [|k todo IH]; intros done v v' Ek Hd H; cbn [keywords] in H.
    - injection H as <-. intros k I. apply Hd. rewrite Ek, app_nil_r in I. exact I.
    - inv_bind H. destruct r as (v1 & es1). rewrite none_map in H. destruct es1 as [|e1 es1].
      2:{ exfalso. destruct stop; simpl in H; [discriminate|]. inv_bind H. destruct r. discriminate. }
      simpl in H. rewrite Bool.andb_false_r in H. inv_bind H. destruct r as (v2 & es2). injection H as <- ->.
      assert (Ik : In k kws) by (rewrite Ek; apply in_or_app; right; now left).
      destruct (rule_passes _ _ _ _ Ik E) as (T & S).
      apply (IH (done ++ [k]) v1 v2); [rewrite <- app_assoc; exact Ek| |exact E0].
      intros k0 I0. apply in_app_iff in I0. destruct I0 as [I0|[<-|[]]]; [|exact S].
      apply (touched_stable k0 k v v1); auto.
      + rewrite Ek. apply in_or_app. now left.
      + intros En. rewrite Ek, map_app in names. simpl in names. apply NoDup_remove_2 in names. apply names. rewrite <- En. apply in_or_app. left. now apply in_map.
  Qed.

  Lemma keywords_still : forall todo v, (forall k, In k todo -> In k kws) -> (forall k, In k kws -> stable k v) ->
    keywords ad' adn' false D' stop' kws todo v = Ok (v, []).
  Proof.
    induction todo as [|k todo IH]; intros v I S; cbn [keywords]; [reflexivity|].
    rewrite stable_rule by (auto using in_eq). cbn [rbind map none negb]. rewrite Bool.andb_false_r, IH; [reflexivity| |exact S].
    intros k0 I0. apply I. now right.
  Qed.
End Steady.

Lemma iter_steady : forall ad adn ad' adn' defs n, (ad' || adn' = true -> ad' = ad /\ adn' = adn) -> forall stop stop' s v v',
  (forall t, reaches defs s t -> steady t) ->
  iter_errors ad adn false defs n stop s v = Ok (v', []) -> iter_errors ad' adn' false defs n stop' s v' = Ok (v', []).
Proof.
  intros ad adn ad' adn' defs n F. induction n as [|n IH]; intros stop stop' s v v' S H; [discriminate|]. cbn [iter_errors] in *.
  destruct s as [b|kws].
  - destruct b; [reflexivity|discriminate].
  - destruct (the_ref kws) as [r|] eqn:Er.
    + destruct (sget r defs) as [s|] eqn:Es; [|discriminate]. eapply IH; [|exact H]. intros t R. apply S. eapply reach_ref; [|exact Es|exact R].
      apply the_ref_some in Er. destruct Er as (b & a & -> & _). apply in_or_app. right. now left.
    + destruct (S (SObj kws) (reach_self _ _) kws eq_refl) as (N & K).
      assert (HD : forall k s, In k kws -> under k s -> forall st v v', iter_errors ad adn false defs n st s v = Ok (v', []) -> iter_errors ad' adn' false defs n stop' s v' = Ok (v', [])).
      { intros k s I U st w w' Hw. eapply IH; [|exact Hw]. intros t R. apply S. eapply reach_sub; eassumption. }
      eapply (keywords_still ad adn (iter_errors ad adn false defs n)); try eassumption; [auto|].
      eapply (keywords_stable ad adn (iter_errors ad adn false defs n)); try eassumption.
      * intros st s0 w w' es Hw. exact (proj1 (iter_grown _ _ _ _ _ _ _ _ _ _ Hw)).
      * instantiate (1 := []). reflexivity.
      * intros k [].
Qed.
