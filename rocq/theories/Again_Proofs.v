(** * Validating again: lemmas *)
From Coq Require Import String Lia.
From Verif Require Import PyBase PyBase_Proofs Json JsonPointer_Model Pandel_Model Pandel_Spec Pandel_Proofs.

(** ** Words *)
Lemma kw_get_in : forall A (sel : kw -> option A) s k a, (forall k' a', sel k' = Some a' -> word k' = word k) -> NoDup (map word s) -> In k s -> sel k = Some a ->
  kw_get sel s = Some a.
Proof.
  intros A sel s k a W. induction s as [|k0 s IH]; intros N I E; [destruct I|]. cbn [kw_get]. cbn [map] in N. inversion N as [|? ? Nk Ns]; subst. destruct I as [->|I].
  - rewrite E. reflexivity.
  - destruct (sel k0) as [a'|] eqn:E0; [|exact (IH Ns I E)]. exfalso. apply Nk. rewrite (W k0 a' E0). now apply in_map.
Qed.
Lemma kw_get_some : forall A (sel : kw -> option A) s a, kw_get sel s = Some a -> exists k, In k s /\ sel k = Some a.
Proof.
  induction s as [|k s IH]; intros a E; [discriminate|]. cbn [kw_get] in E. destruct (sel k) as [b|] eqn:Ek.
  - injection E as ->. exists k. split; [now left|exact Ek].
  - destruct (IH a E) as (k' & I & F). exists k'. split; [now right|exact F].
Qed.

Section Words.
  Variable sub : schema.
  Hypothesis N : NoDup (map word sub).
  Lemma default_is : forall w, get_default sub = Some w <-> In (KDefault w) sub.
  Proof.
    intros w. split; intros H.
    - apply kw_get_some in H. destruct H as ([] & I & E); try discriminate. injection E as ->. exact I.
    - apply (kw_get_in _ _ _ (KDefault w)); auto. intros [] a E; try discriminate. reflexivity.
  Qed.
  Lemma auto_is : forall w, get_auto sub = Some w <-> In (KAutoDefault w) sub.
  Proof.
    intros w. split; intros H.
    - apply kw_get_some in H. destruct H as ([] & I & E); try discriminate. injection E as ->. exact I.
    - apply (kw_get_in _ _ _ (KAutoDefault w)); auto. intros [] a E; try discriminate. reflexivity.
  Qed.
  Lemma auto_null_is : forall w, get_auto_null sub = Some w <-> In (KAutoDefaultNull w) sub.
  Proof.
    intros w. split; intros H.
    - apply kw_get_some in H. destruct H as ([] & I & E); try discriminate. injection E as ->. exact I.
    - apply (kw_get_in _ _ _ (KAutoDefaultNull w)); auto. intros [] a E; try discriminate. reflexivity.
  Qed.
  Lemma remove_is : forall w, get_remove_null sub = Some w <-> In (KAutoRemoveNull w) sub.
  Proof.
    intros w. split; intros H.
    - apply kw_get_some in H. destruct H as ([] & I & E); try discriminate. injection E as ->. exact I.
    - apply (kw_get_in _ _ _ (KAutoRemoveNull w)); auto. intros [] a E; try discriminate. reflexivity.
  Qed.
  Lemma type_is : forall ts, get_type sub = Some ts <-> In (KType ts) sub.
  Proof.
    intros w. split; intros H.
    - apply kw_get_some in H. destruct H as ([] & I & E); try discriminate. injection E as ->. exact I.
    - apply (kw_get_in _ _ _ (KType w)); auto. intros [] a E; try discriminate. reflexivity.
  Qed.

  Lemma truthy_means : forall v, v <> JNull -> (truthy v = true <-> means_true v).
  Proof.
    intros v Nv. unfold means_true. destruct v as [|[]|z|[|c s]|[|x l]|[|x d]]; cbn; try (split; [discriminate|intros H; exfalso; apply H; tauto]); try contradiction;
      try (split; [intros _; intros H; repeat (destruct H as [H|H]; [discriminate H|]); exact H|reflexivity]).
    destruct (Z.eqb_spec z 0) as [->|Nz]; cbn; (split; [intros H|intros H]); try discriminate; try reflexivity.
    - exfalso. apply H. tauto.
    - intros X. repeat (destruct X as [X|X]; [try discriminate X; injection X as X; congruence|]). exact X.
  Qed.
  Lemma on_is : forall (switch : json -> kw) get flag, (forall w, get sub = Some w <-> In (switch w) sub) -> (first_defined (get sub) flag = true <-> on switch flag sub).
  Proof.
    intros switch get flag G. unfold first_defined, on. destruct (get sub) as [w|] eqn:E.
    - assert (I : In (switch w) sub) by (apply G; reflexivity). assert (U : forall v, In (switch v) sub -> v = w) by (intros v X; apply G in X; congruence).
      assert (X0 : w = JNull \/ w <> JNull) by (destruct w; ((left; reflexivity) || (right; discriminate))). destruct X0 as [->|Nw].
      + split.
        * intros ->. right. split; [exact U|reflexivity].
        * intros [(v & X & M)|(_ & ->)]; [|reflexivity]. rewrite (U v X) in M. exfalso. apply M. now left.
      + assert (X : match w with JNull => flag | _ => truthy w end = truthy w) by (destruct w; [contradiction|reflexivity..]).
        transitivity (truthy w = true); [rewrite <- X; destruct w; reflexivity|]. rewrite (truthy_means w Nw). split.
        * intros M. left. exists w. auto.
        * intros [(v & Y & M)|(A & _)]; [rewrite (U v Y) in M; exact M|]. destruct (Nw (A w I)).
    - split.
      + intros ->. right. split; [|reflexivity]. intros v X. apply G in X. discriminate.
      + intros [(v & X & _)|(_ & ->)]; [apply G in X; discriminate|reflexivity].
  Qed.
  Lemma null_type_is : null_in_type (get_type sub) = false <-> forall ts, In (KType ts) sub -> ~ In TNull ts.
  Proof.
    unfold null_in_type. destruct (get_type sub) as [ts|] eqn:E.
    - split.
      + intros H ts' I J. apply type_is in I. assert (ts' = ts) by congruence. subst. apply not_true_iff_false in H. apply H. apply existsb_exists. exists TNull. split; [exact J|reflexivity].
      + intros H. apply not_true_iff_false. intros X. apply existsb_exists in X. destruct X as (t & I & X). destruct t; try discriminate. apply (H ts); [now apply type_is|exact I].
    - split; [|reflexivity]. intros _ ts I. apply type_is in I. congruence.
  Qed.
End Words.

(** ** A property *)
Lemma tidy_shape : forall s, NoDup (map word s) -> (forall k, In k s -> not_props k) \/
  exists s1 ps s2, s = s1 ++ KProps ps :: s2 /\ (forall k, In k s1 -> not_props k) /\ (forall k, In k s2 -> not_props k).
Proof.
  induction s as [|k s IH]; intros N; [left; intros k []|]. cbn [map] in N. inversion N as [|? ? Nk Ns]; subst.
  assert (X : not_props k \/ exists ps, k = KProps ps) by (destruct k; try (left; exact I); right; eauto). destruct X as [X|(ps & ->)].
  - destruct (IH Ns) as [H|(s1 & ps & s2 & -> & H1 & H2)].
    + left. intros k' [<-|J]; auto.
    + right. exists (k :: s1), ps, s2. split; [reflexivity|]. split; [|exact H2]. intros k' [<-|J]; auto.
  - right. exists [], ps, s. split; [reflexivity|]. split; [intros k' []|]. intros k' J. destruct k'; try exact I. match type of J with In (KProps ?l) _ => apply Nk; change (word (KProps ps)) with (word (KProps l)); now apply in_map end.
Qed.

Section Again.
  Variables auto_default auto_default_nulls auto_remove_nulls : bool.
  Variable other : nat -> json -> list nat.
  Notation fill' := (fill auto_default auto_default_nulls auto_remove_nulls).
  Notation fill_prop' := (fill_prop auto_default auto_default_nulls auto_remove_nulls).
  Notation visit_kw' := (visit_kw auto_default auto_default_nulls auto_remove_nulls other).
  Notation visit' := (visit auto_default auto_default_nulls auto_remove_nulls other).
  Notation visit_props' := (visit_props auto_default auto_default_nulls auto_remove_nulls other).
  Notation fickle' := (fickle auto_default auto_default_nulls auto_remove_nulls).
  Hypothesis I : installed auto_default auto_default_nulls auto_remove_nulls = true.

  (** What [fill_prop] makes of a property *)
  Definition filled (sub : schema) (given : option json) : option json :=
    match given with
    | Some JNull =>
        if first_defined (get_auto_null sub) auto_default_nulls && negb (null_in_type (get_type sub)) then
          match get_default sub with
          | Some w => Some w
          | None => if first_defined (get_remove_null sub) auto_remove_nulls then None else Some JNull
          end
        else if first_defined (get_remove_null sub) auto_remove_nulls && negb (null_in_type (get_type sub)) then None else Some JNull
    | Some v => Some v
    | None => if first_defined (get_auto sub) auto_default then get_default sub else None
    end.
  Lemma fill_prop_filled : forall p sub d, sget p (fill_prop' p sub d) = filled sub (sget p d).
  Proof.
    intros p sub d. unfold filled. destruct (sget p d) as [x|] eqn:E.
    - assert (X : x = JNull \/ x <> JNull) by (destruct x; ((left; reflexivity) || (right; discriminate))). destruct X as [->|N].
      + unfold fill_prop. rewrite E. cbn [is_null is_type]. rewrite !andb_false_r, !andb_true_r. cbn [orb].
        destruct (get_default sub) as [w|]; destruct (first_defined (get_auto_null sub) _); destruct (null_in_type (get_type sub)); destruct (first_defined (get_remove_null sub) _); cbn [andb negb]; rewrite ?sget_sset_eq, ?sget_sdel_eq; auto.
      + rewrite (fill_prop_given _ _ _ p sub d x E N). rewrite E. destruct x; congruence.
    - unfold fill_prop. rewrite E. cbn [is_null]. rewrite !andb_false_r, andb_true_r, orb_false_r.
      destruct (get_default sub) as [w|]; destruct (first_defined (get_auto sub) _); rewrite ?sget_sset_eq; auto.
  Qed.
  Lemma fill_prop_keeps : forall p sub d, filled sub (sget p d) = sget p d -> fill_prop' p sub d = d.
  Proof.
    intros p sub d F. rewrite <- fill_prop_filled in F. destruct (fill_prop_self auto_default auto_default_nulls auto_remove_nulls p sub d) as [E|[[E1 E2]|[E1 (v & Ed & E2)]]].
    - exact E.
    - rewrite E2, sget_sdel_eq in F. congruence.
    - rewrite E2 in *. rewrite sget_sset_eq in F. now apply sset_same.
  Qed.
  (** The value of a property, as the next visit finds it *)
  Definition next (sub : schema) (given : option json) : option json := match given with Some x => Some (fst (visit' sub x)) | None => None end.
  Lemma visit_dict : forall s d, exists d', fst (visit' s (JDict d)) = JDict d'.
  Proof.
    induction s as [|k s IH]; intros d; [exists d; reflexivity|]. rewrite visit_cons.
    assert (X : exists d', fst (visit_kw' k (JDict d)) = JDict d').
    { destruct k; try (exists d; reflexivity). rewrite visit_kw_props. destruct (visit_props' _ _) as [d' es]. exists d'. reflexivity. }
    destruct X as (d' & ->). apply IH.
  Qed.
  Lemma visit_null : forall sub x, fst (visit' sub x) = JNull <-> x = JNull.
  Proof.
    intros sub x. split; [|intros ->; now apply visit_not_dict]. intros E. destruct (is_mapping x) eqn:M.
    - destruct x; try discriminate M. match type of E with context [JDict ?d] => destruct (visit_dict sub d) as (d' & F) end. rewrite F in E. discriminate.
    - rewrite visit_not_dict in E by exact M. exact E.
  Qed.
  Lemma filled_next : forall sub given, filled sub (next sub given) = match given with Some JNull | None => filled sub given | Some _ => next sub given end.
  Proof.
    intros sub [x|]; [|reflexivity]. cbn [next]. assert (X : x = JNull \/ x <> JNull) by (destruct x; ((left; reflexivity) || (right; discriminate))). destruct X as [->|N].
    - rewrite visit_not_dict by reflexivity. reflexivity.
    - assert (Y : fst (visit' sub x) <> JNull) by (intros E; apply visit_null in E; contradiction). transitivity (Some (fst (visit' sub x))); [|destruct x; congruence].
      unfold filled. destruct (fst (visit' sub x)); congruence.
  Qed.

  Definition fickle_b (sub : schema) : bool :=
    match get_default sub with
    | Some _ => first_defined (get_auto sub) auto_default && negb (first_defined (get_auto_null sub) auto_default_nulls)
                && first_defined (get_remove_null sub) auto_remove_nulls && negb (null_in_type (get_type sub))
    | None => false
    end.
  Lemma fickle_is : forall sub, NoDup (map word sub) -> (fickle_b sub = true <-> fickle' sub).
  Proof.
    intros sub N. unfold fickle_b, fickle.
    pose proof (on_is sub KAutoDefault get_auto auto_default (auto_is sub N)) as A.
    pose proof (on_is sub KAutoDefaultNull get_auto_null auto_default_nulls (auto_null_is sub N)) as B.
    pose proof (on_is sub KAutoRemoveNull get_remove_null auto_remove_nulls (remove_is sub N)) as C.
    pose proof (null_type_is sub N) as T.
    destruct (get_default sub) as [w|] eqn:D.
    - rewrite !andb_true_iff, !negb_true_iff. rewrite T, A, C. assert (B' : first_defined (get_auto_null sub) auto_default_nulls = false <-> ~ on KAutoDefaultNull auto_default_nulls sub).
      { rewrite <- B. rewrite not_true_iff_false. reflexivity. }
      rewrite B'. assert (W : exists w, In (KDefault w) sub) by (exists w; now apply default_is). tauto.
    - split; [discriminate|]. intros ((w & J) & _). apply (default_is sub N) in J. congruence.
  Qed.

  Lemma filled_again : forall sub given, fickle_b sub = false -> filled sub (filled sub given) = filled sub given.
  Proof.
    intros sub given F. unfold fickle_b in F. unfold filled. destruct given as [x|].
    - assert (X : x = JNull \/ x <> JNull) by (destruct x; ((left; reflexivity) || (right; discriminate))). destruct X as [->|N].
      + destruct (get_default sub) as [w|] eqn:D; destruct (first_defined (get_auto sub) auto_default); destruct (first_defined (get_auto_null sub) auto_default_nulls); destruct (null_in_type (get_type sub)); destruct (first_defined (get_remove_null sub) auto_remove_nulls);
          cbn [andb negb] in *; try discriminate F; try reflexivity; try destruct w; reflexivity.
      + destruct x; congruence.
    - destruct (get_default sub) as [w|] eqn:D; destruct (first_defined (get_auto sub) auto_default); destruct (first_defined (get_auto_null sub) auto_default_nulls); destruct (null_in_type (get_type sub)); destruct (first_defined (get_remove_null sub) auto_remove_nulls);
          cbn [andb negb] in *; try discriminate F; try reflexivity; try destruct w; reflexivity.
  Qed.

  Lemma again_prop : forall sub given, fickle_b sub = false -> filled sub (next sub (filled sub given)) = next sub (filled sub given).
  Proof.
    intros sub given F. rewrite filled_next. pose proof (filled_again sub given F) as G. destruct (filled sub given) as [x|]; [|exact G].
    destruct x; try reflexivity. rewrite G. cbn [next]. rewrite visit_not_dict by reflexivity. reflexivity.
  Qed.

  Theorem steady : forall s, tidy s -> (forall q sub, property s q sub -> ~ fickle' sub) -> forall v, fst (visit' s (fst (visit' s v))) = fst (visit' s v).
  Proof.
    intros s T. induction T as [s N NP T IH]. intros F v. destruct (tidy_shape s N) as [H|(s1 & ps & s2 & -> & H1 & H2)].
    - now rewrite !visit_none by exact H.
    - rewrite !visit_one_props by assumption. destruct v as [| | | | |d]; try reflexivity. rewrite visit_kw_props.
      assert (Hps : In (KProps ps) (s1 ++ KProps ps :: s2)) by (apply in_or_app; right; now left).
      pose proof (NP ps Hps) as ND.
      destruct (visit_props' ps (fill' ps d)) as [d2 es] eqn:Ev. cbn [fst]. rewrite visit_kw_props.
      assert (E2 : d2 = fst (visit_props' ps (fill' ps d))) by (now rewrite Ev). clear Ev.
      assert (G : forall p sub, In (p, sub) ps -> sget p d2 = next sub (filled sub (sget p d))).
      { intros p sub Hp. rewrite E2, (visit_props_get _ _ _ _ ps _ p sub ND Hp), (fill_get _ _ _ ps d p sub ND Hp), I, fill_prop_filled. reflexivity. }
      assert (Fk : forall p sub, In (p, sub) ps -> fickle_b sub = false).
      { intros p sub Hp. apply not_true_iff_false. intros X. apply fickle_is in X; [|specialize (T ps p sub Hps Hp); inversion T; assumption]. exact (F [p] sub (property_here _ ps p sub Hps Hp) X). }
      assert (Fill : fill' ps d2 = d2).
      { unfold fill. rewrite I. assert (L : forall ps', incl ps' ps -> fold_left (fun d ps => fill_prop' (fst ps) (snd ps) d) ps' d2 = d2).
        { induction ps' as [|[p sub] ps' IHp]; intros Hi; [reflexivity|]. cbn [fold_left fst snd]. assert (Hp : In (p, sub) ps) by (apply Hi; now left).
          rewrite fill_prop_keeps; [apply IHp; intros y Hy; apply Hi; now right|]. rewrite (G p sub Hp). apply again_prop. exact (Fk p sub Hp). }
        apply L. intros y Hy. exact Hy. }
      rewrite Fill.
      assert (L : forall ps', incl ps' ps -> fst (visit_props' ps' d2) = d2).
      { induction ps' as [|[p sub] ps' IHp]; intro Hi; [reflexivity|]. cbn [visit_props].
        assert (Hp : In (p, sub) ps) by (apply Hi; now left).
        assert (Hi' : incl ps' ps) by (intros y Hy; apply Hi; now right).
        destruct (sget p d2) as [x|] eqn:Ex; [|apply IHp; exact Hi'].
        assert (Ev : fst (visit' sub x) = x).
        { rewrite (G p sub Hp) in Ex. destruct (filled sub (sget p d)) as [y|]; [|discriminate]. cbn [next] in Ex. injection Ex as <-.
          apply (IH ps p sub Hps Hp). intros q sub' Q. apply (F (p :: q)). exact (property_deeper _ ps p sub q sub' Hps Hp Q). }
        destruct (visit' sub x) as [x' es']. cbn [fst] in Ev. subst x'. rewrite (sset_same _ _ _ _ Ex).
        specialize (IHp Hi'). destruct (visit_props' ps' d2) as [d3 es'']. exact IHp. }
      specialize (L ps (fun y Hy => Hy)). destruct (visit_props' ps d2) as [d3 es3]. cbn [fst] in *. congruence.
  Qed.

  (** ** Witnesses *)
  Lemma visit_get : forall s ps p sub d, tidy s -> In (KProps ps) s -> In (p, sub) ps ->
    exists d', fst (visit' s (JDict d)) = JDict d' /\ sget p d' = next sub (filled sub (sget p d)).
  Proof.
    intros s ps p sub d T Hps Hp. inversion T as [? N NP Ts]; subst. pose proof (NP ps Hps) as ND.
    destruct (tidy_shape s N) as [H|(s1 & ps0 & s2 & -> & H1 & H2)]; [destruct (H _ Hps)|].
    assert (ps = ps0) by (now apply (one_props s1 ps0 s2)). subst ps0. rewrite visit_one_props by assumption. rewrite visit_kw_props.
    destruct (visit_props' ps (fill' ps d)) as [d2 es] eqn:Ev. exists d2. split; [reflexivity|].
    replace d2 with (fst (visit_props' ps (fill' ps d))) by now rewrite Ev. rewrite (visit_props_get _ _ _ _ ps _ p sub ND Hp), (fill_get _ _ _ ps d p sub ND Hp), I, fill_prop_filled. reflexivity.
  Qed.
  Lemma sget_one : forall p (x : json), sget p [(p, x)] = Some x.
  Proof. intros p x. cbn. now rewrite str_eqb_refl. Qed.
  Lemma wobbly : forall s q sub, property s q sub -> tidy s -> fickle' sub -> exists d, fst (visit' s (fst (visit' s (JDict d)))) <> fst (visit' s (JDict d)).
  Proof.
    intros s q sub P. induction P as [s ps p sub Hps Hp|s ps p sub q sub' Hps Hp P IH]; intros T F.
    - exists [(p, JNull)]. destruct (visit_get s ps p sub [(p, JNull)] T Hps Hp) as (d1 & -> & G1). destruct (visit_get s ps p sub d1 T Hps Hp) as (d2 & -> & G2).
      intros E. injection E as E. subst d2. rewrite G1 in G2. rewrite sget_one in G2.
      inversion T as [? N NP Ts]; subst. specialize (Ts ps p sub Hps Hp). inversion Ts as [? N' _ _]; subst. apply (fickle_is sub N') in F. unfold fickle_b in F.
      destruct (get_default sub) as [w|] eqn:D; [|discriminate F]. rewrite !andb_true_iff, !negb_true_iff in F. destruct F as (((A & B) & C) & E).
      unfold filled in G2. rewrite A, B, C, E, D in G2. cbn [andb negb next] in G2. discriminate.
    - inversion T as [? N NP Ts]; subst. destruct (IH (Ts ps p sub Hps Hp) F) as (d & W). exists [(p, JDict d)].
      destruct (visit_get s ps p sub [(p, JDict d)] T Hps Hp) as (d1 & -> & G1). destruct (visit_get s ps p sub d1 T Hps Hp) as (d2 & -> & G2).
      intros E. injection E as E. subst d2. rewrite G1 in G2. rewrite sget_one in G2. cbn [filled next] in G2.
      destruct (visit_dict sub d) as (d' & X). rewrite X in *. cbn [filled next] in G2. injection G2 as G2. congruence.
  Qed.
  Theorem exact_again : forall s, tidy s -> (forall v, fst (visit' s (fst (visit' s v))) = fst (visit' s v)) <-> (forall q sub, property s q sub -> ~ fickle' sub).
  Proof.
    intros s T. split; [|now apply steady]. intros H q sub P F. destruct (wobbly s q sub P T F) as (d & W). exact (W (H (JDict d))).
  Qed.
End Again.
