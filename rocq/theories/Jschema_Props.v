(** * The schemas of steps: the theorems *)
From Coq Require Import String Lia.
From Verif Require Import PyBase PyBase_Proofs Json Pandel_Proofs Tables_Proofs Jschema_Model Jschema_Spec Jschema_Proofs.

(** The schema of a step has what was last said to anyone of its family, and nothing else. *)
Theorem C113_told : forall h i, sensible h -> i < count h ->
  forall k v, In (k, v) (told (after h) i) <-> said h (founder h i) k = Some v /\ v <> Marker.
Proof.
  intros h i Hs Hi k v. destruct (look_right _ _ _ _ _ i (after_right h Hs) Hi) as (X & Y).
  unfold told. destruct (schema_ref (after h) i) as (w, a) eqn:E. cbn [fst snd] in *.
  destruct (r_said _ _ _ _ _ X i a Hi Y) as (ND & SD). rewrite <- SD. unfold todict. rewrite filter_In. cbn [snd]. split.
  - intros (A & B). split; [now apply in_sget|]. intros ->. discriminate.
  - intros (A & B). split; [now apply sget_in|]. destruct v; [reflexivity|now destruct B|reflexivity].
Qed.

(** It exists since anyone of the family was looked at. *)
Theorem C113_exists : forall h i, sensible h -> i < count h -> schema_exists (after h) i = looked h (founder h i).
Proof.
  intros h i Hs Hi. pose proof (r_some _ _ _ _ _ (after_right h Hs) i Hi) as H. unfold schema_exists.
  destruct (nth i (w_steps (after h)) None) as [a|].
  - symmetry. apply H. eauto.
  - destruct (looked h (founder h i)); [|reflexivity]. destruct (proj1 H eq_refl). discriminate.
Qed.

Lemma alone : forall h, (forall d, In d h -> ~ clones d) -> forall i, founder h i = i.
Proof.
  induction h as [|d h IH]; intros N i; [reflexivity|].
  assert (X : forall d, In d h -> ~ clones d) by (intros; apply N; now right).
  cbn. destruct d; try now apply IH. destruct (N (Clone i0)); [now left|]. now exists i0.
Qed.

Lemma unwritten : forall h d i k, (forall j, founder h j = j) -> ~ writes d i k -> said (d :: h) i k = said h i k.
Proof.
  intros h d i k F W. cbn [said]. destruct d as [|j|j|j k1 v|j k1|j k1 j' k2]; try reflexivity; rewrite F.
  - destruct (Nat.eqb_spec j i) as [->|]; [|reflexivity]. cbn. destruct (str_eqb k k1) eqn:E; [|reflexivity]. apply str_eqb_eq in E. subst.
    destruct W. left. eauto.
  - destruct (Nat.eqb_spec j i) as [->|]; [|reflexivity]. cbn [andb]. destruct (str_eqb k k1) eqn:E; [|reflexivity]. apply str_eqb_eq in E. subst.
    destruct W. right. now left.
  - destruct (Nat.eqb_spec j i) as [->|]; [|reflexivity]. cbn [andb]. destruct (str_eqb k k1) eqn:E; [|reflexivity]. apply str_eqb_eq in E. subst.
    destruct W. right. right. eauto.
Qed.

Lemma sensible_app : forall h2 h1, sensible (h2 ++ h1) -> sensible h1.
Proof. induction h2 as [|d h2 IH]; intros h1 H; [exact H|]. apply IH, H. Qed.
Lemma count_app : forall h2 h1, count h1 <= count (h2 ++ h1).
Proof. induction h2 as [|d h2 IH]; intros h1; cbn; [lia|]. specialize (IH h1). destruct d; cbn; lia. Qed.

(** Without clones, what was set last on a step is in its schema; *)
Theorem C113_set : forall h1 h2 i k v, let h := h2 ++ Set_ i k v :: h1 in sensible h -> (forall d, In d h -> ~ clones d) ->
  (forall d, In d h2 -> ~ writes d i k) -> v <> Marker -> In (k, v) (told (after h) i).
Proof.
  intros h1 h2 i k v h Hs Hc Hw Hv.
  assert (Hi : i < count h).
  { pose proof (sensible_app _ _ Hs) as (_ & X). cbn in X. specialize (X i (or_introl eq_refl)). pose proof (count_app h2 (Set_ i k v :: h1)). subst h. cbn in *. lia. }
  apply C113_told; auto. split; [|exact Hv]. rewrite alone by exact Hc. subst h. clear Hs Hi.
  induction h2 as [|d h2 IH].
  - cbn [app said]. rewrite alone by (intros d Hd; apply Hc; now right). rewrite Nat.eqb_refl. cbn. now rewrite str_eqb_refl.
  - cbn [app]. rewrite unwritten.
    + apply IH; intros d' Hd'; [apply Hc; now right|apply Hw; now right].
    + apply alone. intros d' Hd'. apply Hc. now right.
    + apply Hw. now left.
Qed.

(** nothing else is; *)
Theorem C113_only : forall h i k v, sensible h -> (forall d, In d h -> ~ clones d) -> i < count h ->
  In (k, v) (told (after h) i) -> exists d, In d h /\ writes d i k.
Proof.
  intros h i k v Hs Hc Hi H. apply C113_told in H; auto. destruct H as (H & _). rewrite alone in H by exact Hc. clear Hi Hs.
  induction h as [|d h IH]; [discriminate|].
  assert (X : forall d, In d h -> ~ clones d) by (intros; apply Hc; now right).
  assert (D : writes d i k \/ ~ writes d i k).
  { destruct d as [|j|j|j k1 v1|j k1|j k1 j' k2];
      try (right; intros [(x & Y)|[Y|(x & y & Y)]]; discriminate);
      (destruct (Nat.eq_dec j i) as [->|N]; [destruct (list_eq_dec N.eq_dec k1 k) as [->|N]|]).
    all: try (left; unfold writes; eauto; fail).
    all: right; intros [(x & Y)|[Y|(x & y & Y)]]; congruence. }
  destruct D as [D|D].
  - exists d. split; [now left|exact D].
  - rewrite unwritten in H; [|now apply alone|exact D]. destruct (IH X H) as (d' & A & B). exists d'. split; [now right|exact B].
Qed.

(** and what is done to other steps does not matter. *)
Theorem C113_apart : forall d h i, sensible (d :: h) -> (forall e, In e (d :: h) -> ~ clones e) -> i < count h -> (forall k, ~ writes d i k) ->
  forall k v, In (k, v) (told (after (d :: h)) i) <-> In (k, v) (told (after h) i).
Proof.
  intros d h i Hs Hc Hi Hw k v.
  assert (X : forall d, In d h -> ~ clones d) by (intros; apply Hc; now right).
  rewrite !C113_told; [| apply Hs | exact Hi | exact Hs | cbn; destruct d; lia].
  rewrite !alone by assumption. rewrite unwritten; [reflexivity|now apply alone|apply Hw].
Qed.

(** A clone of a step never looked at has nothing to do with it. *)
Theorem C113_fresh : forall h j, sensible h -> j < count h -> schema_exists (after h) j = false ->
  schema_exists (after (Clone j :: h)) (count h) = false /\
  forall k v k' v', ~ In (k', v') (told (after (Set_ (count h) k v :: Clone j :: h)) j).
Proof.
  intros h j Hs Hj E.
  assert (S1 : sensible (Clone j :: h)) by (split; assumption).
  rewrite C113_exists in E by assumption.
  assert (F : founder (Clone j :: h) (count h) = count h) by (cbn; now rewrite Nat.eqb_refl, E).
  assert (G : founder (Clone j :: h) j = founder h j) by (cbn; destruct (Nat.eqb_spec j (count h)); [lia|reflexivity]).
  pose proof (after_right h Hs) as R. split.
  - rewrite C113_exists; [|exact S1|cbn; lia]. rewrite F. cbn. rewrite Bool.orb_false_r.
    destruct (looked h (count h)) eqn:L; [|reflexivity]. apply (r_looked _ _ _ _ _ R) in L. lia.
  - intros k v k' v' H. apply C113_told in H.
    + destruct H as (H & _). change (founder (Set_ (count h) k v :: Clone j :: h) j) with (founder (Clone j :: h) j) in H. rewrite G in H.
      change (said (Set_ (count h) k v :: Clone j :: h) (founder h j) k') with
        (if Nat.eqb (founder (Clone j :: h) (count h)) (founder h j) && str_eqb k' k then Some v else said (Clone j :: h) (founder h j) k') in H.
      rewrite F in H. pose proof (r_founder _ _ _ _ _ R j Hj). destruct (Nat.eqb_spec (count h) (founder h j)); [lia|]. cbn in H.
      rewrite (r_unsaid _ _ _ _ _ R _ k' E) in H. discriminate.
    + split; [exact S1|]. cbn. intros i [<-|[]]. lia.
    + cbn. lia.
Qed.

Definition t : pystr := lit "type".
Definition num : aval := Plain (JStr (lit "number")).

Example C113_example :
  let h := [Set_ 1 t (Plain JNull); Set_ 0 (lit "title") (Plain (JStr (lit "mass"))); Set_ 0 t num; Set_ 0 t (Plain JNull); Make; Make] in
  sensible h /\ (forall d, In d h -> ~ clones d) /\ told (after h) 0 = [(t, num); (lit "title", Plain (JStr (lit "mass")))] /\
  told (after h) 1 = [(t, Plain JNull)] /\ told (after (Del_ 0 t :: h)) 0 = [(lit "title", Plain (JStr (lit "mass")))] /\
  schema_exists (after [Make]) 0 = false /\ schema_exists (after h) 1 = true /\
  told (after [Set_ 1 t num; Clone 0; Make]) 0 = [].
Proof.
  refine (conj _ (conj _ (conj eq_refl (conj eq_refl (conj eq_refl (conj eq_refl (conj eq_refl eq_refl))))))).
  - cbn. repeat apply conj; auto; intros i H; cbn in H; intuition lia.
  - intros d H (i & ->). cbn in H. repeat destruct H as [H|H]; try discriminate; destruct H.
Qed.

(** Otherwise a clone, as made by renaming a step, shares the schema. *)
Theorem C113_shared_refuted : exists h, sensible h /\ (forall d k, In d h -> ~ writes d 0 k) /\
  h = [Set_ 1 t num; Clone 0; Look 0; Make] /\ told (after h) 0 = [(t, num)].
Proof.
  exists [Set_ 1 t num; Clone 0; Look 0; Make]. refine (conj _ (conj _ (conj eq_refl eq_refl))).
  - cbn. repeat apply conj; auto; intros i H; cbn in H; intuition lia.
  - intros d k H. cbn in H. repeat destruct H as [H|H]; subst; try (destruct H; fail); intros [(x & Y)|[Y|(x & y & Y)]]; discriminate.
Qed.

(** So it matters whether a schema was just looked at. *)
Theorem C113_looking_refuted : exists h1 h2, sensible (h2 ++ Look 0 :: h1) /\ sensible (h2 ++ h1) /\
  told (after (h2 ++ Look 0 :: h1)) 0 <> told (after (h2 ++ h1)) 0.
Proof.
  exists [Make], [Set_ 1 t num; Clone 0]. refine (conj _ (conj _ _)).
  - cbn. repeat apply conj; auto; intros i H; cbn in H; intuition lia.
  - cbn. repeat apply conj; auto; intros i H; cbn in H; intuition lia.
  - intros H. discriminate.
Qed.

(** Attributes not set are not [_NONE]: once copied, they are in the schema. *)
Theorem C113_unset_refuted : exists h, sensible h /\ (forall i k v, ~ In (Set_ i k v) h) /\ told (after h) 0 = [(t, Tupled)].
Proof.
  exists [Copy 0 t 1 t; Make; Make]. refine (conj _ (conj _ eq_refl)).
  - cbn. repeat apply conj; auto; intros i H; cbn in H; intuition lia.
  - intros i k v H. cbn in H. repeat destruct H as [H|H]; try discriminate; destruct H.
Qed.

(** No name is checked. *)
Theorem C113_names_refuted : exists k, ~ In k class_attrs /\ act (after [Make]) (Set_ 0 k num) = (World [Some 0] [[(k, num)]], Ok tt).
Proof.
  exists (lit "typo"). split; [|reflexivity]. intros H. cbn in H. repeat destruct H as [H|H]; try discriminate; destruct H.
Qed.

Print Assumptions C113_told.
Print Assumptions C113_exists.
Print Assumptions C113_set.
Print Assumptions C113_only.
Print Assumptions C113_apart.
Print Assumptions C113_fresh.
Print Assumptions C113_shared_refuted.
Print Assumptions C113_looking_refuted.
Print Assumptions C113_unset_refuted.
Print Assumptions C113_names_refuted.
