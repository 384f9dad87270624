(** * Enumerations: lemmas *)
From Coq Require Import String Lia.
From Verif Require Import PyBase PyBase_Proofs Json Enum_Model Enum_Spec Tables_Proofs.

Lemma py_lists : forall l m, py_equal (JList l) (JList m) = true <-> Forall2 (fun x y => py_equal x y = true) l m.
Proof.
  induction l as [|x l IH]; intros [|y m]; cbn [py_equal]; try (split; [discriminate|intros H; inversion H]); [split; [constructor|reflexivity]|].
  rewrite Bool.andb_true_iff. specialize (IH m). cbn [py_equal] in IH. rewrite IH. split.
  - intros [A B]. now constructor.
  - intros H. inversion H; subst. auto.
Qed.

Lemma py_dict_go : forall (e d : list (pystr * json)),
  (fix go (d : list (pystr * json)) : bool :=
     match d with
     | [] => true
     | (k, a) :: d' => match sget k e with Some b => py_equal a b | None => false end && go d'
     end) d = true <-> forall k x, In (k, x) d -> exists y, sget k e = Some y /\ py_equal x y = true.
Proof.
  intros e. induction d as [|[k a] d IH]; [split; [intros _ k x []|reflexivity]|]. rewrite Bool.andb_true_iff, IH. split.
  - intros [A B] k' x [E|H]; [|now apply B]. injection E as <- <-. destruct (sget k e) as [b|]; [eauto|discriminate].
  - intros H. split.
    + destruct (H k a (or_introl eq_refl)) as (y & -> & E). exact E.
    + intros k' x I. apply H. now right.
Qed.

Lemma py_dicts : forall d e, py_equal (JDict d) (JDict e) = true <->
  length d = length e /\ forall k x, In (k, x) d -> exists y, sget k e = Some y /\ py_equal x y = true.
Proof. intros d e. cbn [py_equal]. rewrite Bool.andb_true_iff, Nat.eqb_eq, py_dict_go. reflexivity. Qed.

Lemma keyed_list_inv : forall l, keyed (JList l) -> Forall keyed l.
Proof. intros l H. inversion H as [v A|l' A|]; subst; [destruct A|exact A]. Qed.
Lemma keyed_dict_inv : forall d, keyed (JDict d) -> NoDup (map fst d) /\ forall k v, In (k, v) d -> keyed v.
Proof. intros d H. inversion H as [v A| |d' A B]; subst; [destruct A|auto]. Qed.

Lemma atoms_py : forall x y, atom x -> (py_equal x y = true <-> loose_atoms x y).
Proof.
  intros x y A. destruct x as [|a|z|s|l|d]; try destruct A; destruct y as [|b|w|t|m|e]; cbn [py_equal]; try (split; [discriminate|intros H; inversion H; fail]).
  - split; [constructor; exact I|reflexivity].
  - destruct a, b; cbn; split; try discriminate; try (intros H; inversion H; fail); try reflexivity; intros _; constructor; exact I.
  - split.
    + intros H. apply Z.eqb_eq in H. subst. destruct a; constructor.
    + intros H. inversion H; reflexivity.
  - split.
    + intros H. apply Z.eqb_eq in H. subst. destruct b; constructor.
    + intros H. inversion H; reflexivity.
  - rewrite Z.eqb_eq. split; [intros ->; constructor; exact I|intros H; inversion H; reflexivity].
  - rewrite str_eqb_eq. split; [intros ->; constructor; exact I|intros H; inversion H; reflexivity].
Qed.

Lemma loose_atom : forall x y, loose_atoms x y -> atom x /\ atom y.
Proof. intros x y H. destruct H; cbn; auto. Qed.

Lemma same_keys : forall (d e : list (pystr * json)), NoDup (map fst d) -> NoDup (map fst e) ->
  (forall k, In k (map fst d) -> In k (map fst e)) -> length d = length e -> forall k, In k (map fst e) -> In k (map fst d).
Proof.
  intros d e A B H L. apply (NoDup_length_incl A); [rewrite !map_length; lia|exact H].
Qed.

Lemma py_loosely : forall x y, keyed x -> keyed y -> (py_equal x y = true <-> loosely x y).
Proof.
  intros x. induction x as [|a|z|s|l IH|d IH] using json_ind'; intros y Kx Ky;
    try (rewrite atoms_py by exact I; split; [intros H; now constructor|intros H; inversion H; subst; assumption]).
  - destruct y as [|b|w|t|m|e]; try (split; [discriminate|intros H; inversion H as [? ? A| |]; subst; inversion A; subst; destruct I]);
      try (split; [discriminate|intros H; inversion H as [? ? A| |]; subst; apply loose_atom in A; destruct A as ([] & _)]).
    apply keyed_list_inv in Kx, Ky. rewrite py_lists. split.
    + intros H. apply equal_lists. revert IH Kx Ky. induction H as [|x y l m E H IHl]; intros IH Kx Ky; [constructor|].
      inversion IH; inversion Kx; inversion Ky; subst. constructor; [|now apply IHl]. apply H2; assumption.
    + intros H. inversion H as [? ? A|? ? F|]; subst; [apply loose_atom in A; destruct A as ([] & _)|]. clear H.
      revert IH Kx Ky. induction F as [|x y l m E F IHl]; intros IH Kx Ky; [constructor|].
      inversion IH; inversion Kx; inversion Ky; subst. constructor; [|now apply IHl]. apply H1; assumption.
  - destruct y as [|b|w|t|m|e]; try (split; [discriminate|intros H; inversion H as [? ? A| |]; subst; apply loose_atom in A; destruct A as ([] & _)]).
    apply keyed_dict_inv in Kx, Ky. destruct Kx as (Nd & Kd), Ky as (Ne & Ke). rewrite Forall_forall in IH. rewrite py_dicts. split.
    + intros (L & H). apply equal_dicts.
      * intros k x I. destruct (H k x I) as (y & G & E). apply sget_in in G. exists y. split; [exact G|].
        apply (IH (k, x) I y (Kd k x I) (Ke k y G)). exact E.
      * intros k y I. assert (X : In k (map fst d)).
        { apply (same_keys d e Nd Ne); [|exact L|apply (in_map fst) in I; exact I]. intros k' J. apply in_map_iff in J. destruct J as ((k1, x) & <- & J).
          destruct (H k1 x J) as (y' & G & _). apply sget_in in G. apply (in_map fst) in G. exact G. }
        apply in_map_iff in X. destruct X as ((k1, x) & <- & X). eauto.
    + intros H. inversion H as [? ? A| |? ? A B]; subst; [apply loose_atom in A; destruct A as ([] & _)|]. split.
      * assert (X : length (map fst d) <= length (map fst e)).
        { apply NoDup_incl_length; [exact Nd|]. intros k J. apply in_map_iff in J. destruct J as ((k1, x) & <- & J). destruct (A k1 x J) as (y & G & _).
          apply (in_map fst) in G. exact G. }
        assert (Y : length (map fst e) <= length (map fst d)).
        { apply NoDup_incl_length; [exact Ne|]. intros k J. apply in_map_iff in J. destruct J as ((k1, y) & <- & J). destruct (B k1 y J) as (x & G).
          apply (in_map fst) in G. exact G. }
        rewrite !map_length in *. lia.
      * intros k x I. destruct (A k x I) as (y & G & E). exists y. split; [now apply in_sget|]. apply (IH (k, x) I y (Kd k x I) (Ke k y G)). exact E.
Qed.

(** *** Without booleans and numbers in the same place *)
Lemma same_loosely : forall x y, same x y -> loosely x y.
Proof.
  intros x. induction x as [|a|z|s|l IH|d IH] using json_ind'; intros y H; inversion H as [? ? A|? ? F|? ? A B]; subst;
    try (destruct A as (A & <-); apply equal_atoms; now constructor).
  - apply equal_lists. clear H. induction F as [|x y l m E F IHl]; [constructor|]. inversion IH as [|? ? P Q]; subst. constructor; [exact (P y E)|exact (IHl Q)].
  - rewrite Forall_forall in IH. apply equal_dicts; [|exact B]. intros k x I. destruct (A k x I) as (y & G & E). exists y. split; [exact G|]. exact (IH (k, x) I y E).
Qed.

Definition apart (x y : json) : Prop :=
  (forall b z, within (JBool b) x -> within (JNum z) y -> False) /\ (forall b z, within (JNum z) x -> within (JBool b) y -> False).

Lemma loosely_same : forall x y, apart x y -> loosely x y -> same x y.
Proof.
  intros x. induction x as [|a|z|s|l IH|d IH] using json_ind'; intros y (P & Q) H; inversion H as [? ? A|? ? F|? ? A B]; subst;
    try (inversion A; subst; try (apply equal_atoms; now split); exfalso; first [eapply P; constructor|eapply Q; constructor]).
  - apply equal_lists. clear H. rewrite Forall_forall in IH.
    assert (P' : forall x y, In x l -> In y m -> apart x y).
    { intros x y I J. split; intros b z U V; [apply (P b z)|apply (Q b z)]; eapply within_list; eauto. }
    clear P Q. induction F as [|x y l m E F IHl]; [constructor|]. constructor.
    + apply IH; [now left|apply P'; now left|exact E].
    + apply IHl; [intros x' I; apply IH; now right|intros x' y' I J; apply P'; now right].
  - rewrite Forall_forall in IH. apply equal_dicts; [|exact B]. intros k x I. destruct (A k x I) as (y & G & E). exists y. split; [exact G|].
    apply (IH (k, x) I y); [|exact E]. split; intros b z U V; [apply (P b z)|apply (Q b z)]; eapply within_dict; eauto.
Qed.

Lemma rule_is : forall enums v, keyed v -> Forall keyed enums ->
  (rule_enum enums v = true <-> exists e, In e enums /\ loosely v e /\ ((v = JNum 0 \/ v = JNum 1) -> forall b, e <> JBool b)).
Proof.
  intros enums v Kv Ke. rewrite Forall_forall in Ke.
  assert (G : existsb (py_equal v) enums = true <-> exists e, In e enums /\ loosely v e).
  { rewrite existsb_exists. split; intros (e & I & E); exists e; (split; [exact I|]); apply (py_loosely v e Kv (Ke e I)); exact E. }
  assert (D : (v = JNum 0 \/ v = JNum 1) \/ rule_enum enums v = existsb (py_equal v) enums /\ ~ (v = JNum 0 \/ v = JNum 1)).
  { destruct v as [| |z| | |]; try (right; split; [reflexivity|intros [E|E]; discriminate]). destruct z as [|[q|q|]|q]; auto; right; split; try reflexivity; intros [E|E]; discriminate. }
  destruct D as [D|(-> & N)].
  - assert (rule_enum enums v = existsb (fun e => match unbool e with Some e => py_equal v e | None => false end) enums) as -> by (destruct D; subst; reflexivity).
    rewrite existsb_exists. split.
    + intros (e & I & E). exists e. split; [exact I|]. destruct (unbool e) as [e'|] eqn:U; [|discriminate].
      assert (e' = e /\ forall b, e <> JBool b) as (-> & NB) by (destruct e; cbn in U; try discriminate; injection U as <-; split; try reflexivity; discriminate).
      split; [apply (py_loosely v e Kv (Ke e I)); exact E|auto].
    + intros (e & I & E & NB). exists e. split; [exact I|]. specialize (NB D). apply (py_loosely v e Kv (Ke e I)) in E.
      destruct e; cbn [unbool]; try exact E. destruct (NB b eq_refl).
  - rewrite G. split; intros (e & I & E); exists e; [|tauto]. split; [exact I|]. split; [exact E|]. intros X. destruct (N X).
Qed.
