From Coq Require Import String Lia.
From Verif Require Import PyBase PyBase_Proofs Json JsonPointer_Model JsonPointer_Spec
  JsonPointer_Proofs Paths_Model Paths_Spec Paths_Proofs Pmod_Model Pmod_Spec Pmod_Proofs
  PmodMap_Proofs PmodTuples_Proofs PmodEq_Model PmodEq_Spec.

Definition naliases (p : pmod) (ds : list dstep) : option (option pystr) := option_map p_alias (nget p ds).

Lemma same_naliases : forall a b, wf a -> wf b -> (same_nodes a b <-> forall ds, naliases a ds = naliases b ds).
Proof.
  intros a b Ha Hb. unfold naliases. split.
  - intros [H1 H2] ds. destruct (nget a ds) as [q|] eqn:Ea, (nget b ds) as [q'|] eqn:Eb; cbn; auto.
    + f_equal. apply (H2 ds); apply node_at_nget; auto.
    + destruct (proj1 (H1 ds)) as [x Hx]; [exists q; now apply node_at_nget|]. apply node_at_nget in Hx; auto. congruence.
    + destruct (proj2 (H1 ds)) as [x Hx]; [exists q'; now apply node_at_nget|]. apply node_at_nget in Hx; auto. congruence.
  - intro H. split.
    + intro ds. specialize (H ds). split; intros [q Hq]; apply node_at_nget in Hq; auto; rewrite Hq in H; cbn in H.
      * destruct (nget b ds) as [q'|] eqn:Eb; [|discriminate]. exists q'. now apply node_at_nget.
      * destruct (nget a ds) as [q'|] eqn:Eb; [|discriminate]. exists q'. now apply node_at_nget.
    + intros ds q q' Hq Hq'. apply node_at_nget in Hq; auto. apply node_at_nget in Hq'; auto. specialize (H ds).
      rewrite Hq, Hq' in H. cbn in H. congruence.
Qed.

Lemma alias_eqb_eq : forall a b, alias_eqb a b = true <-> a = b.
Proof.
  intros [x|] [y|]; cbn; split; intro H; try congruence; try discriminate.
  - apply str_eqb_eq in H. congruence.
  - injection H as ->. apply str_eqb_refl.
Qed.

(** Dicts of equal lengths, one included in the other. *)
Lemma dict_eq : forall (R : pmod -> pmod -> bool) (d e : list (pystr * pmod)), NoDup (map fst d) -> NoDup (map fst e) ->
  ((length d =? length e)%nat && forallb (fun kv => match pget (fst kv) e with Some v => R (snd kv) v | None => false end) d = true
   <-> forall k, match pget k d, pget k e with
                 | Some v, Some w => R v w = true
                 | None, None => True
                 | _, _ => False
                 end).
Proof.
  intros R d e Nd Ne. rewrite andb_true_iff, Nat.eqb_eq, forallb_forall. split.
  - intros [L F] k. destruct (pget k d) as [v|] eqn:Ed.
    + apply dget_Some_In in Ed; [|exact str_eqb_eq]. specialize (F _ Ed). cbn in F. destruct (pget k e); [exact F|discriminate].
    + destruct (pget k e) as [w|] eqn:Ee; [|exact I].
      assert (Hk : ~ In k (map fst d)) by (apply (dget_None_notin str_eqb str_eqb_eq); exact Ed).
      assert (Inc : incl (map fst d) (map fst e)).
      { intros x Hx. apply in_map_iff in Hx. destruct Hx as [[x' v] [<- Hx]]. specialize (F _ Hx). cbn in *.
        destruct (pget x' e) eqn:E; [|discriminate]. apply dget_Some_In in E; [|exact str_eqb_eq]. exact (in_map fst _ _ E). }
      assert (Inc' : incl (map fst e) (map fst d)).
      { apply NoDup_length_incl; auto. rewrite !map_length. lia. }
      apply Hk, Inc'. apply dget_Some_In in Ee; [|exact str_eqb_eq]. exact (in_map fst _ _ Ee).
  - intro H. assert (S : forall k, In k (map fst d) <-> In k (map fst e)).
    { intro k. specialize (H k). rewrite <- !dmem_In. unfold dmem. destruct (pget k d), (pget k e); intuition. }
    split.
    + rewrite <- (map_length fst d), <- (map_length fst e). apply Nat.le_antisymm; apply NoDup_incl_length; auto; intros x Hx; now apply S.
    + intros [k v] Hin. cbn. apply (dget_In_NoDup str_eqb str_eqb_eq k v d Nd) in Hin. specialize (H k). rewrite Hin in H.
      destruct (pget k e); [exact H|contradiction].
Qed.

Lemma naliases_cons : forall p d ds, naliases p (d :: ds) = match tget p d with Some c => naliases c ds | None => None end.
Proof. intros p d ds. unfold naliases. cbn. destruct (tget p d); reflexivity. Qed.

Lemma eqb_same : forall a b, wf a -> wf b -> (pmod_eqb a b = true <-> forall ds, naliases a ds = naliases b ds).
Proof.
  induction a as [x s r IHs IHr] using pmod_ind'. intros [y s' r'] Ha Hb.
  destruct (wf_inv _ Ha) as [N1 [N2 [W1 W2]]]. destruct (wf_inv _ Hb) as [N3 [N4 [W3 W4]]]. cbn [p_steps p_regxs] in *.
  cbn [pmod_eqb].
  assert (X : forall a b c, (a && b && c = true) <-> (a = true /\ b = true) /\ c = true) by (intros [] [] []; cbn; intuition).
  rewrite X, alias_eqb_eq. clear X.
  assert (D1 := dict_eq pmod_eqb s s' N1 N3). assert (D2 := dict_eq pmod_eqb r r' N2 N4). split.
  - intros [[E A] B]. assert (A' := proj1 D1 A). assert (B' := proj1 D2 B). clear A B. rename A' into A. rename B' into B. intros [|[n|n] ds]; [unfold naliases; cbn; congruence| |]; rewrite !naliases_cons; cbn [tget p_steps p_regxs].
    + specialize (A n). destruct (pget n s) as [c|] eqn:Es, (pget n s') as [c'|] eqn:Es'; try contradiction; auto.
      apply dget_Some_In in Es; [|exact str_eqb_eq]. apply dget_Some_In in Es'; [|exact str_eqb_eq].
      apply (IHs n c Es c'); eauto.
    + specialize (B n). destruct (pget n r) as [c|] eqn:Es, (pget n r') as [c'|] eqn:Es'; try contradiction; auto.
      apply dget_Some_In in Es; [|exact str_eqb_eq]. apply dget_Some_In in Es'; [|exact str_eqb_eq].
      apply (IHr n c Es c'); eauto.
  - intro H. split; [split|].
    + specialize (H []). unfold naliases in H. cbn in H. congruence.
    + apply (proj2 D1). intro n. assert (H' := fun ds => H (DName n :: ds)).
      destruct (pget n s) as [c|] eqn:Es, (pget n s') as [c'|] eqn:Es'; auto.
      * assert (Is := Es). assert (Is' := Es'). apply dget_Some_In in Is; [|exact str_eqb_eq]. apply dget_Some_In in Is'; [|exact str_eqb_eq].
        apply (IHs n c Is c'); eauto. intro ds. specialize (H' ds). rewrite !naliases_cons in H'. cbn [tget p_steps] in H'.
        rewrite Es, Es' in H'. exact H'.
      * specialize (H' []). rewrite !naliases_cons in H'. cbn [tget p_steps] in H'. rewrite Es, Es' in H'. discriminate.
      * specialize (H' []). rewrite !naliases_cons in H'. cbn [tget p_steps] in H'. rewrite Es, Es' in H'. discriminate.
    + apply (proj2 D2). intro n. assert (H' := fun ds => H (DRegex n :: ds)).
      destruct (pget n r) as [c|] eqn:Es, (pget n r') as [c'|] eqn:Es'; auto.
      * assert (Is := Es). assert (Is' := Es'). apply dget_Some_In in Is; [|exact str_eqb_eq]. apply dget_Some_In in Is'; [|exact str_eqb_eq].
        apply (IHr n c Is c'); eauto. intro ds. specialize (H' ds). rewrite !naliases_cons in H'. cbn [tget p_regxs] in H'.
        rewrite Es, Es' in H'. exact H'.
      * specialize (H' []). rewrite !naliases_cons in H'. cbn [tget p_regxs] in H'. rewrite Es, Es' in H'. discriminate.
      * specialize (H' []). rewrite !naliases_cons in H'. cbn [tget p_regxs] in H'. rewrite Es, Es' in H'. discriminate.
Qed.

Lemma eqb_same_nodes : forall a b, wf a -> wf b -> (pmod_eqb a b = true <-> same_nodes a b).
Proof. intros a b Ha Hb. rewrite same_naliases, eqb_same; auto. reflexivity. Qed.

(** ** Same nodes, same order: same mapping *)
Definition sig (p : pmod) (ds : list dstep) : option (option pystr * list pystr) :=
  option_map (fun q => (p_alias q, map fst (p_regxs q))) (nget p ds).
Definition alike (a b : pmod) : Prop := forall ds, sig a ds = sig b ds.

Lemma alike_of : forall a b, wf a -> wf b -> same_nodes a b -> same_order a b -> alike a b.
Proof.
  intros a b Ha Hb S O ds. assert (N := proj1 (same_naliases a b Ha Hb) S ds). unfold naliases in N. unfold sig.
  destruct (nget a ds) as [q|] eqn:Ea, (nget b ds) as [q'|] eqn:Eb; cbn in *; try discriminate; auto.
  f_equal. f_equal; [congruence|]. apply (O ds); apply node_at_nget; auto.
Qed.

Lemma sig_cons : forall p d ds, sig p (d :: ds) = match tget p d with Some c => sig c ds | None => None end.
Proof. intros p d ds. unfold sig. cbn. destruct (tget p d); reflexivity. Qed.

Definition orel (x y : option pmod) : Prop :=
  match x, y with Some a, Some b => alike a b | None, None => True | _, _ => False end.
Lemma alike_child : forall a b d, alike a b -> orel (tget a d) (tget b d).
Proof.
  intros a b d H. unfold orel. destruct (tget a d) as [c|] eqn:Ea, (tget b d) as [c'|] eqn:Eb; auto.
  - intro ds. specialize (H (d :: ds)). rewrite !sig_cons, Ea, Eb in H. exact H.
  - specialize (H [d]). rewrite !sig_cons, Ea, Eb in H. discriminate.
  - specialize (H [d]). rewrite !sig_cons, Ea, Eb in H. discriminate.
Qed.

Lemma alike_alias : forall a b, alike a b -> p_alias a = p_alias b.
Proof. intros a b H. specialize (H []). cbn in H. congruence. Qed.

Lemma nget_merge : forall ds a b, wf a -> wf b -> nget (merge a b) ds = omerge (nget a ds) (nget b ds).
Proof.
  induction ds as [|d ds IH]; intros a b Ha Hb; [reflexivity|]. cbn [nget].
  assert (E : tget (merge a b) d = omerge (tget a d) (tget b d)).
  { destruct d; cbn [tget]; [now apply merge_steps_get|apply merge_regxs_get]. }
  rewrite E. destruct (tget a d) as [c|] eqn:Ea, (tget b d) as [c'|] eqn:Eb; cbn [omerge].
  - apply IH; [exact (wf_tget a d c Ha Ea)|exact (wf_tget b d c' Hb Eb)].
  - destruct (nget c ds); reflexivity.
  - reflexivity.
  - reflexivity.
Qed.

Lemma merge_alike : forall a a' b b', wf a -> wf a' -> wf b -> wf b' -> alike a a' -> alike b b' -> alike (merge a b) (merge a' b').
Proof.
  intros a a' b b' Ha Ha' Hb Hb' H1 H2 ds. specialize (H1 ds). specialize (H2 ds). unfold sig in *.
  rewrite !nget_merge by assumption.
  destruct (nget a ds), (nget a' ds), (nget b ds), (nget b' ds); cbn in *; try discriminate; auto.
  injection H1 as H1 H1'. injection H2 as H2 H2'. f_equal. rewrite !merge_alias, !merge_regxs_keys, H1, H1', H2, H2'. reflexivity.
Qed.

Lemma alike_regxs : forall a b, wf a -> wf b -> alike a b ->
  Forall2 (fun x y => fst x = fst y /\ alike (snd x) (snd y)) (p_regxs a) (p_regxs b).
Proof.
  intros a b Ha Hb H. assert (K : map fst (p_regxs a) = map fst (p_regxs b)) by (specialize (H []); cbn in H; congruence).
  assert (G : forall k, orel (pget k (p_regxs a)) (pget k (p_regxs b))).
  { intro k. apply (alike_child a b (DRegex k) H). }
  destruct (wf_inv _ Ha) as [_ [Nd _]]. clear - K G Nd. revert K G. generalize (p_regxs b).
  induction (p_regxs a) as [|[k v] l IH]; intros [|[k' v'] l'] K G; try discriminate; constructor.
  - cbn in K. injection K as -> K. split; [reflexivity|]. specialize (G k'). cbn in G. rewrite str_eqb_refl in G. exact G.
  - cbn in K. injection K as <- K. inversion Nd as [|? ? Hn Nd']; subst. apply IH; auto. intro x. specialize (G x). cbn in G.
    destruct (str_eqb_spec x k) as [E|Ne]; [rewrite E; clear E|exact G].
    rewrite (proj2 (dget_None_notin str_eqb str_eqb_eq k l) Hn).
    rewrite K in Hn. rewrite (proj2 (dget_None_notin str_eqb str_eqb_eq k l') Hn). exact I.
Qed.

Section Regex.
  Variable M : Type.
  Variable fullmatch : pystr -> pystr -> option M.
  Variable expand : M -> pystr -> res pystr.
  Notation match_regxs := (match_regxs M fullmatch).
  Notation alias_ := (alias_ M fullmatch expand).
  Notation below_of := (below_of M fullmatch).
  Notation map_steps := (map_steps M fullmatch expand).

  Lemma match_alike : forall a b step, wf a -> wf b -> alike a b ->
    Forall2 (fun x y => alike (fst x) (fst y) /\ snd x = snd y) (match_regxs a step) (match_regxs b step).
  Proof.
    intros a b step Ha Hb H. unfold Pmod_Model.match_regxs. assert (F := alike_regxs a b Ha Hb H).
    induction F as [|[k v] [k' v'] l l' [E A] F IH]; [constructor|]. cbn in *. subst k'.
    destruct (fullmatch k step); cbn; auto.
  Qed.

  Lemma first_alike : forall l l', Forall2 (fun x y : pmod * M => alike (fst x) (fst y) /\ snd x = snd y) l l' ->
    first_alias M expand l = first_alias M expand l'.
  Proof.
    induction 1 as [|[p m] [p' m'] l l' [A E] F IH]; [reflexivity|]. cbn in *. subst m'.
    rewrite (alike_alias _ _ A). destruct (p_alias p'); auto.
  Qed.

  Lemma Forall2_rev' : forall A B (R : A -> B -> Prop) l l', Forall2 R l l' -> Forall2 R (rev l) (rev l').
  Proof. induction 1; cbn; [constructor|]. apply Forall2_app; auto. Qed.

  Lemma alias_alike : forall a b step, wf a -> wf b -> alike a b -> alias_ a step = alias_ b step.
  Proof.
    intros a b step Ha Hb H. unfold Pmod_Model.alias_.
    assert (F := first_alike _ _ (Forall2_rev' _ _ _ _ _ (match_alike a b step Ha Hb H))).
    assert (C := alike_child a b (DName step) H). cbn [tget] in C.
    destruct (pget step (p_steps a)) as [c|], (pget step (p_steps b)) as [c'|]; cbn in C; try contradiction; auto.
    assert (E := alike_alias _ _ C). destruct c as [[x|] ? ?], c' as [[y|] ? ?]; cbn in E; try discriminate; auto. congruence.
  Qed.

  Lemma fold_alike : forall l l' a a', Forall2 (fun x y => alike x y /\ wf x /\ wf y) l l' -> wf a -> wf a' -> alike a a' ->
    alike (fold_left merge l a) (fold_left merge l' a') /\ wf (fold_left merge l a) /\ wf (fold_left merge l' a').
  Proof.
    intros l l' a a' F. revert a a'. induction F as [|x y l l' [A [W W']] F IH]; intros a a' Ha Ha' H; cbn; auto.
    apply IH; [now apply wf_merge|now apply wf_merge|now apply merge_alike].
  Qed.

  Definition orel' (x y : option pmod) : Prop :=
    match x, y with Some a, Some b => alike a b /\ wf a /\ wf b | None, None => True | _, _ => False end.

  Lemma in_match_wf : forall p step x, wf p -> In x (match_regxs p step) -> wf (fst x).
  Proof.
    intros p step x W H. destruct (wf_inv _ W) as [_ [_ [_ Hr]]]. unfold Pmod_Model.match_regxs in H.
    apply in_flat_map in H. destruct H as [[k v] [Hin H]]. cbn in H. destruct (fullmatch k step); [|destruct H].
    destruct H as [<-|[]]. exact (Hr k v Hin).
  Qed.

  Lemma Forall2_strengthen : forall A B (R S : A -> B -> Prop) l l', Forall2 R l l' ->
    (forall x y, In x l -> In y l' -> R x y -> S x y) -> Forall2 S l l'.
  Proof.
    induction 1 as [|x y l l' Hxy F IH]; intro H; constructor.
    - apply H; auto; now left.
    - apply IH. intros a b Ha Hb. apply H; now right.
  Qed.

  Lemma below_alike : forall a b step, wf a -> wf b -> alike a b -> orel' (below_of a step) (below_of b step).
  Proof.
    intros a b step Ha Hb H. unfold PmodMap_Proofs.below_of.
    assert (F : Forall2 (fun x y => alike x y /\ wf x /\ wf y)
       (map fst (match_regxs a step) ++ match pget step (p_steps a) with Some c => [c] | None => [] end)
       (map fst (match_regxs b step) ++ match pget step (p_steps b) with Some c => [c] | None => [] end)).
    { apply Forall2_app.
      - assert (F := match_alike a b step Ha Hb H).
        assert (W1 := fun x => in_match_wf a step x Ha). assert (W2 := fun x => in_match_wf b step x Hb).
        assert (F' := Forall2_strengthen _ _ _ (fun x y => alike (fst x) (fst y) /\ wf (fst x) /\ wf (fst y)) _ _ F
                        (fun x y Hx Hy R => conj (proj1 R) (conj (W1 x Hx) (W2 y Hy)))).
        clear - F'. induction F'; constructor; auto.
      - assert (C := alike_child a b (DName step) H). cbn [tget] in C.
        destruct (pget step (p_steps a)) as [c|] eqn:E, (pget step (p_steps b)) as [c'|] eqn:E'; cbn in C; try contradiction; auto.
        constructor; auto. split; auto. split; [exact (wf_get_steps a step c Ha E)|exact (wf_get_steps b step c' Hb E')]. }
    inversion F as [|x y l l' [A [W W']] F' E E']; cbn; auto. now apply fold_alike.
  Qed.

  Lemma map_steps_alike : forall steps x y, orel' x y -> map_steps x steps = map_steps y steps.
  Proof.
    induction steps as [|s steps IH]; intros x y H; [reflexivity|].
    destruct x as [a|], y as [b|]; cbn in H; try contradiction; [|reflexivity]. destruct H as [H [Ha Hb]].
    destruct steps as [|s' steps].
    - cbn [Pmod_Model.map_steps]. now rewrite (alias_alike a b s Ha Hb H).
    - assert (U : forall p, map_steps (Some p) (s :: s' :: steps)
        = (do (pm', x) <- descend M fullmatch expand p s; do rest <- map_steps pm' (s' :: steps); Ok (new_steps x s ++ rest))) by reflexivity.
      rewrite !U, (descend_alias _ _ _ a s Ha), (descend_alias _ _ _ b s Hb), (alias_alike a b s Ha Hb H).
      destruct (alias_ b s) as [x|]; [|reflexivity]. cbn [rbind].
      rewrite (IH (below_of a s) (below_of b s)); [reflexivity|now apply below_alike].
  Qed.

  Lemma map_path_alike : forall a b path, wf a -> wf b -> alike a b ->
    map_path M fullmatch expand a path = map_path M fullmatch expand b path.
  Proof.
    intros a b path Ha Hb H. unfold map_path. rewrite (alike_alias a b H), (map_steps_alike _ (Some a) (Some b)); [reflexivity|].
    cbn. auto.
  Qed.
End Regex.

(** ** Tuples in any order *)
Lemma last_of_only : forall (l : list (list dstep * pystr)) ds t, (forall t', In (ds, t') l -> t' = t) ->
  (In (ds, t) l <-> exists l1 l2, l = l1 ++ (ds, t) :: l2 /\ forall dt, In dt l2 -> fst dt <> ds).
Proof.
  intros l ds t Hu. split.
  - induction l as [|[d x] l IH] using rev_ind; intro H; [destruct H|].
    destruct (dsteps_eq_dec d ds) as [->|Ne].
    + assert (x = t) by (apply Hu, in_or_app; right; now left). subst. exists l, []. split; [reflexivity|intros ? []].
    + apply in_app_or in H. destruct H as [H|[H|[]]]; [|congruence].
      destruct IH as [l1 [l2 [-> Hl]]]; auto.
      { intros t' Ht. apply Hu, in_or_app. now left. }
      exists l1, (l2 ++ [(d, x)]). split; [now rewrite <- app_assoc|]. intros dt Hd. apply in_app_or in Hd.
      destruct Hd as [Hd|[<-|[]]]; auto.
  - intros [l1 [l2 [-> _]]]. apply in_or_app. right. now left.
Qed.

Lemma tuples_same : forall compiles ts ts' l l' p p', counted ts l -> counted ts' l' ->
  pmods_from_tuples compiles ts = Ok p -> pmods_from_tuples compiles ts' = Ok p' ->
  (forall dt, In dt l <-> In dt l') -> (forall ds t t', In (ds, t) l -> In (ds, t') l -> t = t') ->
  same_nodes p p'.
Proof.
  intros compiles ts ts' l l' p p' C C' E E' Same U. split.
  - intro ds. rewrite (pft_exists compiles ts l p ds C E), (pft_exists compiles ts' l' p' ds C' E').
    split; (intros [H|[more [t H]]]; [now left|right; exists more, t; now apply Same]).
  - intros ds q q' Hq Hq'.
    assert (A : forall t, p_alias q = Some t <-> In (ds, t) l).
    { intro t. rewrite (pft_alias compiles ts l p ds q t C E Hq). split.
      - intros [l1 [l2 [-> _]]]. apply in_or_app. right. now left.
      - intro Hin. apply (last_of_only l ds t); eauto. }
    assert (B : forall t, p_alias q' = Some t <-> In (ds, t) l').
    { intro t. rewrite (pft_alias compiles ts' l' p' ds q' t C' E' Hq'). split.
      - intros [l1 [l2 [-> _]]]. apply in_or_app. right. now left.
      - intro Hin. apply (last_of_only l' ds t); auto. intros t' Ht. apply Same in Ht. apply Same in Hin. eauto. }
    destruct (p_alias q) as [t|] eqn:Eq.
    + symmetry. apply B, Same, A. reflexivity.
    + destruct (p_alias q') as [t|] eqn:Eq'; [|reflexivity]. exfalso.
      assert (H : None = Some t) by (apply A, Same, B; reflexivity). discriminate.
Qed.
