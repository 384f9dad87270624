(** * Property C82: equality of mappings *)
From Coq Require Import String Lia.
From Verif Require Import PyBase PyBase_Proofs Json JsonPointer_Model JsonPointer_Spec
  JsonPointer_Proofs Paths_Model Paths_Spec Paths_Proofs Pmod_Model Pmod_Spec Pmod_Proofs
  PmodMap_Proofs PmodTuples_Proofs Pmod_Props PmodEq_Model PmodEq_Spec PmodEq_Proofs.

(** Mappings are equal if they declare the same, in whatever order. *)
Theorem C82_equal_nodes : forall a b, wf a -> wf b -> (pmod_eqb a b = true <-> same_nodes a b).
Proof. exact eqb_same_nodes. Qed.
Print Assumptions C82_equal_nodes.

Theorem C82_equivalence :
  (forall a, wf a -> pmod_eqb a a = true)
  /\ (forall a b, wf a -> wf b -> pmod_eqb a b = pmod_eqb b a)
  /\ (forall a b c, wf a -> wf b -> wf c -> pmod_eqb a b = true -> pmod_eqb b c = true -> pmod_eqb a c = true).
Proof.
  split; [|split].
  - intros a Ha. now apply eqb_same.
  - intros a b Ha Hb. apply eq_true_iff_eq. rewrite !eqb_same by assumption. split; auto.
  - intros a b c Ha Hb Hc. rewrite !eqb_same by assumption. intros H1 H2 ds. now rewrite H1.
Qed.
Print Assumptions C82_equivalence.

(** Merging respects equality. *)
Theorem C82_merge : forall a a' b b', wf a -> wf a' -> wf b -> wf b' ->
  pmod_eqb a a' = true -> pmod_eqb b b' = true -> pmod_eqb (merge a b) (merge a' b') = true.
Proof.
  intros a a' b b' Ha Ha' Hb Hb' E1 E2.
  assert (H1 := proj1 (eqb_same a a' Ha Ha') E1). assert (H2 := proj1 (eqb_same b b' Hb Hb') E2).
  apply eqb_same; [now apply wf_merge|now apply wf_merge|]. intro ds. specialize (H1 ds). specialize (H2 ds).
  unfold naliases in *. rewrite !nget_merge by assumption.
  destruct (nget a ds), (nget a' ds), (nget b ds), (nget b' ds); cbn in *; try discriminate; auto.
  injection H1 as H1. injection H2 as H2. now rewrite !merge_alias, H1, H2.
Qed.
Print Assumptions C82_merge.

(** Equal mappings with their regexes in the same order map alike ... *)
Theorem C82_maps_alike : forall M fullmatch expand a b path, wf a -> wf b ->
  pmod_eqb a b = true -> same_order a b ->
  map_path M fullmatch expand a path = map_path M fullmatch expand b path.
Proof.
  intros M fm ex a b path Ha Hb E O. apply map_path_alike; auto. apply alike_of; auto. now apply eqb_same_nodes.
Qed.
Print Assumptions C82_maps_alike.

(** ... also many paths at once, each as if it were alone, in their order; ... *)
Theorem C82_many_paths : forall M fullmatch expand a b paths, wf a -> wf b -> pmod_eqb a b = true -> same_order a b ->
  map_paths M fullmatch expand a paths = map_paths M fullmatch expand b paths
  /\ forall outs, map_paths M fullmatch expand a paths = Ok outs <-> Forall2 (fun p o => map_path M fullmatch expand a p = Ok o) paths outs.
Proof.
  intros M fm ex a b paths Ha Hb E O. unfold map_paths. split.
  - induction paths as [|p paths IH]; [reflexivity|]. cbn [rmap]. rewrite IH, (C82_maps_alike M fm ex a b p Ha Hb E O). reflexivity.
  - induction paths as [|p paths IH]; intros outs; cbn [rmap].
    + split; [intros H; injection H as <-; constructor | intros H; inversion H; reflexivity].
    + destruct (map_path M fm ex a p) as [o|e] eqn:F; cbn [rbind]; [|split; [discriminate | intros H; inversion H; congruence]].
      destruct (rmap (map_path M fm ex a) paths) as [os|e]; cbn [rbind].
      * split; [intros H; injection H as <-; constructor; [exact F | now apply IH]|]. intros H. inversion H; subst.
        match goal with X : Forall2 _ paths _ |- _ => apply IH in X end. congruence.
      * split; [discriminate|]. intros H. inversion H; subst. match goal with X : Forall2 _ paths _ |- _ => apply IH in X end. congruence.
Qed.
Print Assumptions C82_many_paths.

(** ... so do those without regexes. *)
Theorem C82_maps_alike_names : forall M fullmatch expand a b path, wf a -> wf b ->
  pmod_eqb a b = true -> (forall ds q, node_at a ds q -> p_regxs q = []) ->
  map_path M fullmatch expand a path = map_path M fullmatch expand b path.
Proof.
  intros M fm ex a b path Ha Hb E N. apply C82_maps_alike; auto. intros ds q q' Hq Hq'. rewrite (N ds q Hq).
  destruct (p_regxs q') as [|[r c] l] eqn:Er; [reflexivity|]. exfalso.
  apply eqb_same_nodes in E; auto.
  assert (X : exists x, node_at b (ds ++ [DRegex r]) x).
  { exists c. clear - Hq' Er. induction Hq' as [p|p n c' ds q Hc Hn IH|p n c' ds q Hc Hn IH]; cbn [app].
    - eapply Na_regex; [|constructor]. unfold rchild. rewrite Er. now left.
    - eapply Na_name; eauto.
    - eapply Na_regex; eauto. }
  apply (proj1 E) in X. destruct X as [x X].
  assert (Y : exists y, node_at a ds y /\ rchild y r x).
  { clear - X. remember (ds ++ [DRegex r]) as es eqn:Ee. revert ds Ee.
    induction X as [p|p n c' es q Hc Hn IH|p n c' es q Hc Hn IH]; intros ds Ee; destruct ds as [|d ds]; cbn in Ee; try discriminate.
    - injection Ee as <- Ee. destruct (IH ds Ee) as [y [Hy Hr]]. exists y. split; [eapply Na_name; eauto|auto].
    - injection Ee as <- ->. inversion Hn; subst. exists p. split; [constructor|auto].
    - injection Ee as <- Ee. destruct (IH ds Ee) as [y [Hy Hr]]. exists y. split; [eapply Na_regex; eauto|auto]. }
  destruct Y as [y [Hy Hr]]. unfold rchild in Hr. rewrite (N ds y Hy) in Hr. destruct Hr.
Qed.
Print Assumptions C82_maps_alike_names.

(** Tuples in another order, if none is repeated with another target, make equal mappings. *)
Theorem C82_tuples_in_any_order : forall compiles ts ts' l l' p p', counted ts l -> counted ts' l' ->
  pmods_from_tuples compiles ts = Ok p -> pmods_from_tuples compiles ts' = Ok p' ->
  (forall dt, In dt l <-> In dt l') -> (forall ds t t', In (ds, t) l -> In (ds, t') l -> t = t') ->
  pmod_eqb p p' = true.
Proof.
  intros compiles ts ts' l l' p p' C C' E E' S U.
  apply eqb_same_nodes; [exact (pft_wf _ _ _ E)|exact (pft_wf _ _ _ E')|]. exact (tuples_same compiles ts ts' l l' p p' C C' E E' S U).
Qed.
Print Assumptions C82_tuples_in_any_order.

(** But equal mappings do not map alike in general: dicts are compared regardless of their
    order, while the last of the matching regexes gives the alias. *)
Theorem C82_maps_alike_refuted : exists ts p p',
  pmods_from_tuples (fun _ => true) ts = Ok p /\ pmods_from_tuples (fun _ => true) (rev ts) = Ok p'
  /\ pmod_eqb p p' = true
  /\ map_path pystr ex_fullmatch ex_expand p (lit "abc") = Ok (lit "two_c")
  /\ map_path pystr ex_fullmatch ex_expand p' (lit "abc") = Ok (lit "one_bc").
Proof.
  exists [(Some (lit "~a*"), Some (lit "one_")); (Some (lit "~ab*"), Some (lit "two_"))].
  eexists _, _. repeat split; vm_compute; reflexivity.
Qed.
Print Assumptions C82_maps_alike_refuted.

Example C82_example :
  let ts := [(Some (lit "a/b"), Some (lit "B")); (Some (lit "a"), Some (lit "A")); (Some (lit "x/~y*"), Some (lit "Y"))] in
  exists p p', pmods_from_tuples (fun _ => true) ts = Ok p /\ pmods_from_tuples (fun _ => true) (rev ts) = Ok p'
  /\ p <> p' /\ pmod_eqb p p' = true /\ pmod_eqb p (merge p pm1) = false
  /\ map_path pystr ex_fullmatch ex_expand p (lit "a/b") = Ok (lit "A/B")
  /\ map_path pystr ex_fullmatch ex_expand p' (lit "a/b") = Ok (lit "A/B").
Proof.
  cbn zeta. eexists _, _. split; [vm_compute; reflexivity|]. split; [vm_compute; reflexivity|].
  split; [discriminate|]. repeat split; vm_compute; reflexivity.
Qed.
