(** * Listing the children of a step: proofs *)
From Coq Require Import String Lia Permutation.
From Verif Require Import PyBase PyBase_Proofs Json JsonPointer_Model Paths_Model Pmod_Model Pstep_Model Pstep_Spec
  Pstep_Proofs PstepTree_Proofs PstepHist_Proofs PstepPaths_Proofs Listing_Model.

Lemma children_keys : forall h i, sound h -> NoDup (map fst (children h i)).
Proof.
  intros h i S. unfold children. destruct (nth_error (h_steps h) i) as [s|] eqn:E; [|constructor].
  unfold dict_of. destruct (s_csteps s) as [d|] eqn:Ed; [|constructor]. destruct S as (S1 & _ & S3).
  specialize (S1 i s d E Ed). apply (S3 d). apply nth_error_nth'. exact S1.
Qed.

Section Made.
  Variable M : Type.
  Variable fullmatch : pystr -> pystr -> option M.
  Variable expand : M -> pystr -> res pystr.
  Variable compiles : pystr -> bool.
  Notation make := (make_cstep M fullmatch expand compiles).
  Lemma made_child : forall h self k al e h' n s, step_at h self s -> make h self k al e = (h', Ok n) -> sound h -> child_at h' self k n.
  Proof.
    intros h self k al e h' n s Hs E S.
    destruct (make_inv _ _ _ _ _ _ _ _ _ _ _ _ Hs E) as [h1 [d [e1 [h2 [P [N F]]]]]].
    destruct (prepared_sound _ _ _ _ _ _ _ _ _ Hs P S) as [S' Hd].
    destruct (prepared_steps _ _ _ _ _ _ _ _ _ Hs P) as [s' [A [_ [B _]]]].
    apply new_inv in N. destruct N as [dx [cx [N1 [N2 N3]]]]. destruct N3 as [Hn [sn [N3 _]]]. subst h'.
    exists s', d, (dset str_eqb k n (dict_of h2 (Some d))). unfold step_at in *. cbn. split; [|split; [exact B|split]].
    - rewrite N3. apply nth_error_app_l. rewrite A. apply nth_error_update_eq. apply nth_error_Some. congruence.
    - apply nth_error_update_eq. rewrite N1, app_length. lia.
    - apply In_dset_new.
  Qed.
End Made.
