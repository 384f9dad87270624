(** * File paths: properties *)
From Coq Require Import String.
From Verif Require Import PyBase PyBase_Proofs OsPath_Model OsPath_Spec OsPath_Proofs.

(** A normalised path leads to the same place, from everywhere. *)
Theorem C84_same_place : forall p folder,
  leads_to folder (normpath p) = leads_to folder p /\ root_of (normpath p) = root_of p.
Proof.
  intros p st. unfold normpath.
  rewrite keep_leads, keep_root by apply osp_not_nil. rewrite osp_leads, osp_root. auto.
Qed.
Print Assumptions C84_same_place.

(** Paths leading to the same place are normalised alike, up to the last slash. *)
Theorem C84_canonical : forall p q, root_of p = root_of q ->
  (forall folder, leads_to folder p = leads_to folder q) ->
  exists n, (normpath p = n \/ normpath p = n ++ lit "/") /\ (normpath q = n \/ normpath q = n ++ lit "/").
Proof.
  intros p q R L. exists (osp_normpath p). unfold normpath.
  rewrite <- (osp_canonical p q R L). unfold keep_slash.
  destruct (_ && _)%bool, (_ && _)%bool; auto.
Qed.
Print Assumptions C84_canonical.

(** The last slash is preserved ... *)
Theorem C84_keeps_slash : forall p q c, plain p -> p = q ++ [c; 47%N] -> c <> 47%N ->
  ends_slash (normpath p).
Proof.
  intros p q c P E Hc. unfold normpath. rewrite keep_slash_spec.
  replace (is_dir p) with true by (symmetry; apply (is_dir_plain p P); exists q, c; auto).
  destruct (ends_with (lit "/") (osp_normpath p)) eqn:X; [apply ends_with1; exact X|].
  eexists. reflexivity.
Qed.
Print Assumptions C84_keeps_slash.

(** ... and none is added, but for roots. *)
Theorem C84_adds_no_slash : forall p, plain p -> ends_slash (normpath p) ->
  ends_slash p \/ normpath p = lit "/" \/ normpath p = lit "//".
Proof.
  intros p P H. unfold normpath in *. rewrite keep_slash_spec in *.
  destruct (is_dir p) eqn:D.
  - left. apply (is_dir_plain p P) in D. destruct D as (q & c & -> & _).
    exists (q ++ [c]). rewrite <- app_assoc. reflexivity.
  - right. exact (osp_ends p H).
Qed.
Print Assumptions C84_adds_no_slash.

Theorem C84_idempotent : forall p, plain p -> normpath (normpath p) = normpath p.
Proof. exact normpath_idem. Qed.
Print Assumptions C84_idempotent.

(** [abspath] gives an absolute path to where the path leads from the current folder. *)
Theorem C84_abspath : forall cwd p folder, root_of cwd <> Relative ->
  leads_to folder (abspath cwd p) = leads_to (leads_to [] cwd) p /\
  root_of (abspath cwd p) <> Relative.
Proof. intros cwd p st H. exact (abspath_leads cwd p st H). Qed.
Print Assumptions C84_abspath.

(** A doubled last slash is not preserved. *)
Theorem C84_keeps_slash_refuted : exists p, plain p /\ ends_slash p /\ ~ ends_slash (normpath p).
Proof.
  exists (lit "a//"). split; [split; intros [E|[E|[E|[]]]]; discriminate|]. split; [exists (lit "a/"); reflexivity|].
  intro H. apply ends_with1 in H. discriminate.
Qed.
Print Assumptions C84_keeps_slash_refuted.

(** With a backslash at the end, a slash is added and removed again each time. *)
Theorem C84_idempotent_refuted : exists p, ~ ends_slash p /\
  normpath p = p ++ lit "/" /\ normpath (normpath p) = p.
Proof.
  exists (lit "a\"). split; [|split; reflexivity].
  intro H. apply ends_with1 in H. discriminate.
Qed.
Print Assumptions C84_idempotent_refuted.

(** A file whose name is a line-end becomes a folder. *)
Theorem C84_adds_no_slash_refuted : exists p, ~ ends_slash p /\ normpath p = p ++ lit "/".
Proof.
  exists (lit "a/" ++ [10%N]). split; [|reflexivity].
  intro H. apply ends_with1 in H. discriminate.
Qed.
Print Assumptions C84_adds_no_slash_refuted.

Example C84_example :
  map (fun p => show (normpath (lit p)))
    ["a/./b//../c/"; "../../x/.."; "/../a/"; "//srv/x/../"; "///a"; ""; "./"; "/a/../"]%string
  = ["a/c/"; "../.."; "/a/"; "//srv/"; "/a"; "."; "./"; "/"]%string.
Proof. reflexivity. Qed.

Example C84_abspath_example :
  map (fun p => show (abspath (lit "/home/me") (lit p))) ["x/../y/"; "../.."; "/z"; "../../../w"]%string
  = ["/home/me/y/"; "/"; "/z"; "/w"]%string.
Proof. reflexivity. Qed.

Example C84_leads_example :
  leads_to [lit "me"; lit "home"] (lit "../you/./x") = [lit "x"; lit "you"; lit "home"].
Proof. reflexivity. Qed.
