(** * Models in memory: the properties *)
From Coq Require Import String.
From Verif Require Import PyBase PyBase_Proofs Json Pandel_Model Pandel_Spec Pandel_Proofs Share_Model Share_Spec Share_Proofs.

Local Notation obj := JDict.
Local Notation "k ↦ v" := (lit k, v) (at level 60).
Definition no_other_in (n : nat) (h : heap) (v : value) : list nat := [].
Definition no_other (n : nat) (v : json) : list nat := [].

(** ** C77: building leaves the sub-models *)

(** Nothing is shared and the schema of the pre-validation has no defaults; but the
    model shares the inner dictionary, into which the validation of the model writes. *)
Theorem C77_shared_refuted : exists full h m j fp,
  shows h m j fp /\ unshared fp /\ j = obj ["a" ↦ obj []] /\
  shows (i_heap (build_in no_other_in 9 full [] [([], m)] h)) m (obj ["a" ↦ obj ["b" ↦ JNum 1]]) fp.
Proof.
  exists [SProps ["a" ↦ [SProps ["b" ↦ [SDefault (VNum 1)]]]]], [ODict ["a" ↦ VRef 1]; ODict []], (VRef 0), (obj ["a" ↦ obj []]), [0; 1].
  assert (S : forall h d dj, nth_error h 0 = Some (ODict ["a" ↦ VRef 1]) -> nth_error h 1 = Some (ODict d) -> shows_dict h d dj [] -> shows h (VRef 0) (obj ["a" ↦ obj dj]) [0; 1]).
  { intros h d dj E0 E1 D. apply (Sh_dict _ 0 _ _ [1] E0). apply (Sd_cons _ _ _ _ [1] _ _ []); [exact (Sh_dict _ 1 _ _ [] E1 D)|constructor]. }
  split; [apply (S _ [] []); [reflexivity|reflexivity|constructor]|]. split; [intros [|[|x]]; vm_compute; lia|]. split; [reflexivity|].
  apply (S _ ["b" ↦ VNum 1] ["b" ↦ JNum 1]); [reflexivity|reflexivity|]. apply (Sd_cons _ _ _ _ [] _ _ []); constructor.
Qed.
Print Assumptions C77_shared_refuted.
(** However shared the sub-models are: without defaults, all they lose is nulls. *)
Theorem C77_submodels_partial : forall other fuel full subs h,
  (forall s m, In (s, m) subs -> no_default s) -> no_default full -> dicts_sound h ->
  lost_only_nulls h (i_heap (build_in other fuel full [] subs h)).
Proof. exact build_loses. Qed.
Print Assumptions C77_submodels_partial.
Example C77_shared_example :
  i_heap (build_in no_other_in 9 [SProps ["b" ↦ [SProps ["a" ↦ [SAutoRemoveNull (JBool true)]]]]] [] [([SRequired [lit "b"]], VRef 0)]
    [ODict ["a" ↦ VNull; "b" ↦ VRef 1]; ODict ["a" ↦ VNull]])
  = [ODict ["a" ↦ VNull; "b" ↦ VRef 1]; ODict []; ODict ["a" ↦ VNull; "b" ↦ VRef 1]].
Proof. vm_compute. reflexivity. Qed.

(** ** C103: merging changes none of the models *)
Theorem C103_merge_keeps : forall fuel h a b h' r, merge_in fuel h a b = (h', r) -> kept h h'.
Proof. intros fuel h a b h' r E. apply grown_kept. exact (merge_in_grows _ _ _ _ _ _ E). Qed.
Print Assumptions C103_merge_keeps.
Theorem C103_merge_all_keeps : forall fuel ms h m h' m' r, merge_all_in fuel h m ms = (h', m', r) -> kept h h'.
Proof. intros fuel ms h m h' m' r E. apply grown_kept. exact (merge_all_in_grows _ _ _ _ _ _ _ E). Qed.
Print Assumptions C103_merge_all_keeps.
(** The outcome is that for the trees, however shared. *)
Theorem C103_merge_tree : forall ja jb, exists N, forall fuel h a b fa fb, (N <= fuel)%nat -> shows h a ja fa -> shows h b jb fb ->
  match merge ja jb with
  | Ok j => exists h' v fp, merge_in fuel h a b = (h', Ok v) /\ shows h' v j fp
  | Raise e => exists h', merge_in fuel h a b = (h', Raise e)
  end.
Proof.
  intros ja jb. destruct (all_merges jb ja) as (N & H). exists N. intros fuel h a b fa fb L A B. destruct (H fuel L h a b fa fb A B) as (G & R).
  destruct (merge_in fuel h a b) as [h' r]. cbn [fst snd] in *. destruct (merge ja jb) as [j|e].
  - destruct R as (v & fp & -> & S & _). exists h', v, fp. split; [reflexivity|exact S].
  - rewrite R. exists h'. reflexivity.
Qed.
Print Assumptions C103_merge_tree.
Example C103_example : merge_in 9 [ODict ["a" ↦ VRef 1; "b" ↦ VRef 2]; ODict ["c" ↦ VNum 1]; OList [VRef 1]; ODict ["a" ↦ VRef 1; "b" ↦ VNull]] (VRef 0) (VRef 3)
  = ([ODict ["a" ↦ VRef 1; "b" ↦ VRef 2]; ODict ["c" ↦ VNum 1]; OList [VRef 1]; ODict ["a" ↦ VRef 1; "b" ↦ VNull];
      ODict ["c" ↦ VNum 1]; ODict ["c" ↦ VNum 1]; OList [VRef 5]; ODict ["a" ↦ VRef 4; "b" ↦ VRef 6]], Ok (VRef 7)).
Proof. vm_compute. reflexivity. Qed.

(** ** C104: a model that shares nothing is built as a tree *)
Theorem C104_built : forall other_in other full fullj funcs_in funcs pre ms,
  (forall n h v j fp, shows h v j fp -> other_in n h v = other n j) -> Forall2 curates funcs_in funcs ->
  exists N, forall fuel h subs fp ff, (N <= fuel)%nat -> subs_show h pre subs ms fp -> schema_shows h false full fullj ff -> unshared (fp ++ ff) ->
    i_errors (build_in other_in fuel full funcs_in subs h) = b_errors (build_iter other pre fullj funcs ms) /\
    exists fp', shows (i_heap (build_in other_in fuel full funcs_in subs h)) (i_model (build_in other_in fuel full funcs_in subs h))
      (b_model (build_iter other pre fullj funcs ms)) fp' /\ unshared fp'.
Proof.
  intros other_in other full fullj funcs_in funcs pre ms Ho Hf. destruct (build_tracks other_in other Ho full fullj funcs_in funcs pre ms Hf) as (N & H).
  exists N. intros fuel h subs fp ff L. exact (H fuel L h subs fp ff).
Qed.
Print Assumptions C104_built.
(** A dictionary under two keys: what is filled in for the one is seen under the other. *)
Theorem C104_shared_refuted : exists full fullj h m j fp,
  shows h m j fp /\ schema_shows h false full fullj [] /\
  node (i_heap (build_in no_other_in 9 full [] [([], m)] h)) (i_model (build_in no_other_in 9 full [] [([], m)] h)) [lit "b"; lit "c"] = Some (VNum 1) /\
  at_path [lit "b"; lit "c"] (b_model (build_iter no_other [] fullj [] [j])) = None.
Proof.
  exists [SProps ["a" ↦ [SProps ["c" ↦ [SDefault (VNum 1)]]]]], [KProps ["a" ↦ [KProps ["c" ↦ [KDefault (JNum 1)]]]]],
    [ODict ["a" ↦ VRef 1; "b" ↦ VRef 1]; ODict []], (VRef 0), (obj ["a" ↦ obj []; "b" ↦ obj []]), [0; 1; 1].
  split.
  { eapply (Sh_dict _ 0 _ _ [1; 1]); [reflexivity|]. apply (Sd_cons _ _ _ _ [1] _ _ [1]); [eapply (Sh_dict _ 1 _ _ []); [reflexivity|constructor]|].
    apply (Sd_cons _ _ _ _ [1] _ _ []); [eapply (Sh_dict _ 1 _ _ []); [reflexivity|constructor]|constructor]. }
  split.
  { apply (Ss_cons _ _ _ _ [] _ _ []); [|constructor]. constructor. apply (Sp_cons _ _ _ _ [] _ _ []); [|constructor].
    apply (Ss_cons _ _ _ _ [] _ _ []); [|constructor]. constructor. apply (Sp_cons _ _ _ _ [] _ _ []); [|constructor].
    apply (Ss_cons _ _ _ _ [] _ _ []); repeat constructor. }
  split; vm_compute; reflexivity.
Qed.
Print Assumptions C104_shared_refuted.
Example C104_example :
  let h := [ODict ["a" ↦ VRef 1]; ODict []; ODict ["a" ↦ VRef 3]; ODict ["d" ↦ VStr []]] in
  let full := [SProps ["a" ↦ [SProps ["c" ↦ [SDefault (VNum 1)]]]]] in
  let b := build_in no_other_in 9 full [] [([], VRef 0); ([], VRef 2)] h in
  let t := build_iter no_other [] [KProps ["a" ↦ [KProps ["c" ↦ [KDefault (JNum 1)]]]]] [] [obj ["a" ↦ obj []]; obj ["a" ↦ obj ["d" ↦ JStr []]]] in
  i_errors b = [] /\ b_errors t = [] /\ b_model t = obj ["a" ↦ obj ["d" ↦ JStr []; "c" ↦ JNum 1]] /\
  node (i_heap b) (i_model b) [lit "a"; lit "c"] = Some (VNum 1) /\ node (i_heap b) (i_model b) [lit "a"; lit "d"] = Some (VStr []) /\
  firstn 4 (i_heap b) = h.
Proof. vm_compute. repeat split. Qed.

(** ** C105: building leaves the schemas, and other objects *)

(** Whatever is shared: an object changes only if the sub-models or defaults lead to it. *)
Theorem C105_others_partial : forall P other fuel full subs h, closed h P -> (forall s m, In (s, m) subs -> within P m) ->
  (forall s m w, In (s, m) subs -> default_of s w -> within P w) -> (forall w, default_of full w -> within P w) ->
  forall x, (x < length h)%nat -> ~ P x -> nth_error (i_heap (build_in other fuel full [] subs h)) x = nth_error h x.
Proof. exact build_within. Qed.
Print Assumptions C105_others_partial.
(** The default of a property is filled with those below it: in the schema itself,
    where the next build finds it. *)
Theorem C105_schema_refuted : exists full h m x, default_of full (VRef x) /\ nth_error h x = Some (ODict []) /\
  nth_error (i_heap (build_in no_other_in 9 full [] [([], m)] h)) x = Some (ODict ["b" ↦ VNum 1]).
Proof.
  exists [SProps ["a" ↦ [SDefault (VRef 1); SProps ["b" ↦ [SDefault (VNum 1)]]]]], [ODict []; ODict []], (VRef 0), 1.
  split; [eapply Do_here; [left; reflexivity|left; reflexivity|left; reflexivity]|]. split; vm_compute; reflexivity.
Qed.
Print Assumptions C105_schema_refuted.
(** Defaults that are no dictionaries or lists are left, with all other objects. *)
Example C105_example :
  nth_error (i_heap (build_in no_other_in 9 [SProps ["a" ↦ [SDefault (VStr []); SProps ["b" ↦ [SDefault (VNum 1)]]]]] [] [([], VRef 0)] [ODict []; ODict ["c" ↦ VRef 0]])) 1
  = Some (ODict ["c" ↦ VRef 0]).
Proof. vm_compute. reflexivity. Qed.

(** ** C106: merging clones the models *)

(** "cloning both": a dictionary that only one of them has is not cloned. *)
Theorem C106_cloned_refuted : exists h a b h' r k x, merge_in 9 h a b = (h', Ok r) /\ node h b [k] = Some (VRef x) /\ node h' r [k] = Some (VRef x).
Proof.
  exists [ODict []; ODict ["a" ↦ VRef 2]; ODict []], (VRef 0), (VRef 1). do 2 eexists. exists (lit "a"), 2. split; [vm_compute; reflexivity|]. split; vm_compute; reflexivity.
Qed.
Print Assumptions C106_cloned_refuted.
(** The dictionaries that both have are cloned. *)
Theorem C106_fresh_partial : forall p fuel h a b h' r va vb, dicts_sound h -> merge_in fuel h a b = (h', Ok r) ->
  node h a p = Some va -> is_some (as_dict h va) = true -> node h b p = Some vb -> is_some (as_dict h vb) = true ->
  exists x, node h' r p = Some (VRef x) /\ (length h <= x)%nat.
Proof. exact merge_in_fresh. Qed.
Print Assumptions C106_fresh_partial.
(** Which objects are new, exactly: where both models have a value the merged one has
    a new object (or one that is no dictionary and no list); what one of them alone has
    under a key of such a dictionary is itself in the merged one, not a clone.  The
    hypotheses say that references lead to objects that exist. *)
Theorem C106_exact : forall fuel h a b h' r p va vb, dicts_sound h -> closed h (fun x => (x < length h)%nat) ->
  within (fun x => (x < length h)%nat) a -> within (fun x => (x < length h)%nat) b -> merge_in fuel h a b = (h', Ok r) ->
  node h a p = Some va -> node h b p = Some vb ->
  (exists v, node h' r p = Some v /\ forall x, v = VRef x -> (length h <= x)%nat) /\
  forall k, (node h a (p ++ [k]) = None -> node h' r (p ++ [k]) = node h b (p ++ [k])) /\
            (node h b (p ++ [k]) = None -> node h' r (p ++ [k]) = node h a (p ++ [k])).
Proof. exact merge_in_exact. Qed.
Print Assumptions C106_exact.
(** Null in the one and a dictionary in the other: a new dictionary of the same values *)
Example C106_exact_example : exists h' r, merge_in 9 [ODict ["a" ↦ VNull]; ODict ["a" ↦ VRef 2]; ODict ["b" ↦ VRef 3]; ODict []] (VRef 0) (VRef 1) = (h', Ok r) /\
  node h' r [lit "a"] = Some (VRef 4) /\ node h' r [lit "a"; lit "b"] = Some (VRef 3).
Proof. do 2 eexists. split; [vm_compute; reflexivity|]. repeat split. Qed.
Example C106_example : exists h' r, merge_in 9 [ODict ["a" ↦ VRef 1; "b" ↦ VRef 3]; ODict []; ODict ["a" ↦ VRef 3]; ODict []] (VRef 0) (VRef 2) = (h', Ok r) /\
  node h' r [] = Some (VRef 5) /\ node h' r [lit "a"] = Some (VRef 4) /\ node h' r [lit "b"] = Some (VRef 3).
Proof. do 2 eexists. split; [vm_compute; reflexivity|]. repeat split. Qed.
