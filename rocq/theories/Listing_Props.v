(** * Listing the children of a step: theorems *)
From Coq Require Import String Permutation.
From Verif Require Import PyBase PyBase_Proofs Json JsonPointer_Model Paths_Model Pmod_Model Pstep_Model Pstep_Spec
  Pstep_Proofs PstepTree_Proofs PstepHist_Proofs PstepPaths_Proofs Pstep_Props Pmod_Props Listing_Model Listing_Spec Listing_Proofs.

Section Steps.
  Variable M : Type.
  Variable fullmatch : pystr -> pystr -> option M.
  Variable expand : M -> pystr -> res pystr.
  Variable compiles : pystr -> bool.
  Variable class_attr : pystr -> bool.
  Notation get := (getattr M fullmatch expand compiles class_attr).
  Notation set := (setattr M fullmatch expand compiles).
  Notation ex := (exec M fullmatch expand compiles class_attr).
  Notation go := (run M fullmatch expand compiles class_attr).

  (** The children, each once, with their names in the same order; whatever the tag *)
  Theorem C118_children : forall os i tag, always ex no_loop empty_heap os ->
    let h := go empty_heap os in
    NoDup (steps_keys h i tag) /\ length (steps_keys h i tag) = length (steps h i tag) /\
    forall a c, child_at h i a c <-> In (a, c) (combine (steps_keys h i tag) (steps h i tag)).
  Proof.
    intros os i tag NL h. assert (G := good_run M fullmatch expand compiles class_attr os empty_heap good_empty NL). fold h in G.
    unfold steps_keys, steps. split; [apply children_keys; apply G|]. split; [now rewrite !map_length|].
    intros a c. rewrite <- children_child. assert (E : forall l : list (pystr * nat), combine (map fst l) (map snd l) = l).
    { induction l as [|[x y] l IH]; [reflexivity|]. cbn. now rewrite IH. }
    rewrite E. reflexivity.
  Qed.
  (** [dir()]: what any object lists, and the children; in order if there are any *)
  Theorem C118_dir : forall own h i,
    (forall a, In a (dir_names own h i) <-> In a own \/ exists c, child_at h i a c) /\
    (leaf_at h i -> dir_names own h i = own) /\ (~ leaf_at h i -> nondecreasing (dir_names own h i)).
  Proof.
    intros own h i. unfold dir_names. assert (K : forall a, In a (map fst (children h i)) <-> exists c, child_at h i a c).
    { intros a. rewrite in_map_iff. split.
      - intros ([a' c] & <- & H). exists c. now apply children_child.
      - intros (c & H). exists (a, c). split; [reflexivity|]. now apply children_child. }
    destruct (children h i) as [|x l] eqn:E.
    - split; [|split; [reflexivity|]].
      + intros a. specialize (K a). cbn in K. tauto.
      + intros N. destruct N. intros a c H. apply children_child in H. rewrite E in H. destruct H.
    - split; [|split].
      + intros a. rewrite <- K, <- in_app_iff. split; apply Permutation_in; [apply Permutation_sym|]; apply (sort_perm pystr (fun x => x)).
      + intros L. destruct x as [a c]. destruct (L a c). apply children_child. rewrite E. now left.
      + intros _. generalize (sorted_nondecreasing _ _ _ (sort_sorted pystr (fun x => x) (own ++ map fst (x :: l)))). now rewrite map_id.
  Qed.
  (** Children listed are read as attributes, which changes nothing: unless their name is that of
      an attribute of the class, or their text is empty. *)
  Theorem C118_got : forall os i a c, always ex no_loop empty_heap os ->
    let h := go empty_heap os in
    child_at h i a c -> class_attr a = false -> starts_with (lit "_") a = false -> a <> lit "get_values" -> a <> lit "Series" ->
    text_of h c <> [] -> get h i a = (h, Ok (VStep c)).
  Proof.
    intros os i a c NL h Hc Ka Ha N1 N2 Ht. assert (G := good_run M fullmatch expand compiles class_attr os empty_heap good_empty NL). fold h in G.
    unfold getattr. rewrite Ka, Ha. assert (F : forbidden a = false).
    { unfold forbidden. rewrite (proj2 (str_eqb_neq _ _) N1), (proj2 (str_eqb_neq _ _) N2). reflexivity. }
    rewrite F. cbn [orb]. pose proof (children_keys h i (proj1 G)) as ND. apply children_child in Hc. unfold children in *.
    destruct (nth_error (h_steps h) i) as [s|]; [|destruct Hc].
    assert (D : dget str_eqb a (dict_of h (s_csteps s)) = Some c).
    { clear - Hc ND. induction (dict_of h (s_csteps s)) as [|[k v] l IH]; [destruct Hc|]. cbn in ND |- *. inversion ND as [|x y X Y]; subst.
      destruct Hc as [E|Hc]; [injection E as -> ->; now rewrite str_eqb_refl|].
      destruct (str_eqb a k) eqn:Ek; [|now apply IH]. apply str_eqb_eq in Ek. subst k. destruct X. apply (in_map fst) in Hc. exact Hc. }
    rewrite D. rewrite (proj2 (texted_iff h c) Ht). reflexivity.
  Qed.
  (** What is assigned is listed. *)
  Theorem C118_assigned : forall os own i a v h' tag, always ex no_loop empty_heap os ->
    set (go empty_heap os) i a v = (h', Ok tt) -> starts_with (lit "_") a = false ->
    In a (steps_keys h' i tag) /\ In a (dir_names own h' i).
  Proof.
    intros os own i a v h' tag NL E Ha. assert (G := good_run M fullmatch expand compiles class_attr os empty_heap good_empty NL).
    assert (X : exists n, child_at h' i a n).
    { unfold setattr in E. rewrite Ha in E. set (h := go empty_heap os) in *.
      assert (Y : forall al e h1 r, make_cstep M fullmatch expand compiles h i a al e = (h1, r) -> (h1, do _ <- r; Ok tt) = (h', Ok tt) -> exists n, child_at h' i a n).
      { intros al e h1 r E1 E2. destruct r as [n|]; [|discriminate]. injection E2 as <-. exists n.
        destruct (nth_error (h_steps h) i) as [s|] eqn:Hs; [|unfold make_cstep in E1; rewrite Hs in E1; discriminate].
        exact (made_child M fullmatch expand compiles h i a al e h1 n s Hs E1 (proj1 G)). }
      destruct v as [j|x|]; [| |discriminate];
        match type of E with context [make_cstep M fullmatch expand compiles h i a ?al ?e] => destruct (make_cstep M fullmatch expand compiles h i a al e) as [h1 r] eqn:E1 end;
        exact (Y _ _ _ _ E1 E). }
    split.
    - destruct X as [n X]. apply children_child in X. apply (in_map fst) in X. exact X.
    - apply C118_dir. now right.
  Qed.
End Steps.
Print Assumptions C118_children.
Print Assumptions C118_dir.
Print Assumptions C118_got.
Print Assumptions C118_assigned.

(** [p = Pstep('r'); p.b; p.a; p.b = 'X'] *)
Definition two : list op :=
  [ONew (Some (lit "r")) NoMaps None []; OGet 0 (lit "b"); OGet 0 (lit "a"); OSet 0 (lit "b") (AStr (lit "X"))].
Example C118_example :
  let h := xrun empty_heap two in
  steps_keys h 0 None = [lit "b"; lit "a"] /\ steps h 0 None = [3; 2]%nat /\ text_of h 3 = lit "X" /\ repr h 3 = lit "`X`"
  /\ dir_names [lit "upper"; lit "lower"] h 0 = [lit "a"; lit "b"; lit "lower"; lit "upper"]
  /\ dir_names [lit "upper"; lit "lower"] h 2 = [lit "upper"; lit "lower"] /\ xget h 0 (lit "b") = (h, Ok (VStep 3)).
Proof. vm_compute. repeat split. Qed.

(** A child that has the name of a method is listed, but the attribute is the method; [Series] is
    listed and not there. *)
Theorem C118_got_refuted :
  (exists os i a c, always (exec pystr ex_fullmatch ex_expand (fun _ => true) (str_eqb (lit "title"))) no_loop empty_heap os /\
    let h := run pystr ex_fullmatch ex_expand (fun _ => true) (str_eqb (lit "title")) empty_heap os in
    child_at h i a c /\ text_of h c <> [] /\ In a (steps_keys h i None) /\
    getattr pystr ex_fullmatch ex_expand (fun _ => true) (str_eqb (lit "title")) h i a = (h, Ok VClass)) /\
  (exists os i a c, always xexec no_loop empty_heap os /\
    let h := xrun empty_heap os in
    child_at h i a c /\ text_of h c <> [] /\ In a (steps_keys h i None) /\ xget h i a = (h, Raise AttributeError)).
Proof.
  split.
  - exists [ONew (Some (lit "r")) NoMaps None []; OSet 0 (lit "title") (AStr (lit "Name"))], 0%nat, (lit "title"), 1%nat.
    split; [no_loops|]. cbv zeta. split; [child_here|]. split; [vm_compute; discriminate|]. split; [vm_compute; auto|reflexivity].
  - exists [ONew (Some (lit "r")) NoMaps None []; OSet 0 (lit "Series") (AStr (lit "x"))], 0%nat, (lit "Series"), 1%nat.
    split; [no_loops|]. cbv zeta. split; [child_here|]. split; [vm_compute; discriminate|]. split; [vm_compute; auto|reflexivity].
Qed.
Print Assumptions C118_got_refuted.

(** ** Refusing locks *)

(** The message names the state asked for, unless that is [CAN_RENAME], for which it says [LOCKED]. *)
Theorem C118_lock : forall z n, lock_name z n -> z <> 1%Z -> lockstr z = n.
Proof. intros z n [| |] N; [reflexivity|congruence|reflexivity]. Qed.
Print Assumptions C118_lock.
Theorem C118_message : forall h i z n, lock_name z n -> z <> 1%Z ->
  exists before, locked_msg h i z = before ++ lit " due to " ++ n ++ lit "!".
Proof.
  intros h i z n H N. exists (lit "Cannot rename/relocate '" ++ orig_of h i ++ lit "'-->'" ++ text_of h i ++ lit "'").
  unfold locked_msg. rewrite (C118_lock z n H N), <- !app_assoc. reflexivity.
Qed.
Print Assumptions C118_message.
Example C118_message_example :
  let h := xrun empty_heap [ONew (Some (lit "r")) NoMaps None []; OSet 0 (lit "a") (AStr (lit "b/c"))] in
  locked_msg h 1 LOCKED = lit "Cannot rename/relocate 'a'-->'b/c' due to LOCKED!".
Proof. reflexivity. Qed.
Theorem C118_lock_refuted : exists os i h', always xexec no_loop empty_heap os /\
  let h := xrun empty_heap os in
  set_locked h i CAN_RENAME = (h', Raise ValueError) /\ lock_name CAN_RENAME (lit "CAN_RENAME") /\
  locked_msg h i CAN_RENAME = lit "Cannot rename/relocate 'a'-->'b/c' due to LOCKED!".
Proof.
  exists [ONew (Some (lit "r")) NoMaps None []; OSet 0 (lit "a") (AStr (lit "b/c"))], 1%nat. eexists.
  split; [no_loops|]. cbv zeta. split; [reflexivity|]. split; [constructor|reflexivity].
Qed.
Print Assumptions C118_lock_refuted.
Example C118_lock_example : lockstr 3 = lit "CAN_RELOCATE" /\ lockstr 0 = lit "LOCKED" /\ lockstr 1 = lockstr 0.
Proof. repeat split. Qed.
