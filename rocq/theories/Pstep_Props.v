(** * Properties of path steps *)
From Coq Require Import String Lia.
From Verif Require Import PyBase PyBase_Proofs Json JsonPointer_Model JsonPointer_Spec Paths_Model Paths_Spec
  Pmod_Model Pmod_Spec PmodMap_Proofs Pmod_Props Pstep_Model Pstep_Spec PstepPmod_Proofs Pstep_Proofs PstepTree_Proofs
  PstepHist_Proofs PstepPaths_Proofs.

(** ** C43: references *)
Section Steps.
  Variable M : Type.
  Variable fullmatch : pystr -> pystr -> option M.
  Variable expand : M -> pystr -> res pystr.
  Variable compiles : pystr -> bool.
  Variable class_attr : pystr -> bool.
  Notation new := (new_step M fullmatch expand compiles).
  Notation get := (getattr M fullmatch expand compiles class_attr).
  Notation set := (setattr M fullmatch expand compiles).
  Notation ex := (exec M fullmatch expand compiles class_attr).
  Notation go := (run M fullmatch expand compiles class_attr).

  (** A program that assigns no step below itself has a forest: nothing dangles, no
      two steps share children, all ways down end. *)
  Theorem C43_forest : forall os, always ex no_loop empty_heap os ->
    sound (go empty_heap os) /\ unshared (go empty_heap os) /\ forall i, ends (go empty_heap os) i.
  Proof. intros os H. exact (good_run M fullmatch expand compiles class_attr os empty_heap good_empty H). Qed.

  (** Whatever happens in between, short of assigning to the attribute, a reference
      gives the same step as before; the text must not be blank. *)
  Theorem C43_same_step : forall os0 i a h1 c os, always ex no_loop empty_heap os0 ->
    get (go empty_heap os0) i a = (h1, Ok (VStep c)) -> text_of h1 c <> [] ->
    always ex no_loop h1 os -> always ex (unassigned i a) h1 os ->
    get (go h1 os) i a = (go h1 os, Ok (VStep c)).
  Proof.
    intros os0 i a h1 c os H0 E Ht NL U.
    exact (same_step M fullmatch expand compiles class_attr _ _ _ _ _ _
             (good_run M fullmatch expand compiles class_attr os0 empty_heap good_empty H0) E Ht NL U).
  Qed.

  (** Assigning a string to a child gives a step with this text, and all else, the
      children above all, of the previous one. *)
  Theorem C43_rename_keeps : forall os i a x j sj, always ex no_loop empty_heap os ->
    let h := go empty_heap os in
    child_at h i a j -> step_at h j sj -> s_text sj <> [] -> starts_with (lit "_") a = false ->
    exists h' n sn, set h i a (AStr x) = (h', Ok tt) /\ child_at h' i a n /\ ~ (exists s, step_at h n s)
      /\ step_at h' n sn /\ s_text sn = x /\ s_orig sn = s_orig sj /\ s_locked sn = s_locked sj
      /\ s_tags sn = s_tags sj /\ (forall p, s_pmod sj = Some p -> s_pmod sn = Some p)
      /\ forall b c, child_at h' n b c <-> child_at h j b c.
  Proof.
    intros os i a x j sj NL h Hc Hs Ht Ha.
    assert (G := good_run M fullmatch expand compiles class_attr os empty_heap good_empty NL). fold h in G.
    assert (Hc' := Hc). destruct Hc' as [s [d [ds [Hi _]]]].
    unfold setattr. rewrite Ha. destruct (make_cstep M fullmatch expand compiles h i a (Some x) None) as [h' r] eqn:E.
    destruct (make_clone M fullmatch expand compiles class_attr h i a (Some x) None h' r s j sj G Hi E)
      as [-> [H1 [sn [H2 [H3 [H4 [H5 [H6 [H7 H8]]]]]]]]]; auto.
    { intros s' _ _ Hd. discriminate. }
    exists h', (length (h_steps h)), sn. split; [reflexivity|]. split; [exact H1|].
    split; [intros [s' Hs']; apply step_lt in Hs'; lia|]. auto 10.
  Qed.

  (** The same when a step is assigned: the copy is named as the attribute. *)
  Theorem C43_graft_keeps : forall os i a j s sj, always ex no_loop empty_heap os ->
    let h := go empty_heap os in
    step_at h i s -> step_at h j sj -> s_text sj <> [] -> ~ reaches h j i -> starts_with (lit "_") a = false ->
    exists h' n sn, set h i a (AStep j) = (h', Ok tt) /\ child_at h' i a n /\ ~ (exists s, step_at h n s)
      /\ step_at h' n sn /\ s_text sn = a /\ s_orig sn = s_orig sj /\ s_locked sn = s_locked sj
      /\ s_tags sn = s_tags sj /\ (forall p, s_pmod sj = Some p -> s_pmod sn = Some p)
      /\ forall b c, child_at h' n b c <-> child_at h j b c.
  Proof.
    intros os i a j s sj NL h Hi Hs Ht Hr Ha.
    assert (G := good_run M fullmatch expand compiles class_attr os empty_heap good_empty NL). fold h in G.
    unfold setattr. rewrite Ha. destruct (make_cstep M fullmatch expand compiles h i a None (Some j)) as [h' r] eqn:E.
    destruct (make_clone M fullmatch expand compiles class_attr h i a None (Some j) h' r s j sj G Hi E)
      as [-> [H1 [sn [H2 [H3 [H4 [H5 [H6 [H7 H8]]]]]]]]]; auto.
    { intros s' _ _ Hd. injection Hd as ->. exfalso. apply Hr. exists [], []. constructor. }
    exists h', (length (h_steps h)), sn. split; [reflexivity|]. split; [exact H1|].
    split; [intros [s' Hs']; apply step_lt in Hs'; lia|]. auto 10.
  Qed.

  (** ** C44: locks *)

  (** The text and the original name of a step are never changed: renaming makes
      another step. *)
  Theorem C44_names_fixed : forall os h i s, step_at h i s ->
    exists s', step_at (go h os) i s' /\ s_text s' = s_text s /\ s_orig s' = s_orig s.
  Proof.
    intros os h i s Hs. destruct (run_names M fullmatch expand compiles class_attr os h) as [_ K].
    destruct (K _ _ Hs) as [s' [H1 [H2 H3]]]. eauto.
  Qed.

  (** Locking a step whose text the lock forbids raises; else nothing but the lock changes. *)
  Theorem C44_locking : forall h i z s, step_at h i s ->
    (lock_allows z (s_orig s) (s_text s) ->
       exists h' s', set_locked h i z = (h', Ok tt) /\ step_at h' i s' /\ s_locked s' = z
         /\ s_text s' = s_text s /\ s_orig s' = s_orig s /\ s_pmod s' = s_pmod s
         /\ s_csteps s' = s_csteps s /\ s_tags s' = s_tags s
         /\ (forall j t, j <> i -> step_at h' j t <-> step_at h j t)
         /\ h_dicts h' = h_dicts h /\ h_cells h' = h_cells h)
    /\ (~ lock_allows z (s_orig s) (s_text s) -> set_locked h i z = (h, Raise ValueError)).
  Proof.
    intros h i z s Hs. pose proof (lock_cond z (s_orig s) (s_text s)) as K. split.
    - intro H. apply K in H.
      assert (set_locked h i z = (set_steps h (list_update (h_steps h) i (with_locked s z)), Ok tt)) as ->.
      { unfold set_locked. unfold step_at in Hs. rewrite Hs, H. reflexivity. }
      eexists. exists (with_locked s z). split; [reflexivity|]. unfold step_at. cbn [set_steps h_steps h_dicts h_cells].
      split; [apply nth_error_update_eq; apply nth_error_Some; unfold step_at in Hs; rewrite Hs; discriminate|].
      repeat (split; [reflexivity|]). split; [|split; reflexivity].
      intros j t N. rewrite nth_error_update_neq; [reflexivity|congruence].
    - intro H. unfold set_locked. unfold step_at in Hs. rewrite Hs.
      destruct (negb (str_eqb (s_text s) (s_orig s)) && _) eqn:E; [reflexivity|]. exfalso. apply H, K. reflexivity.
  Qed.
  (** [_fix] and [_lock] do so with 1 and 0. *)
  Theorem C44_fix_and_lock : forall h i s, step_at h i s ->
    (s_text s = s_orig s <-> exists h' s', lock h i = (h', Ok tt) /\ step_at h' i s' /\ s_locked s' = 0%Z)
    /\ (s_text s = s_orig s \/ ~ In 47%N (s_text s) <-> exists h' s', fix_ h i = (h', Ok tt) /\ step_at h' i s' /\ s_locked s' = 1%Z).
  Proof.
    intros h i s Hs. destruct (C44_locking h i 0%Z s Hs) as [L0 L0']. destruct (C44_locking h i 1%Z s Hs) as [L1 L1'].
    unfold lock, fix_, LOCKED, CAN_RENAME. unfold lock_allows in *. split; split.
    - intro E. destruct L0 as (h' & s' & A & B & C & _); [now left|]. eauto.
    - intros (h' & s' & A & _). destruct (str_eqb_spec (s_text s) (s_orig s)) as [E|E]; [exact E|]. rewrite L0' in A; [discriminate|].
      intros [H|[H _]]; [contradiction|lia].
    - intro E. destruct L1 as (h' & s' & A & B & C & _); [|eauto]. destruct E as [E|E]; [now left|right; split; [lia|now right]].
    - intros (h' & s' & A & _). destruct (str_eqb_spec (s_text s) (s_orig s)) as [E|E]; [now left|]. right. intro I. rewrite L1' in A; [discriminate|].
      intros [H|[_ [H|H]]]; [contradiction|lia|contradiction].
  Qed.

  (** Texts go against no lock, unless some copy of a locked step is given a name
      that the lock forbids. *)
  Theorem C44_locks_kept : forall os, always ex lock_respected empty_heap os -> locks_kept (go empty_heap os).
  Proof.
    intros os A. apply run_locks; auto; [exact (proj1 good_empty)|]. intros i s Hs. destruct i; discriminate.
  Qed.

  (** ** C45: the mappings *)

  (** Mappings mean the same after any history that assigns no string below a step
      with children using a node of them. *)
  Theorem C45_mappings_kept : forall os h p, allocated (h_cells h) p -> always ex (spares p) h os ->
    erase (h_cells (go h os)) p = erase (h_cells h) p.
  Proof. intros os h p A S. exact (run_cells M fullmatch expand compiles class_attr p os h A S). Qed.

  (** ** C46: the paths *)

  Theorem C46_paths : forall n h i with_orig tag l, paths n h i with_orig tag = Ok l ->
    ascending l /\ forall x, In x l <-> exists q j xs, walk h i (q ++ [j])
      /\ ((tag = [] /\ leaf_at h j) \/ (tag <> [] /\ In tag (tags_of h j)))
      /\ Forall2 (shown h with_orig) (q ++ [j]) xs /\ x = join_paths xs.
  Proof. exact paths_spec. Qed.

  (** Listing comes to an end exactly below steps where all ways end. *)
  Theorem C46_paths_defined : forall h i with_orig tag,
    ((exists n l, paths n h i with_orig tag = Ok l) <-> ends h i)
    /\ (forall n e, paths n h i with_orig tag = Raise e -> e = OutOfFuel)
    /\ (forall n m l, (n <= m)%nat -> paths n h i with_orig tag = Ok l -> paths m h i with_orig tag = Ok l).
  Proof.
    intros. split; [apply paths_defined|]. split; [intros n e; apply paths_fuel|intros n m l; apply paths_more].
  Qed.

  Theorem C46_paths_always : forall os i with_orig tag, always ex no_loop empty_heap os ->
    exists n l, paths n (go empty_heap os) i with_orig tag = Ok l.
  Proof. intros os i wo t H. apply paths_defined. apply C43_forest. exact H. Qed.

  Theorem C46_map_tuples : forall n h i l, derive_map_tuples n h i = Ok l ->
    nondecreasing (map fst l) /\ forall o t, In (o, t) l <-> exists q j, walk h i (q ++ [j])
      /\ o = join_paths (map (orig_of h) (q ++ [j])) /\ t = text_of h j.
  Proof. exact derive_spec. Qed.

  Theorem C46_map_tuples_always : forall os i, always ex no_loop empty_heap os ->
    exists n l, derive_map_tuples n (go empty_heap os) i = Ok l.
  Proof. intros os i H. apply derive_defined. apply C43_forest. exact H. Qed.

  (** ** C79: references and mappings *)

  (** Programs cannot make steps whose mappings do not exist. *)
  Theorem C79_mappings_exist : forall os, always ex existing empty_heap os -> pmods_exist (go empty_heap os).
  Proof. intros os A. apply run_exist; auto. intros i s p Hs. destruct i; discriminate. Qed.

  (** The first reference of an attribute: the text is the name or the alias that the
      mappings of the step give it, the mappings below are those of that name. *)
  Theorem C79_reference : forall h i a s, step_at h i s -> pmods_exist h ->
    (forall c, ~ child_at h i a c) -> class_attr a = false -> (forall y, a <> 95%N :: y) ->
    a <> lit "get_values" -> a <> lit "Series" ->
    match s_pmod s with
    | None => exists h' n, get h i a = (h', Ok (VStep n)) /\ child_at h' i a n
        /\ step_at h' n (mkStep a a None None 3 [])
    | Some p =>
        let pm := erase (h_cells h) p in
        (forall e, aliased M fullmatch expand pm a (Raise e) -> exists h', get h i a = (h', Raise e))
        /\ (forall al, aliased M fullmatch expand pm a (Ok al) -> exists h' n t q,
              get h i a = (h', Ok (VStep n)) /\ child_at h' i a n
              /\ step_at h' n (mkStep t a q None 3 []) /\ text_for a al t
              /\ below M fullmatch pm a (option_map (erase (h_cells h')) q))
    end.
  Proof.
    intros h i a s Hs K Hc Ha Hu H1 H2.
    assert (Hf : starts_with (lit "_") a || forbidden a = false).
    { unfold forbidden. apply str_eqb_neq in H1, H2. rewrite H1, H2. rewrite Bool.orb_false_r.
      unfold starts_with. destruct (str_eqb_spec (lit "_") (firstn (length (lit "_")) a)) as [E|E]; auto.
      destruct a as [|y a]; [discriminate|]. cbn in E. injection E as <-. destruct (Hu a). reflexivity. }
    assert (Eg : get h i a = let (h', r) := make_cstep M fullmatch expand compiles h i a None None in
                             (h', match r with Ok n => Ok (VStep n) | Raise e => Raise e end)).
    { unfold getattr. rewrite Ha, Hf, Hs. destruct (dget str_eqb a (dict_of h (s_csteps s))) as [c|] eqn:Ed; auto.
      exfalso. apply (Hc c). apply children_child. unfold children. rewrite Hs. now apply dget_In. }
    destruct (make_cstep M fullmatch expand compiles h i a None None) as [h' r] eqn:Em.
    assert (X := make_ref M fullmatch expand compiles h i a h' r s Hs Em
                   (fun c Hc' => False_ind _ (Hc c Hc')) (fun p Hp => proj1 (K i s p Hs Hp))).
    destruct (s_pmod s) as [p|] eqn:Ep; cbn zeta.
    - destruct (K _ _ _ Hs Ep) as [_ W].
      rewrite (descend_alias M fullmatch expand (erase (h_cells h) p) a W) in X.
      split.
      + intros e He. apply aliased_iff in He; auto. rewrite He in X. subst r. eauto.
      + intros al Hal. apply aliased_iff in Hal; auto. rewrite Hal in X. destruct X as [-> [t [q [X1 [X2 [X3 _]]]]]].
        exists h', (length (h_steps h)), t, q. split; auto.
        split; [exact (proj1 (make_new_child M fullmatch expand compiles _ _ _ _ _ _ _ _ Hs Em))|].
        repeat split; auto. rewrite X3. apply below_of_below; auto.
    - destruct X as [-> X]. exists h', (length (h_steps h)). split; auto.
      split; [exact (proj1 (make_new_child M fullmatch expand compiles _ _ _ _ _ _ _ _ Hs Em))|exact X].
  Qed.

  (** A chain of references from a step made of mappings spells the mapped path,
      when the aliases on the way are made of plain names. *)
  Theorem C79_chain : forall h n0 p ts h1 i names ids h2,
    new h (Some n0) (MPmod p) None ts = (h1, Ok i) -> refs get h1 i names ids h2 ->
    exists_in (h_cells h) p -> p_alias (erase (h_cells h) p) = None ->
    n0 = [] \/ plain_name n0 -> Forall plain_name names ->
    (forall x, aliased M fullmatch expand (erase (h_cells h) p) n0 (Ok (Some x)) ->
       plain_alias x \/ n0 = [] /\ x = []) ->
    (forall pm, below M fullmatch (erase (h_cells h) p) n0 pm -> plainly M fullmatch expand pm names) ->
    map_path M fullmatch expand (erase (h_cells h) p) (join [47%N] (n0 :: names))
    = Ok (join_paths (map (text_of h2) (i :: ids))).
  Proof. intros. eapply refs_path; eauto. Qed.
  (** Anything but a string or a step is refused and changes nothing. *)
  Theorem C43_assignable : forall h i a, starts_with (lit "_") a = false ->
    set h i a AOther = (h, Raise AssertionError).
  Proof. intros h i a Ha. unfold setattr. now rewrite Ha. Qed.

  (** Tagging adds and untagging removes the tags given, of the step alone, and
      touches nothing else. *)
  Definition but_tags (s s' : pstep) : Prop := s_text s' = s_text s /\ s_orig s' = s_orig s /\ s_pmod s' = s_pmod s
    /\ s_csteps s' = s_csteps s /\ s_locked s' = s_locked s.
  Theorem C46_tagging : forall h i s ts t, step_at h i s ->
    (exists s', step_at (tag h i ts) i s' /\ but_tags s s'
       /\ forall x, In x (s_tags s') <-> In x (s_tags s) \/ In x ts)
    /\ (exists s', step_at (tag_remove h i t) i s' /\ but_tags s s'
       /\ forall x, In x (s_tags s') <-> In x (s_tags s) /\ x <> t)
    /\ (forall j, j <> i -> nth_error (h_steps (tag h i ts)) j = nth_error (h_steps h) j
                        /\ nth_error (h_steps (tag_remove h i t)) j = nth_error (h_steps h) j)
    /\ h_dicts (tag h i ts) = h_dicts h /\ h_dicts (tag_remove h i t) = h_dicts h
    /\ h_cells (tag h i ts) = h_cells h /\ h_cells (tag_remove h i t) = h_cells h.
  Proof.
    intros h i s ts t Hs. unfold step_at in *. unfold tag, tag_remove. rewrite Hs. cbn [set_steps h_steps h_dicts h_cells].
    assert (L : (i < length (h_steps h))%nat) by (apply nth_error_Some; congruence).
    repeat apply conj; auto.
    - eexists. split; [now rewrite nth_error_update_eq|]. split; [repeat split|]. apply add_tags_In.
    - eexists. split; [now rewrite nth_error_update_eq|]. split; [repeat split|].
      intro x. cbn [with_tags s_tags]. rewrite filter_In. destruct (str_eqb_spec t x) as [E|E]; cbn; intuition congruence.
    - intros j Hj. split; apply nth_error_update_neq; auto.
  Qed.

  (** Mappings of another kind are refused. *)
  Theorem C79_bad_maps : forall h n a ts, new h n MBad a ts = (h, Raise ValueError).
  Proof. reflexivity. Qed.
End Steps.
Print Assumptions C43_forest.
Print Assumptions C43_same_step.
Print Assumptions C43_rename_keeps.
Print Assumptions C43_graft_keeps.
Print Assumptions C44_names_fixed.
Print Assumptions C44_locking.
Print Assumptions C44_fix_and_lock.
Print Assumptions C44_locks_kept.
Print Assumptions C45_mappings_kept.
Print Assumptions C46_paths.
Print Assumptions C46_paths_defined.
Print Assumptions C46_paths_always.
Print Assumptions C46_map_tuples.
Print Assumptions C46_map_tuples_always.
Print Assumptions C79_mappings_exist.
Print Assumptions C79_reference.
Print Assumptions C79_chain.
Print Assumptions C43_assignable.
Print Assumptions C46_tagging.
Print Assumptions C79_bad_maps.

(** ** Examples and counter-examples, with the regexes of the examples above and a
    class without attributes *)
Definition xexec := exec pystr ex_fullmatch ex_expand (fun _ => true) (fun _ => false).
Definition xrun := run pystr ex_fullmatch ex_expand (fun _ => true) (fun _ => false).
Definition xget := getattr pystr ex_fullmatch ex_expand (fun _ => true) (fun _ => false).
Definition xset := setattr pystr ex_fullmatch ex_expand (fun _ => true).
Definition xnew := new_step pystr ex_fullmatch ex_expand (fun _ => true).

Ltac child_here := eexists _, _, _; split; [reflexivity|]; split; [reflexivity|]; split; [reflexivity|]; cbn; auto.
Ltac no_loops := repeat (apply Al_cons; [let E := fresh in intros ? ? ? E; try discriminate E|]); try apply Al_nil.

(** [p = Pstep('r'); p.a.b; p.a = 'X'] *)
Definition renaming : list op :=
  [ONew (Some (lit "r")) NoMaps None []; OGet 0 (lit "a"); OGet 1 (lit "b"); OSet 0 (lit "a") (AStr (lit "X"))].

Example C43_example :
  always xexec no_loop empty_heap renaming
  /\ (let h := xrun empty_heap renaming in
      xget h 0 (lit "a") = (h, Ok (VStep 3)) /\ text_of h 3 = lit "X"
      /\ xget h 3 (lit "b") = (h, Ok (VStep 2))
      /\ paths 9 h 0 false [] = Ok [lit "r/X/b"]
      /\ paths 9 h 0 true [] = Ok [lit "r/(a-->X)/b"]).
Proof. split; [no_loops|]. vm_compute. auto. Qed.

(** Not so for a blank name: the attribute is a new step each time. *)
Theorem C43_same_step_blank_refuted : exists os i a h1 c h2 c',
  always xexec no_loop empty_heap os /\ xget (xrun empty_heap os) i a = (h1, Ok (VStep c))
  /\ xget h1 i a = (h2, Ok (VStep c')) /\ c <> c'.
Proof.
  exists [ONew (Some (lit "r")) NoMaps None []], 0%nat, []. eexists _, _, _, _.
  split; [no_loops|]. split; [reflexivity|]. split; [reflexivity|]. discriminate.
Qed.
Print Assumptions C43_same_step_blank_refuted.

(** Having renamed a child to the blank text, reading the attribute undoes the
    renaming and loses all below. *)
Theorem C43_rename_blank_refuted : exists os i a c h1 c',
  always xexec no_loop empty_heap os
  /\ (let h := xrun empty_heap os in child_at h i a c /\ text_of h c = [] /\ ~ leaf_at h c
      /\ xget h i a = (h1, Ok (VStep c')) /\ text_of h1 c' = a /\ leaf_at h1 c' /\ child_at h1 i a c'
      /\ paths 9 h 0 false [] = Ok [lit "/b"] /\ paths 9 h1 0 false [] = Ok [lit "r/a"]).
Proof.
  exists [ONew (Some (lit "r")) NoMaps None []; OGet 0 (lit "a"); OGet 1 (lit "b"); OSet 0 (lit "a") (AStr [])],
    0%nat, (lit "a"), 3%nat. eexists _, 4%nat. split; [no_loops|]. cbn zeta.
  split; [child_here|]. split; [reflexivity|].
  split; [intro H; apply (H (lit "b") 2%nat); child_here|].
  split; [reflexivity|]. split; [reflexivity|]. split; [apply leaf_children; reflexivity|].
  split; [child_here|]. split; reflexivity.
Qed.
Print Assumptions C43_rename_blank_refuted.

(** Nothing raises when a locked child is renamed: the copy is locked and renamed. *)
Theorem C44_rename_refuted : exists os i a c x h' n s sn,
  always xexec no_loop empty_heap os
  /\ (let h := xrun empty_heap os in child_at h i a c /\ step_at h c s /\ s_locked s = LOCKED /\ s_text s = s_orig s
      /\ xset h i a (AStr x) = (h', Ok tt) /\ child_at h' i a n /\ step_at h' n sn
      /\ s_locked sn = LOCKED /\ s_text sn <> s_orig sn
      /\ paths 9 h 0 false [] = Ok [lit "r/a"] /\ paths 9 h' 0 false [] = Ok [lit "r/X"]).
Proof.
  exists [ONew (Some (lit "r")) NoMaps None []; OGet 0 (lit "a"); OLocked 1 LOCKED], 0%nat, (lit "a"), 1%nat, (lit "X").
  eexists _, 2%nat, _, _. split; [no_loops|]. cbn zeta. split; [child_here|]. split; [reflexivity|].
  split; [reflexivity|]. split; [reflexivity|]. split; [reflexivity|]. split; [child_here|]. split; [reflexivity|].
  split; [reflexivity|]. split; [discriminate|]. split; reflexivity.
Qed.
Print Assumptions C44_rename_refuted.

(** The path of a locked step changes with the names above. *)
Theorem C44_path_refuted : exists os i a x h' c s, always xexec no_loop empty_heap os
  /\ (let h := xrun empty_heap os in step_at h c s /\ s_locked s = LOCKED /\ leaf_at h c
      /\ paths 9 h 0 false [] = Ok [lit "r/a/b"]
      /\ xset h i a (AStr x) = (h', Ok tt) /\ paths 9 h' 0 false [] = Ok [lit "r/X/b"]).
Proof.
  exists [ONew (Some (lit "r")) NoMaps None []; OGet 0 (lit "a"); OGet 1 (lit "b"); OLocked 2 LOCKED],
    0%nat, (lit "a"), (lit "X"). eexists _, 2%nat, _. split; [no_loops|]. cbn zeta.
  split; [reflexivity|]. split; [reflexivity|]. split; [apply leaf_children; reflexivity|].
  split; [reflexivity|]. split; reflexivity.
Qed.
Print Assumptions C44_path_refuted.

(** Locks that work: a mapped step cannot be locked, a renamed one only be fixed. *)
Example C44_example :
  let h := xrun empty_heap renaming in
  set_locked h 3 LOCKED = (h, Raise ValueError) /\ snd (set_locked h 3 CAN_RENAME) = Ok tt
  /\ snd (set_locked h 2 LOCKED) = Ok tt
  /\ always xexec lock_respected empty_heap (renaming ++ [OLocked 3 CAN_RENAME; OSet 0 (lit "a") (AStr (lit "Y"))])
  /\ ~ lock_respected (xrun empty_heap (renaming ++ [OLocked 3 CAN_RENAME])) (OSet 0 (lit "a") (AStr (lit "Y/Z"))).
Proof.
  cbn zeta. split; [reflexivity|]. split; [reflexivity|]. split; [reflexivity|]. split.
  - cbn [renaming app].
    repeat (apply Al_cons; [intros j x s C Hs Ht|]); try apply Al_nil; inversion C; subst; cbn in *.
    + match goal with H : child_at _ _ _ _ |- _ => destruct H as [s0 [d [ds [G1 [G2 [G3 G4]]]]]] end.
      vm_compute in G1. injection G1 as <-. vm_compute in G2. injection G2 as <-. vm_compute in G3. injection G3 as <-.
      cbn in G4. destruct G4 as [G4|[]]. injection G4 as <-. vm_compute in Hs. injection Hs as <-. right. split; vm_compute; [discriminate|].
      left. discriminate.
    + match goal with H : child_at _ _ _ _ |- _ => destruct H as [s0 [d [ds [G1 [G2 [G3 G4]]]]]] end.
      vm_compute in G1. injection G1 as <-. vm_compute in G2. injection G2 as <-. vm_compute in G3. injection G3 as <-.
      cbn in G4. destruct G4 as [G4|[]]. injection G4 as <-. vm_compute in Hs. injection Hs as <-. right. split; vm_compute; [discriminate|].
      right. intros [H|[]]. discriminate.
  - intro R. set (h := xrun empty_heap (renaming ++ [OLocked 3 CAN_RENAME])) in R.
    assert (C : child_at h 0 (lit "a") 3) by child_here.
    specialize (R 3%nat (lit "Y/Z") _ (Cl_str h _ _ _ _ C) eq_refl ltac:(discriminate)).
    destruct R as [R|[_ [R|R]]]; [discriminate|vm_compute in R; congruence|]. apply R. vm_compute. auto.
Qed.

(** The mappings [[('/a', 'A')]] and their root step. *)
Definition a_to_A : lpmod := fst (alloc_pmod (Pmod None [([], Pmod None [(lit "a", leaf (lit "A"))] [])] []) []).
Definition from_a_to_A : list op :=
  [OPmods [(Some (lit "/a"), Some (lit "A"))]; ONew (Some []) (MPmod a_to_A) None []; OGet 0 (lit "a")].

(** [p = pmods.step(); p.a; p.b = 'X'] changes [pmods]: now all is below [X]. *)
Theorem C45_refuted : exists os p path, always xexec no_loop empty_heap os
  /\ (let h := xrun empty_heap [hd (OTag 0 []) os] in exists_in (h_cells h) p
      /\ map_path pystr ex_fullmatch ex_expand (erase (h_cells h) p) path = Ok (lit "/A")
      /\ map_path pystr ex_fullmatch ex_expand (erase (h_cells (xrun empty_heap os)) p) path = Ok (lit "X/A")).
Proof.
  exists (from_a_to_A ++ [OSet 0 (lit "b") (AStr (lit "X"))]), a_to_A, (lit "/a").
  split; [no_loops|]. cbn zeta. split; [|split; reflexivity]. split; [|show_wf].
  exact (proj1 (proj2 (alloc_spec (Pmod None [([], Pmod None [(lit "a", leaf (lit "A"))] [])] []) [] _ _ (surjective_pairing _)))).
Qed.
Print Assumptions C45_refuted.

Example C45_example :
  let h := xrun empty_heap from_a_to_A in
  map (text_of h) [0; 1]%nat = [lit ""; lit "A"]
  /\ erase (h_cells (xrun h [OGet 1 (lit "c"); OSet 2 (lit "d") (AStr (lit "D"))])) a_to_A = erase (h_cells h) a_to_A
  /\ always xexec (spares a_to_A) h [OGet 1 (lit "c"); OSet 2 (lit "d") (AStr (lit "D"))].
Proof.
  cbn zeta. split; [reflexivity|]. split; [reflexivity|].
  apply Al_cons; [intros ? ? ? ? ? E; discriminate E|]. apply Al_cons; [|apply Al_nil].
  intros i a x s q E Hs Hq Hl. injection E as <- <- <-. vm_compute in Hs. injection Hs as <-. discriminate.
Qed.

(** The examples of the documentation of [_paths]. *)
Example C46_example :
  let h := xrun empty_heap
    [ONew None NoMaps None []; OGet 0 (lit "a1"); OTag 1 [lit "inp"]; OGet 1 (lit "b"); OTag 2 [lit "inp"];
     OGet 2 (lit "c"); OGet 0 (lit "a2"); OGet 4 (lit "b2")] in
  paths 9 h 0 false [] = Ok [lit "/a1/b/c"; lit "/a2/b2"]
  /\ paths 9 h 0 false (lit "inp") = Ok [lit "/a1"; lit "/a1/b"]
  /\ walk h 0 ([0; 4] ++ [5])%nat /\ leaf_at h 5
  /\ derive_map_tuples 9 (xrun empty_heap renaming) 0
     = Ok [(lit "r", lit "r"); (lit "r/a", lit "X"); (lit "r/a/b", lit "b")].
Proof.
  cbn zeta. set (h := xrun empty_heap _) in |- * at 1 2 3 4. vm_compute in h.
  split; [vm_compute; reflexivity|]. split; [vm_compute; reflexivity|].
  split; [apply (Walk_down _ 0 (lit "a2") 4); [child_here|]; apply (Walk_down _ 4 (lit "b2") 5); [child_here|]; constructor|].
  split; [apply leaf_children; vm_compute; reflexivity|]. vm_compute. reflexivity.
Qed.

Lemma endless : forall h i a, child_at h i a i -> ~ ends h i.
Proof. intros h i a Hc E. revert Hc. induction E as [i H IH]. intros Hc. exact (IH _ _ Hc Hc). Qed.

(** [p = Pstep('r'); p.a = p]: the copy shares the dict of its parent and is its own child. *)
Theorem C46_loop_refuted : exists os, forall n with_orig tag,
  paths n (xrun empty_heap os) 0 with_orig tag = Raise OutOfFuel.
Proof.
  exists [ONew (Some (lit "r")) NoMaps None []; OSet 0 (lit "a") (AStep 0)]. intros n wo t.
  set (h := xrun empty_heap _). destruct (C46_paths_defined h 0 wo t) as [D [F _]].
  destruct (paths n h 0 wo t) as [l|e] eqn:E; [|f_equal; eapply F; eauto].
  assert (En : ends h 0) by (apply D; eauto). exfalso.
  apply (endless h 1 (lit "a")); [child_here|]. inversion En as [? H]; subst. apply (H (lit "a")). child_here.
Qed.
Print Assumptions C46_loop_refuted.

(** The example of the documentation of [Pstep]. *)
Definition docs_pmod : pmod :=
  Pmod None [([], Pmod (Some (lit "deeper/ROOT"))
    [(lit "abc", Pmod (Some (lit "ABC")) [(lit "foo", leaf (lit "BAR"))] [])] [])] [].
Definition docs_maps : list (option pystr * option pystr) :=
  [(Some (lit ""), Some (lit "deeper/ROOT")); (Some (lit "/abc"), Some (lit "ABC")); (Some (lit "/abc/foo"), Some (lit "BAR"))].

Example C79_example :
  pmods_from_tuples (fun _ => true) docs_maps = Ok docs_pmod
  /\ (let h := xrun empty_heap [OPmods docs_maps] in
      let p := fst (alloc_pmod docs_pmod []) in
      exists h1 h2, xnew h (Some []) (MPmod p) None [] = (h1, Ok 0%nat)
        /\ refs xget h1 0 [lit "abc"; lit "foo"] [1; 2]%nat h2
        /\ map (text_of h2) [0; 1; 2]%nat = [lit "deeper/ROOT"; lit "ABC"; lit "BAR"]
        /\ map_path pystr ex_fullmatch ex_expand (erase (h_cells h) p) (lit "/abc/foo") = Ok (lit "deeper/ROOT/ABC/BAR")
        /\ paths 9 h2 0 false [] = Ok [lit "deeper/ROOT/ABC/BAR"]).
Proof.
  split; [vm_compute; reflexivity|]. cbn zeta.
  set (h := xrun empty_heap [OPmods docs_maps]). vm_compute in h.
  set (p := fst (alloc_pmod docs_pmod [])). vm_compute in p.
  set (h1 := fst (xnew h (Some []) (MPmod p) None [])). vm_compute in h1.
  set (h2 := fst (xget h1 0 (lit "abc"))). vm_compute in h2.
  set (h3 := fst (xget h2 1 (lit "foo"))). vm_compute in h3.
  exists h1, h3. split; [vm_compute; reflexivity|].
  split; [apply Rf_cons with (h1 := h2); [vm_compute; reflexivity|];
          apply Rf_cons with (h1 := h3); [vm_compute; reflexivity|]; apply Rf_nil|].
  split; [vm_compute; reflexivity|]. split; vm_compute; reflexivity.
Qed.

(** Where an alias is a path of its own, the steps do not spell what the mappings say. *)
Theorem C79_chain_refuted : exists tuples p n h1 h2, pmods_from_tuples (fun _ => true) tuples = Ok p
  /\ (let h := xrun empty_heap [OPmods tuples] in
      let lp := fst (alloc_pmod p []) in
      xnew h (Some []) (MPmod lp) None [] = (h1, Ok 0%nat) /\ xget h1 0 n = (h2, Ok (VStep 1))
      /\ map_path pystr ex_fullmatch ex_expand (erase (h_cells h) lp) (47%N :: n) = Ok (lit "/sub/path")
      /\ paths 9 h2 0 false [] = Ok [lit "//sub/path"]).
Proof.
  exists [(Some (lit "/a"), Some (lit "/sub/path"))]. eexists. exists (lit "a"). eexists _, _.
  split; [reflexivity|]. cbn zeta. split; [reflexivity|]. split; [reflexivity|]. split; reflexivity.
Qed.
Print Assumptions C79_chain_refuted.
