(** * Proofs about components *)
From Coq Require Import String Lia.
From Coq Require Import Permutation.
From Verif Require Import PyBase PyBase_Proofs Json JsonPointer_Model Paths_Model Pmod_Model Pmod_Spec
  Pmod_Proofs Pstep_Model Pstep_Spec PstepPmod_Proofs Pstep_Proofs PstepTree_Proofs PstepHist_Proofs
  PstepPaths_Proofs Comp_Model Comp_Spec CompShift_Proofs.

Lemma starts_with_prefix : forall p s, starts_with p s = true -> exists g, s = p ++ g.
Proof.
  induction p as [|a p IH]; intros [|b s] H; cbn in H; try discriminate; [exists []|exists (b :: s)|]; auto.
  apply andb_prop in H. destruct H as [E H]. apply N.eqb_eq in E. subst b. destruct (IH s H) as [g ->]. now exists g.
Qed.

Lemma comp_ind' : forall P : component -> Prop,
  (forall n f, P (Func n f)) -> (forall cs, (forall c, In c cs -> P c) -> P (Assembly cs)) -> forall c, P c.
Proof.
  intros P HF HA. fix IH 1. intros [n f|cs]; [apply HF|]. apply HA.
  induction cs as [|c cs IHc]; intros c' Hin; [destruct Hin|].
  destruct Hin as [<-|Hin]; [apply IH|exact (IHc _ Hin)].
Qed.

Lemma erase_agree : forall p c c', erase c p = erase c' p <->
  forall x, has_label p x -> nth x c None = nth x c' None.
Proof.
  induction p as [l s r IHs IHr] using lpmod_ind'. intros c c'. cbn [erase]. split.
  - intros E x Hx. injection E as E1 E2 E3. inversion Hx as [|? ? ? k q y Hin Hy|? ? ? k q y Hin Hy]; subst; auto.
    + apply (proj1 (IHs k q Hin c c')); auto. clear - E2 Hin. induction s as [|[k' q'] s IH]; [destruct Hin|].
      cbn in E2. injection E2 as E3 E4. destruct Hin as [E|Hin]; [now injection E as <- <-|auto].
    + apply (proj1 (IHr k q Hin c c')); auto. clear - E3 Hin. induction r as [|[k' q'] r IH]; [destruct Hin|].
      cbn in E3. injection E3 as E3 E4. destruct Hin as [E|Hin]; [now injection E as <- <-|auto].
  - intros H. f_equal.
    + apply H. constructor.
    + apply map_ext_in. intros [k q] Hin. cbn. f_equal. apply (IHs k q Hin). intros x Hx. apply H. eapply Hl_step; eauto.
    + apply map_ext_in. intros [k q] Hin. cbn. f_equal. apply (IHr k q Hin). intros x Hx. apply H. eapply Hl_regx; eauto.
Qed.

Section Prog.
  Variable M : Type.
  Variable fullmatch : pystr -> pystr -> option M.
  Variable expand : M -> pystr -> res pystr.
  Variable compiles : pystr -> bool.
  Variable class_attr : pystr -> bool.
  Variable depth : nat.
  Notation new := (new_step M fullmatch expand compiles).
  Notation bld := (build M fullmatch expand compiles class_attr depth).
  Notation bldc := (build_component M fullmatch expand compiles class_attr depth).

  Section Two.
  Variables ns ns' nd nd' nc nc' : nat.
  Variable inp : nat -> Prop.
  Hypothesis inp_lt : forall l, inp l -> (l < nc)%nat /\ (l < nc')%nat.
  Notation fs := (fs ns ns').
  Notation rh := (rh ns ns' nd nd' nc nc' inp).
  Notation rmaps := (rmaps ns ns' nc nc').
  Notation ok_maps := (ok_maps ns nc inp).
  Notation lmap := (lmap nc nc').

  Lemma lmap_id : forall p, (forall x, has_label p x -> inp x) -> lmap p = p.
  Proof.
    induction p as [l s r IHs IHr] using lpmod_ind'. intros H. cbn [CompShift_Proofs.lmap]. f_equal.
    - apply (fl_old nc nc' inp inp_lt). apply H. constructor.
    - rewrite <- (map_id s) at 2. apply map_ext_in. intros [k q] Hin. cbn. f_equal. eapply IHs; eauto.
      intros x Hx. apply H. eapply Hl_step; eauto.
    - rewrite <- (map_id r) at 2. apply map_ext_in. intros [k q] Hin. cbn. f_equal. eapply IHr; eauto.
      intros x Hx. apply H. eapply Hl_regx; eauto.
  Qed.

  Definition rst (st st' : cstate) : Prop :=
    rh (c_heap st) (c_heap st') /\ c_pinp st' = option_map fs (c_pinp st) /\ c_pout st' = option_map fs (c_pout st)
    /\ c_inp st' = c_inp st /\ c_out st' = c_out st /\ c_vars st' = map fs (c_vars st)
    /\ ok_ex ns (c_pinp st) /\ ok_ex ns (c_pout st) /\ Forall (le ns) (c_vars st).

  Variable name : pystr.
  Variable pm : maps.
  Hypothesis pm_same : rmaps pm = pm.
  Notation cells_le st st1 := (length (h_cells (c_heap st)) <= length (h_cells (c_heap st1)))%nat.
  Notation rcmd := (run_cmd M fullmatch expand compiles class_attr depth name pm).
  Notation rprog := (run_prog M fullmatch expand compiles class_attr depth name pm).

  Lemma rst_upd : forall st st' h h', rst st st' -> rh h h' -> rst (upd h st) (upd h' st').
  Proof. intros st st' h h' [R [H1 [H2 [H3 [H4 [H5 [H6 [H7 H8]]]]]]]] R1. split; [exact R1|]. cbn. auto 12. Qed.
  Lemma rst_push : forall st st' h h' i, rst st st' -> rh h h' -> (ns <= i)%nat -> rst (push h i st) (push h' (fs i) st').
  Proof.
    intros st st' h h' i [R [H1 [H2 [H3 [H4 [H5 [H6 [H7 H8]]]]]]]] R1 Hi. split; [exact R1|].
    assert (H5' : c_vars st' ++ [fs i] = map fs (c_vars st ++ [i])) by (now rewrite H5, map_app).
    assert (H8' : Forall (le ns) (c_vars st ++ [i])) by (apply Forall_app; auto).
    cbn. auto 12.
  Qed.

  Lemma got_shift : forall st st' h h' r, rst st st' -> rh h h' -> (forall i, r = Ok i -> (ns <= i)%nat) ->
    rst (fst (got h r st)) (fst (got h' (rres ns ns' r) st')) /\ snd (got h' (rres ns ns' r) st') = snd (got h r st)
    /\ c_heap (fst (got h r st)) = h.
  Proof.
    intros st st' h h' [i|e] R R1 K; cbn [got rres fst snd].
    - split; [apply rst_push; auto|]. split; auto. f_equal. apply (text_shift _ _ _ _ _ _ _ _ _ _ R1). auto.
    - split; [apply rst_upd; auto|]. auto.
  Qed.

  Lemma cmd_shift : forall st st' c, rst st st' -> ok_maps (h_cells (c_heap st)) pm ->
    rst (fst (rcmd st c)) (fst (rcmd st' c)) /\ snd (rcmd st' c) = snd (rcmd st c) /\ cells_le st (fst (rcmd st c)).
  Proof.
    intros st st' c R K. assert (R' := R). destruct R' as [Rh [H1 [H2 [H3 [H4 [H5 [H6 [H7 H8]]]]]]]].
    assert (New : forall pn m al ts st0 st0', rst st0 st0' -> c_heap st0 = c_heap st -> c_heap st0' = c_heap st' ->
       ok_maps (h_cells (c_heap st)) m ->
       let x := new (c_heap st) pn m al ts in let x' := new (c_heap st') pn (rmaps m) al ts in
       rst (fst (got (fst x) (snd x) st0)) (fst (got (fst x') (snd x') st0'))
       /\ snd (got (fst x') (snd x') st0') = snd (got (fst x) (snd x) st0) /\ cells_le st (fst (got (fst x) (snd x) st0))
       /\ (forall i, snd x = Ok i -> (ns <= i)%nat) /\ snd x' = rres ns ns' (snd x)).
    { intros pn m al ts st0 st0' R0 E0 E0' Km x x'.
      destruct (new_shift ns ns' nd nd' nc nc' inp inp_lt M fullmatch expand compiles _ _ pn m al ts Rh Km) as [B1 [B2 [B3 B4]]].
      fold x x' in B1, B2, B3, B4. rewrite B3.
      destruct (got_shift st0 st0' _ _ (snd x) R0 B4 B1) as [G1 [G2 G3]]. rewrite G3. auto. }
    assert (On : forall v (f f' : nat -> cstate * obs),
       (forall i, (ns <= i)%nat -> rst (fst (f i)) (fst (f' (fs i))) /\ snd (f' (fs i)) = snd (f i) /\ cells_le st (fst (f i))) ->
       rst (fst (on st v f)) (fst (on st' v f')) /\ snd (on st' v f') = snd (on st v f) /\ cells_le st (fst (on st v f))).
    { intros v f f' H. unfold on. rewrite H5, nth_error_map.
      destruct (nth_error (c_vars st) v) as [i|] eqn:E; cbn [option_map]; [|cbn; auto].
      apply H. rewrite Forall_forall in H8. apply H8. eapply nth_error_In; eauto. }
    assert (Did : forall x x' : heap * res unit, same ns ns' nd nd' nc nc' inp (c_heap st) x x' ->
       rst (fst (did st x)) (fst (did st' x')) /\ snd (did st' x') = snd (did st x) /\ cells_le st (fst (did st x))).
    { unfold did. intros [h1 r] [h1' r'] [S1 [S2 S3]]. cbn [fst snd] in *. subst r'. split; [apply rst_upd; auto|]. auto. }
    destruct c as [path|path|v a|v a x|pn m al ts|v z|v ts|v t|v wo t|p|p]; cbn [run_cmd].
    - unfold run_pinp. rewrite H1. destruct (c_pinp st) as [i|] eqn:Ei; cbn [option_map].
      + destruct (got_shift st st' _ _ (Ok i) R Rh) as [G1 [G2 G3]]; [intros j [= <-]; auto|]. cbn [rres] in *.
        rewrite G3. auto.
      + destruct (New (Some (root_path name path)) pm None [] st st' R eq_refl eq_refl K) as [N1 [N2 [N3 [N4 N5]]]].
        rewrite pm_same in N1, N2, N5.
        destruct (new (c_heap st) (Some (root_path name path)) pm None []) as [h1 r].
        destruct (new (c_heap st') (Some (root_path name path)) pm None []) as [h1' r']. cbn [fst snd] in *. subst r'.
        destruct r as [i|e]; cbn [rres] in *; [|auto].
        split; [|auto]. destruct N1 as [M1 [M2 [M3 [M4 [M5 [M6 [M7 [M8 M9]]]]]]]]. cbn in *.
        assert (N4' : ok_ex ns (Some i)) by (intros j [= <-]; auto).
        split; [exact M1|]. cbn. auto 12.
    - unfold run_pout. rewrite H2. destruct (c_pout st) as [i|] eqn:Ei; cbn [option_map].
      + destruct (got_shift st st' _ _ (Ok i) R Rh) as [G1 [G2 G3]]; [intros j [= <-]; auto|]. cbn [rres] in *.
        rewrite G3. auto.
      + destruct (New (Some (root_path name path)) pm None [] st st' R eq_refl eq_refl K) as [N1 [N2 [N3 [N4 N5]]]].
        rewrite pm_same in N1, N2, N5.
        destruct (new (c_heap st) (Some (root_path name path)) pm None []) as [h1 r].
        destruct (new (c_heap st') (Some (root_path name path)) pm None []) as [h1' r']. cbn [fst snd] in *. subst r'.
        destruct r as [i|e]; cbn [rres] in *; [|auto].
        split; [|auto]. destruct N1 as [M1 [M2 [M3 [M4 [M5 [M6 [M7 [M8 M9]]]]]]]]. cbn in *.
        assert (N4' : ok_ex ns (Some i)) by (intros j [= <-]; auto).
        split; [exact M1|]. cbn. auto 12.
    - apply On.
      intros i Hi. destruct (get_shift ns ns' nd nd' nc nc' inp inp_lt M fullmatch expand compiles class_attr _ _ i a Rh Hi) as [G1 [G2 [G3 G4]]].
      destruct (getattr M fullmatch expand compiles class_attr (c_heap st) i a) as [h1 r].
      destruct (getattr M fullmatch expand compiles class_attr (c_heap st') (fs i) a) as [h1' r']. cbn [fst snd] in *. subst r'.
      destruct r as [[c|]|e]; cbn [rval].
      + destruct (got_shift st st' _ _ (Ok c) R G4) as [A1 [A2 A3]]; [intros j [= <-]; auto|]. cbn [rres] in *.
        rewrite A3. auto.
      + split; [apply rst_upd; auto|]. auto.
      + split; [apply rst_upd; auto|]. auto.
    - apply On. intros i Hi. destruct x as [w|s|].
      + apply On. intros j Hj. apply Did.
        apply (set_shift ns ns' nd nd' nc nc' inp inp_lt M fullmatch expand compiles _ _ i a (AStep j) Rh Hi).
        intros j' [= <-]. exact Hj.
      + apply Did. apply (set_shift ns ns' nd nd' nc nc' inp inp_lt M fullmatch expand compiles _ _ i a (AStr s) Rh Hi). discriminate.
      + apply Did. apply (set_shift ns ns' nd nd' nc nc' inp inp_lt M fullmatch expand compiles _ _ i a AOther Rh Hi). discriminate.
    - assert (Mk : forall m, ok_maps (h_cells (c_heap st)) m ->
         let x := let (h, r) := new (c_heap st) pn m al ts in got h r st in
         let x' := let (h, r) := new (c_heap st') pn (rmaps m) al ts in got h r st' in
         rst (fst x) (fst x') /\ snd x' = snd x /\ cells_le st (fst x)).
      { intros m' Km. destruct (New pn m' al ts st st' R eq_refl eq_refl Km) as [N1 [N2 [N3 _]]].
        destruct (new (c_heap st) pn m' al ts) as [h1 r]. destruct (new (c_heap st') pn (rmaps m') al ts) as [h1' r'].
        auto. }
      destruct m as [|v|l|].
      + apply (Mk NoMaps). exact I.
      + apply On.
        intros i Hi. apply (Mk (MStep i)). exact Hi.
      + apply (Mk (MTuples l)). exact I.
      + apply (Mk MBad). exact I.
    - apply On. intros i Hi. apply Did. apply locked_shift; auto.
    - apply On. intros i Hi. apply Did. destruct (tag_shift ns ns' nd nd' nc nc' inp _ _ i ts Rh Hi) as [T1 T2].
      split; cbn; auto. now rewrite T2.
    - apply On. intros i Hi. apply Did. destruct (untag_shift ns ns' nd nd' nc nc' inp _ _ i t Rh Hi) as [T1 T2].
      split; cbn; auto. now rewrite T2.
    - apply On. intros i Hi. cbn [fst snd]. rewrite (paths_shift ns ns' nd nd' nc nc' inp _ _ depth i wo t Rh Hi). auto.
    - cbn [fst snd]. split; [|auto]. split; [exact Rh|]. cbn. rewrite H3. auto 12.
    - cbn [fst snd]. split; [|auto]. split; [exact Rh|]. cbn. rewrite H4. auto 12.
  Qed.

  Lemma prog_shift : forall p st st', rst st st' -> ok_maps (h_cells (c_heap st)) pm ->
    rst (fst (rprog st p)) (fst (rprog st' p)) /\ snd (rprog st' p) = snd (rprog st p)
    /\ cells_le st (fst (rprog st p)).
  Proof.
    induction p as [r|c k IH]; intros st st' R K; cbn [run_prog]; auto.
    destruct (cmd_shift st st' c R K) as [C1 [C2 C3]].
    destruct (rcmd st c) as [st1 o]. destruct (rcmd st' c) as [st1' o']. cbn [fst snd] in *. subst o'.
    destruct (IH o st1 st1') as [I1 [I2 I3]]; auto; [eapply ok_maps_more; eauto|].
    split; auto. split; auto. lia.
  Qed.

  Lemma fetch_shift : forall h h' p, rh h h' -> ok_ex ns p ->
    fetch_all_paths depth h' (option_map fs p) = fetch_all_paths depth h p.
  Proof.
    intros h h' [i|] R K; auto. cbn [fetch_all_paths option_map].
    rewrite (texted_shift _ _ _ _ _ _ _ _ _ _ R) by auto. destruct (texted h i); auto.
    apply (paths_shift ns ns' nd nd' nc nc' inp); auto.
  Qed.
  End Two.

  (** ** Building in two heaps *)
  Definition labels (pm : maps) (x : nat) : Prop := match pm with MPmod p => has_label p x | _ => False end.

  Lemma build_shift : forall name pm h h' f, same_mappings pm h h' ->
    snd (bld name pm h f) = snd (bld name pm h' f)
    /\ (forall x, labels pm x -> nth x (h_cells (fst (bld name pm h f))) None = nth x (h_cells (fst (bld name pm h' f))) None)
    /\ (length (h_cells h) <= length (h_cells (fst (bld name pm h f))))%nat.
  Proof.
    intros name pm h h' f [Hs Hp].
    set (ns := length (h_steps h)). set (ns' := length (h_steps h')). set (nd := length (h_dicts h)).
    set (nd' := length (h_dicts h')). set (nc := length (h_cells h)). set (nc' := length (h_cells h')).
    assert (Lt : forall l, labels pm l -> (l < nc)%nat /\ (l < nc')%nat).
    { intros l Hl. destruct pm as [|p| | |]; try contradiction Hl. destruct (Hp p eq_refl) as [A [B _]]. split; [now apply A|now apply B]. }
    assert (R0 : rh ns ns' nd nd' nc nc' (labels pm) h h').
    { constructor.
      - split; [unfold nc; lia|]. split; [unfold nc, nc'; lia|]. intros l [D|D] L; [|unfold nc in D; lia].
        rewrite (fl_old nc nc' (labels pm) Lt l D). destruct pm as [|p| | |]; try contradiction D.
        destruct (Hp p eq_refl) as [_ [_ E]]. symmetry. now apply (proj1 (erase_agree p _ _) E).
      - split; [unfold ns; lia|]. split; [unfold ns, ns'; lia|]. intros i Hi.
        rewrite !(proj2 (nth_error_None _ _)); auto. fold ns'. lia.
      - split; [unfold nd; lia|]. split; [unfold nd, nd'; lia|]. intros i Hi.
        rewrite !(proj2 (nth_error_None _ _)); auto. fold nd'. lia.
      - intros i s Hi E. exfalso. enough (nth_error (h_steps h) i = None) by congruence. now apply nth_error_None.
      - intros d ds Hi E. exfalso. enough (nth_error (h_dicts h) d = None) by congruence. now apply nth_error_None. }
    assert (Em : rmaps ns ns' nc nc' pm = pm).
    { destruct pm as [|p|i| |]; auto; [|destruct (Hs i); auto]. cbn. f_equal. apply (lmap_id nc nc' (labels (MPmod p)) Lt). auto. }
    assert (Km : ok_maps ns nc (labels pm) (h_cells h) pm).
    { destruct pm as [|p|i| |]; cbn; auto; [|destruct (Hs i); auto]. intros x Hx. split; [now left|]. now apply Lt. }
    destruct (prog_shift ns ns' nd nd' nc nc' (labels pm) Lt name pm Em f (mkC h None None [] [] []) (mkC h' None None [] [] [])) as [P1 [P2 P3]]; auto.
    { split; [exact R0|]. repeat split; cbn; auto; discriminate. }
    unfold build. destruct (run_prog M fullmatch expand compiles class_attr depth name pm (mkC h None None [] [] []) f) as [st r].
    destruct (run_prog M fullmatch expand compiles class_attr depth name pm (mkC h' None None [] [] []) f) as [st' r'].
    cbn [fst snd c_heap] in *. subst r'. destruct P1 as [R [H1 [H2 [H3 [H4 [_ [H6 [H7 _]]]]]]]]. split; [|split; [|exact P3]].
    - rewrite H1, H2, H3, H4. rewrite !(fetch_shift _ _ _ _ _ _ _ _ _ _ R) by auto. reflexivity.
    - intros x Hx. destruct R as [Rc _ _ _ _]. assert (Rl := rc_length nc nc' (labels pm) _ _ Rc). destruct Rc as [C1 [C2 C3]].
      symmetry. rewrite <- (fl_old nc nc' (labels pm) Lt x Hx) at 1. apply C3; [now left|]. apply Lt in Hx. lia.
  Qed.


  Lemma same_mappings_sym : forall pm h h', same_mappings pm h h' -> same_mappings pm h' h.
  Proof. intros pm h h' [A B]. split; auto. intros p E. destruct (B p E) as [C [D F]]. auto. Qed.
  Lemma same_mappings_trans : forall pm a b c, same_mappings pm a b -> same_mappings pm b c -> same_mappings pm a c.
  Proof.
    intros pm a b c [A B] [_ B']. split; auto. intros p E. destruct (B p E) as [C [D F]]. destruct (B' p E) as [C' [D' F']].
    repeat split; auto. congruence.
  Qed.

  Lemma build_same : forall name pm h h' f, same_mappings pm h h' ->
    snd (bld name pm h f) = snd (bld name pm h' f) /\ same_mappings pm (fst (bld name pm h f)) (fst (bld name pm h' f)).
  Proof.
    intros name pm h h' f S. destruct (build_shift name pm h h' f S) as [A [B C]].
    destruct (build_shift name pm h' h f (same_mappings_sym _ _ _ S)) as [_ [_ C']].
    split; auto. destruct S as [S1 S2]. split; auto. intros p E. destruct (S2 p E) as [D [D' F]].
    split; [|split].
    - intros x Hx. specialize (D x Hx). lia.
    - intros x Hx. specialize (D' x Hx). lia.
    - apply erase_agree. intros x Hx. apply B. now subst pm.
  Qed.

  (** ** Assemblies *)
  Definition build_all (pm : maps) :=
    fix go (cs : list component) (h : heap) (inp out : list pystr) : heap * res (list pystr * list pystr) :=
    match cs with
    | [] => (h, Ok (inp, out))
    | c :: cs => match bldc pm c h with
                 | (h, Ok (i, o)) => go cs h (add_tags inp i) (add_tags out o)
                 | (h, Raise e) => (h, Raise e)
                 end
    end.

  Lemma assembly_eq : forall pm cs h, bldc pm (Assembly cs) h =
    let (h, r) := build_all pm cs h [] [] in
    (h, do io <- r; Ok (sort_str (fun x => x) (fst io), sort_str (fun x => x) (snd io))).
  Proof. reflexivity. Qed.

  Lemma component_same : forall c pm h h', same_mappings pm h h' ->
    snd (bldc pm c h) = snd (bldc pm c h') /\ same_mappings pm (fst (bldc pm c h)) (fst (bldc pm c h')).
  Proof.
    induction c as [n f|cs IH] using comp_ind'; intros pm h h' S; [now apply build_same|].
    rewrite !assembly_eq.
    assert (X : forall inp out h h', same_mappings pm h h' ->
      snd (build_all pm cs h inp out) = snd (build_all pm cs h' inp out)
      /\ same_mappings pm (fst (build_all pm cs h inp out)) (fst (build_all pm cs h' inp out))).
    { clear h h' S. induction cs as [|c cs IHc]; intros inp out h h' S; cbn [build_all]; auto.
      destruct (IH c (or_introl eq_refl) pm h h' S) as [A B].
      destruct (bldc pm c h) as [h1 r]. destruct (bldc pm c h') as [h1' r']. cbn [fst snd] in *. subst r'.
      destruct r as [[i o]|e]; auto. apply IHc; auto. intros c' Hin. apply IH. now right. }
    destruct (X [] [] h h' S) as [A B].
    destruct (build_all pm cs h [] []) as [h1 r]. destruct (build_all pm cs h' [] []) as [h1' r'].
    cbn [fst snd] in *. subst r'. auto.
  Qed.

  (** ** Programs that assign no strings leave the mappings *)
  Notation ex := (exec M fullmatch expand compiles class_attr).
  Lemma cmd_op : forall name pm st c, (forall v a s, c <> CSet v a (CStr s)) ->
    let st' := fst (run_cmd M fullmatch expand compiles class_attr depth name pm st c) in
    c_heap st' = c_heap st \/ exists o, c_heap st' = ex (c_heap st) o /\ forall i a s, o <> OSet i a (AStr s).
  Proof.
    intros name pm st c Hc.
    assert (Gt : forall h r st0, c_heap (fst (got h r st0)) = h) by (intros h [i|e] st0; reflexivity).
    assert (New : forall pn m al ts st0, let x := new (c_heap st) pn m al ts in
       c_heap (fst (got (fst x) (snd x) st0)) = ex (c_heap st) (ONew pn m al ts)).
    { intros. cbn zeta. rewrite Gt. reflexivity. }
    assert (On : forall v f, (forall i, c_heap (fst (f i)) = c_heap st
        \/ exists o, c_heap (fst (f i)) = ex (c_heap st) o /\ forall i a s, o <> OSet i a (AStr s)) ->
       c_heap (fst (on st v f)) = c_heap st
        \/ exists o, c_heap (fst (on st v f)) = ex (c_heap st) o /\ forall i a s, o <> OSet i a (AStr s)).
    { intros v f H. unfold on. destruct (nth_error (c_vars st) v); auto. }
    assert (Did : forall x, c_heap (fst (did st x)) = fst x) by (intros [h r]; reflexivity).
    destruct c as [path|path|v a|v a x|pn m al ts|v z|v ts|v t|v wo t|p|p]; cbn [run_cmd]; cbn zeta; auto.
    - unfold run_pinp. destruct (c_pinp st) as [i|]; [rewrite Gt; auto|]. right.
      exists (ONew (Some (root_path name path)) pm None []). split; [|discriminate].
      rewrite <- (New _ _ _ _ (match snd (new (c_heap st) (Some (root_path name path)) pm None []) with Ok i => with_pinp i st | Raise _ => st end)).
      destruct (new (c_heap st) (Some (root_path name path)) pm None []); reflexivity.
    - unfold run_pout. destruct (c_pout st) as [i|]; [rewrite Gt; auto|]. right.
      exists (ONew (Some (root_path name path)) pm None []). split; [|discriminate].
      rewrite <- (New _ _ _ _ (match snd (new (c_heap st) (Some (root_path name path)) pm None []) with Ok i => with_pout i st | Raise _ => st end)).
      destruct (new (c_heap st) (Some (root_path name path)) pm None []); reflexivity.
    - apply On. intros i. right. exists (OGet i a). split; [|discriminate]. cbn [exec].
      destruct (getattr M fullmatch expand compiles class_attr (c_heap st) i a) as [h1 [[c|]|e]]; reflexivity.
    - apply On. intros i. destruct x as [w|s|]; [|destruct (Hc v a s); auto|].
      + apply On. intros j. right. exists (OSet i a (AStep j)). split; [|discriminate]. now rewrite Did.
      + right. exists (OSet i a AOther). split; [|discriminate]. now rewrite Did.
    - assert (Mk : forall m, c_heap (fst (let (h, r) := new (c_heap st) pn m al ts in got h r st)) = ex (c_heap st) (ONew pn m al ts)).
      { intros m'. rewrite <- (New _ _ _ _ st). destruct (new (c_heap st) pn m' al ts); reflexivity. }
      destruct m as [|v|l|].
      + right. exists (ONew pn NoMaps al ts). split; [apply Mk|discriminate].
      + apply On. intros i. right. exists (ONew pn (MStep i) al ts). split; [apply Mk|discriminate].
      + right. exists (ONew pn (MTuples l) al ts). split; [apply Mk|discriminate].
      + right. exists (ONew pn MBad al ts). split; [apply Mk|discriminate].
    - apply On. intros i. right. exists (OLocked i z). split; [|discriminate]. now rewrite Did.
    - apply On. intros i. right. exists (OTag i ts). split; [|discriminate]. now rewrite Did.
    - apply On. intros i. right. exists (OUntag i t). split; [|discriminate]. now rewrite Did.
  Qed.

  Lemma prog_keeps : forall name pm q f st, never_renames f -> allocated (h_cells (c_heap st)) q ->
    let st' := fst (run_prog M fullmatch expand compiles class_attr depth name pm st f) in
    allocated (h_cells (c_heap st')) q /\ erase (h_cells (c_heap st')) q = erase (h_cells (c_heap st)) q.
  Proof.
    intros name pm q f. induction f as [r|c k IH]; intros st Nr Al; cbn [run_prog]; [auto|].
    inversion Nr as [|? ? N1 N2]; subst. assert (X := cmd_op name pm st c N1). cbn zeta in X.
    destruct (run_cmd M fullmatch expand compiles class_attr depth name pm st c) as [st1 o]. cbn [fst] in X.
    assert (Y : allocated (h_cells (c_heap st1)) q /\ erase (h_cells (c_heap st1)) q = erase (h_cells (c_heap st)) q).
    { destruct X as [->|[op [-> Hop]]]; auto.
      apply (effect_cells M fullmatch expand compiles _ _ _ q (exec_effect M fullmatch expand compiles class_attr _ op)); auto.
      intros i a x s q' E. destruct (Hop i a x E). }
    destruct Y as [Y1 Y2]. cbn zeta. destruct (IH o st1 (N2 o) Y1) as [Z1 Z2]. split; auto. congruence.
  Qed.

  Lemma component_keeps : forall c pm q h, (forall n f, part_of c n f -> never_renames f) -> allocated (h_cells h) q ->
    allocated (h_cells (fst (bldc pm c h))) q /\ erase (h_cells (fst (bldc pm c h))) q = erase (h_cells h) q.
  Proof.
    induction c as [n f|cs IH] using comp_ind'; intros pm q h Nr Al.
    - cbn [build_component]. unfold build.
      assert (X := prog_keeps n pm q f (mkC h None None [] [] []) (Nr n f (Po_func n f)) Al). cbn zeta in X.
      destruct (run_prog M fullmatch expand compiles class_attr depth n pm (mkC h None None [] [] []) f). exact X.
    - rewrite assembly_eq.
      assert (X : forall inp out h, allocated (h_cells h) q -> allocated (h_cells (fst (build_all pm cs h inp out))) q
         /\ erase (h_cells (fst (build_all pm cs h inp out))) q = erase (h_cells h) q).
      { clear h Al. assert (Nr' : forall c, In c cs -> forall n f, part_of c n f -> never_renames f).
        { intros c Hin n f Hp. apply (Nr n). eapply Po_assembly; eauto. }
        clear Nr. induction cs as [|c cs IHc]; intros inp out h Al; cbn [build_all]; auto.
        destruct (IH c (or_introl eq_refl) pm q h (Nr' c (or_introl eq_refl)) Al) as [A B].
        destruct (bldc pm c h) as [h1 r]. cbn [fst] in *. destruct r as [[i o]|e]; auto.
        destruct (IHc (fun c' H => IH c' (or_intror H)) (fun c' H => Nr' c' (or_intror H)) (add_tags inp i) (add_tags out o) h1 A) as [C D].
        split; auto. congruence. }
      specialize (X [] [] h Al). destruct (build_all pm cs h [] []). exact X.
  Qed.

  Lemma component_kept : forall c pm h, (forall n f, part_of c n f -> never_renames f) ->
    (forall i, pm <> MStep i) -> (forall p, pm = MPmod p -> allocated (h_cells h) p) ->
    same_mappings pm h (fst (bldc pm c h)).
  Proof.
    intros c pm h Nr S Al. split; auto. intros p E. destruct (component_keeps c pm p h Nr (Al p E)) as [A B].
    repeat split; auto.
  Qed.

  (** ** Unions *)
  Lemma NoDup_add : forall new ts, NoDup ts -> NoDup (add_tags ts new).
  Proof. intros new ts N. now apply add_tags_spec. Qed.

  Lemma build_all_ok : forall pm cs h inp out h' i o, build_all pm cs h inp out = (h', Ok (i, o)) ->
    exists ios, in_turn (bldc pm) h cs h' ios
      /\ (forall x, In x i <-> In x inp \/ exists io, In io ios /\ In x (fst io))
      /\ (forall x, In x o <-> In x out \/ exists io, In io ios /\ In x (snd io))
      /\ (NoDup inp -> NoDup i) /\ (NoDup out -> NoDup o).
  Proof.
    intros pm. induction cs as [|c cs IH]; intros h inp out h' i o E; cbn [build_all] in E.
    - injection E as <- <- <-. exists []. split; [constructor|]. repeat split; auto; intros [H|[io [[] _]]]; auto.
    - destruct (bldc pm c h) as [h1 [[ci co]|e]] eqn:Ec; [|discriminate].
      destruct (IH _ _ _ _ _ _ E) as [ios [H1 [H2 [H3 [H4 H5]]]]]. exists ((ci, co) :: ios).
      split; [econstructor; eauto|]. split; [|split; [|split]].
      + intros x. rewrite H2, add_tags_In. split.
        * intros [[H|H]|[io [Hi Hx]]]; [auto|right; exists (ci, co); split; [now left|auto]|right; exists io; split; [now right|auto]].
        * intros [H|[io [[<-|Hi] Hx]]]; [auto|auto|right; eauto].
      + intros x. rewrite H3, add_tags_In. split.
        * intros [[H|H]|[io [Hi Hx]]]; [auto|right; exists (ci, co); split; [now left|auto]|right; exists io; split; [now right|auto]].
        * intros [H|[io [[<-|Hi] Hx]]]; [auto|auto|right; eauto].
      + intros N. apply H4. now apply NoDup_add.
      + intros N. apply H5. now apply NoDup_add.
  Qed.

  Lemma sorted_set : forall l, NoDup l -> ascending (sort_str (fun x => x) l) /\ forall x, In x (sort_str (fun x => x) l) <-> In x l.
  Proof.
    intros l N. assert (P := sort_perm _ (fun x : pystr => x) l). split.
    - apply sorted_ascending; [apply sort_sorted|]. eapply Permutation_NoDup; eauto.
    - intro x. split; apply Permutation_in; auto. now symmetry.
  Qed.

  Lemma assembly_ok : forall pm cs h h' i o, bldc pm (Assembly cs) h = (h', Ok (i, o)) ->
    exists ios, in_turn (bldc pm) h cs h' ios /\ ascending i /\ ascending o
      /\ (forall x, In x i <-> exists io, In io ios /\ In x (fst io))
      /\ (forall x, In x o <-> exists io, In io ios /\ In x (snd io)).
  Proof.
    intros pm cs h h' i o E. rewrite assembly_eq in E. destruct (build_all pm cs h [] []) as [h1 [[i0 o0]|e]] eqn:Eb; [|discriminate].
    cbn [rbind fst snd] in E. injection E as <- <- <-.
    destruct (build_all_ok _ _ _ _ _ _ _ _ Eb) as [ios [H1 [H2 [H3 [H4 H5]]]]]. exists ios.
    destruct (sorted_set i0 (H4 (NoDup_nil _))) as [A B]. destruct (sorted_set o0 (H5 (NoDup_nil _))) as [C D].
    repeat split; auto.
    - intros H. apply B, H2 in H. destruct H as [[]|H]; auto.
    - intros H. apply B, H2. auto.
    - intros H. apply D, H3 in H. destruct H as [[]|H]; auto.
    - intros H. apply D, H3. auto.
  Qed.
End Prog.
