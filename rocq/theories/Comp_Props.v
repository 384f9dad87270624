(** * Properties of components *)
From Coq Require Import String Lia.
From Verif Require Import PyBase PyBase_Proofs Json JsonPointer_Model Paths_Model Pmod_Model Pmod_Spec Pmod_Props
  Pstep_Model Pstep_Spec PstepPmod_Proofs Pstep_Proofs PstepPaths_Proofs Pstep_Props Comp_Model Comp_Spec CompShift_Proofs
  Comp_Proofs.

(** ** C52: building *)
Section Components.
  Variable M : Type.
  Variable fullmatch : pystr -> pystr -> option M.
  Variable expand : M -> pystr -> res pystr.
  Variable compiles : pystr -> bool.
  Variable class_attr : pystr -> bool.
  Variable depth : nat.
  Notation run_prog := (run_prog M fullmatch expand compiles class_attr depth).
  Notation build := (build M fullmatch expand compiles class_attr depth).
  Notation build_component := (build_component M fullmatch expand compiles class_attr depth).

  (** What a component lists, or how it fails, depends on nothing but the mappings:
      whatever else was done before, in programs with other steps, does not matter. *)
  Theorem C52_depends_on_mappings : forall c pm h h', same_mappings pm h h' ->
    snd (build_component pm c h) = snd (build_component pm c h').
  Proof. intros c pm h h' S. now apply component_same. Qed.

  (** Building again gives the same, for all programs that assign no strings. *)
  Theorem C52_rebuild : forall c pm h h1 r, (forall n f, part_of c n f -> never_renames f) ->
    (forall i, pm <> MStep i) -> (forall p, pm = MPmod p -> allocated (h_cells h) p) ->
    build_component pm c h = (h1, r) -> snd (build_component pm c h1) = r.
  Proof.
    intros c pm h h1 r Nr S Al E. assert (K := component_kept M fullmatch expand compiles class_attr depth c pm h Nr S Al).
    rewrite E in K. cbn [fst] in K. rewrite <- (C52_depends_on_mappings c pm h h1 K), E. reflexivity.
  Qed.

  (** The same for all programs, when no mapping object is shared. *)
  Theorem C52_rebuild_unmapped : forall c pm h h1 r, (forall i, pm <> MStep i) -> (forall p, pm <> MPmod p) ->
    build_component pm c h = (h1, r) -> snd (build_component pm c h1) = r.
  Proof.
    intros c pm h h1 r S P E. rewrite <- (C52_depends_on_mappings c pm h h1), E; [reflexivity|].
    split; auto. intros p Hp. destruct (P p Hp).
  Qed.

  (** An assembly lists, ascending and once each, all that its components list, each
      built after the ones before it. *)
  Theorem C52_assembly : forall pm cs h h' i o, build_component pm (Assembly cs) h = (h', Ok (i, o)) ->
    exists ios, in_turn (build_component pm) h cs h' ios /\ ascending i /\ ascending o
      /\ (forall x, In x i <-> exists io, In io ios /\ In x (fst io))
      /\ (forall x, In x o <-> exists io, In io ios /\ In x (snd io)).
  Proof. exact (assembly_ok M fullmatch expand compiles class_attr depth). Qed.

  (** If no program assigns strings: all that its components list, each built alone. *)
  Theorem C52_union : forall pm cs h h' i o, (forall n f, part_of (Assembly cs) n f -> never_renames f) ->
    (forall i, pm <> MStep i) -> (forall p, pm = MPmod p -> allocated (h_cells h) p) ->
    build_component pm (Assembly cs) h = (h', Ok (i, o)) ->
    ascending i /\ ascending o
    /\ (forall x, In x i <-> exists c ci co, In c cs /\ snd (build_component pm c h) = Ok (ci, co) /\ In x ci)
    /\ (forall x, In x o <-> exists c ci co, In c cs /\ snd (build_component pm c h) = Ok (ci, co) /\ In x co).
  Proof.
    intros pm cs h h' i o Nr S Al E.
    destruct (C52_assembly pm cs h h' i o E) as [ios [T [A [B [Hi Ho]]]]].
    assert (X : forall io, In io ios <-> exists c, In c cs /\ snd (build_component pm c h) = Ok io).
    { assert (G : forall h0, same_mappings pm h h0 -> in_turn (build_component pm) h0 cs h' ios ->
        forall io, In io ios <-> exists c, In c cs /\ snd (build_component pm c h) = Ok io).
      { assert (Nr' : forall c, In c cs -> forall n f, part_of c n f -> never_renames f).
        { intros c Hc n f Hp. apply (Nr n). eapply Po_assembly; eauto. }
        clear - Nr' S Al. revert ios. induction cs as [|c cs IH]; intros ios h0 Sm T io; inversion T; subst.
        - split; [intros []|intros [c [[] _]]].
        - match goal with H : build_component pm c h0 = (?x, Ok ?y), H' : in_turn _ ?x _ _ ?z |- _ =>
            rename H into Hb; rename H' into Ht; rename x into h1; rename y into io0; rename z into ios' end.
          assert (Sm' : same_mappings pm h h1).
          { apply (same_mappings_trans _ h (fst (build_component pm c h)) _).
            - apply component_kept; auto. intros n f. apply Nr'. now left.
            - replace h1 with (fst (build_component pm c h0)) by now rewrite Hb. now apply component_same. }
          assert (Eb : snd (build_component pm c h) = Ok io0).
          { rewrite (C52_depends_on_mappings c pm h h0 Sm), Hb. reflexivity. }
          specialize (IH (fun c' H => Nr' c' (or_intror H)) ios' h1 Sm' Ht io). split.
          + intros [<-|H]; [exists c; split; [now left|exact Eb]|]. apply IH in H. destruct H as [c' [H H']].
            exists c'. split; [now right|exact H'].
          + intros [c' [[<-|H] H']]; [left; congruence|right; apply IH; eauto]. }
      apply (G h); auto. split; auto. }
    split; auto. split; auto. split; intro x.
    - rewrite Hi. split.
      + intros [[ci co] [H H']]. apply X in H. destruct H as [c [H1 H2]]. eauto 8.
      + intros [c [ci [co [H1 [H2 H3]]]]]. exists (ci, co). split; auto. apply X. eauto.
    - rewrite Ho. split.
      + intros [[ci co] [H H']]. apply X in H. destruct H as [c [H1 H2]]. eauto 8.
      + intros [c [ci [co [H1 [H2 H3]]]]]. exists (ci, co). split; auto. apply X. eauto.
  Qed.

  (** An assembly fails as the first of its components that does; the later ones are
      not built. *)
  Theorem C52_failure : forall pm cs h h' e, build_component pm (Assembly cs) h = (h', Raise e) <->
    exists before c after h1 ios, cs = before ++ c :: after
      /\ in_turn (build_component pm) h before h1 ios
      /\ build_component pm c h1 = (h', Raise e).
  Proof.
    intros pm cs h h' e. rewrite (assembly_eq M fullmatch expand compiles class_attr depth).
    assert (X : forall inp out h, build_all M fullmatch expand compiles class_attr depth pm cs h inp out = (h', Raise e) <->
      exists before c after h1 ios, cs = before ++ c :: after
        /\ in_turn (build_component pm) h before h1 ios
        /\ build_component pm c h1 = (h', Raise e)).
    { clear h. induction cs as [|c cs IH]; intros inp out h.
      - cbn. split; [discriminate|]. intros [b [c [a [h1 [ios [H _]]]]]]. destruct b; discriminate.
      - cbn [build_all]. destruct (build_component pm c h) as [h1 [[i o]|e']] eqn:E.
        + etransitivity; [apply IH|]. split.
          * intros [b [c' [a [h2 [ios [-> [T H]]]]]]]. exists (c :: b), c', a, h2, ((i, o) :: ios).
            split; [reflexivity|]. split; auto. econstructor; eauto.
          * intros [b [c' [a [h2 [ios [Hc [T H]]]]]]]. inversion T; subst.
            -- cbn [app] in Hc. injection Hc as <- <-. congruence.
            -- cbn [app] in Hc. injection Hc as <- ->. match goal with H : build_component pm c h = (?x, Ok _) |- _ => rewrite E in H; injection H as <- <- end.
               eexists _, c', a, h2, _. split; [reflexivity|]. split; eauto.
        + split.
          * intro H. injection H as <- <-. exists [], c, cs, h, []. split; [reflexivity|]. split; [constructor|auto].
          * intros [b [c' [a [h2 [ios [Hc [T H]]]]]]]. inversion T; subst.
            -- cbn [app] in Hc. injection Hc as <- <-. congruence.
            -- cbn [app] in Hc. injection Hc as <- ->. congruence. }
    specialize (X [] [] h).
    destruct (build_all M fullmatch expand compiles class_attr depth pm cs h [] []) as [h1 [[i o]|e']].
    - cbn [rbind fst snd]. etransitivity; [|exact X]. split; discriminate.
    - cbn [rbind]. exact X.
  Qed.

  (** A component made of a function lists the paths the program added by hand, then the
      ways to the leaves below the steps it got from [pinp] and [pout]. *)
  Theorem C52_paths : forall name pm h f h' i o, build name pm h f = (h', Ok (i, o)) ->
    exists st mi mo, run_prog name pm (mkC h None None [] [] []) f = (st, Ok tt) /\ h' = c_heap st
      /\ i = c_inp st ++ mi /\ o = c_out st ++ mo
      /\ (leaf_paths h' (c_pinp st) mi \/ exists j, c_pinp st = Some j /\ text_of h' j = [] /\ mi = [])
      /\ (leaf_paths h' (c_pout st) mo \/ exists j, c_pout st = Some j /\ text_of h' j = [] /\ mo = []).
  Proof.
    intros name pm h f h' i o E. unfold Comp_Model.build in E.
    destruct (run_prog name pm (mkC h None None [] [] []) f) as [st r] eqn:Ep.
    assert (F : forall s l, fetch_all_paths depth (c_heap st) s = Ok l ->
      leaf_paths (c_heap st) s l \/ exists j, s = Some j /\ text_of (c_heap st) j = [] /\ l = []).
    { intros [j|] l El; cbn [fetch_all_paths] in El; [|injection El as <-; left; constructor].
      assert (Tx : texted (c_heap st) j = match text_of (c_heap st) j with [] => false | _ => true end).
      { unfold texted, text_of. destruct (nth_error (h_steps (c_heap st)) j); reflexivity. }
      rewrite Tx in El. destruct (text_of (c_heap st) j) as [|a t] eqn:Et; [injection El as <-; right; eauto|]. left.
      destruct (paths_spec _ _ _ _ _ _ El) as [A B]. constructor; [congruence|auto|].
      intro x. rewrite B. split.
      - intros [q [k [xs [Hw [[[_ Hl]|[Hn _]] [Hs ->]]]]]]; [|destruct Hn; reflexivity]. apply Forall2_shown in Hs. subst xs. eauto.
      - intros [q [k [Hw [Hl ->]]]]. exists q, k. eexists. split; [exact Hw|]. split; [auto|]. split; [|reflexivity].
        now apply Forall2_shown. }
    injection E as <- E. destruct r as [[]|]; [|discriminate]. cbn [rbind] in E.
    destruct (fetch_all_paths depth (c_heap st) (c_pinp st)) as [mi|] eqn:Ei; [|discriminate]. cbn [rbind] in E.
    destruct (fetch_all_paths depth (c_heap st) (c_pout st)) as [mo|] eqn:Eo; [|discriminate]. cbn [rbind] in E.
    injection E as <- <-. exists st, mi, mo. repeat split; auto.
  Qed.

  (** Paths added by hand are listed in the order in which they were added. *)
  Fixpoint adding (l : list (pystr + pystr)) : cprog :=
    match l with
    | [] => CEnd (Ok tt)
    | inl p :: l' => CDo (CInp p) (fun _ => adding l')
    | inr p :: l' => CDo (COut p) (fun _ => adding l')
    end.
  Theorem C52_added_by_hand : forall name pm h l, build name pm h (adding l)
    = (h, Ok (flat_map (fun x => match x with inl p => [p] | inr _ => [] end) l, flat_map (fun x => match x with inl _ => [] | inr p => [p] end) l)).
  Proof.
    intros name pm h l. unfold Comp_Model.build.
    assert (X : forall i o, run_prog name pm (mkC h None None i o []) (adding l)
      = (mkC h None None (i ++ flat_map (fun x => match x with inl p => [p] | inr _ => [] end) l) (o ++ flat_map (fun x => match x with inl _ => [] | inr p => [p] end) l) [], Ok tt)).
    { induction l as [|[p|p] l IH]; intros i o; cbn [adding flat_map Comp_Model.run_prog].
      - rewrite !app_nil_r. reflexivity.
      - cbn [Comp_Model.run_cmd]. unfold add_inp. cbn [c_heap c_pinp c_pout c_inp c_out c_vars]. rewrite IH, <- app_assoc. reflexivity.
      - cbn [Comp_Model.run_cmd]. unfold add_out. cbn [c_heap c_pinp c_pout c_inp c_out c_vars]. rewrite IH, <- app_assoc. reflexivity. }
    rewrite X. cbn [c_heap c_pinp c_pout c_inp c_out fetch_all_paths rbind app]. rewrite !app_nil_r. reflexivity.
  Qed.
End Components.
Print Assumptions C52_added_by_hand.
Print Assumptions C52_depends_on_mappings.
Print Assumptions C52_rebuild.
Print Assumptions C52_rebuild_unmapped.
Print Assumptions C52_assembly.
Print Assumptions C52_union.
Print Assumptions C52_failure.
Print Assumptions C52_paths.

(** The name of a component is the one given, else that of the function, less one
    prefix [cfunc_]. *)
Theorem C52_name : forall f,
  (forall n, component_name f (Some n) = n)
  /\ component_name (lit "cfunc_" ++ f) None = f
  /\ ((forall g, f <> lit "cfunc_" ++ g) -> component_name f None = f).
Proof.
  intro f. split; [reflexivity|]. split; [reflexivity|]. intro H. unfold component_name.
  destruct (starts_with (lit "cfunc_") f) eqn:E; auto. apply starts_with_prefix in E. destruct E as [g ->]. destruct (H g eq_refl).
Qed.
Print Assumptions C52_name.

(** ** Examples and counter-examples *)
Definition xbuild := build_component pystr ex_fullmatch ex_expand (fun _ => true) (fun _ => false) 9.
Fixpoint refs_prog (cs : list cmd) : cprog :=
  match cs with [] => CEnd (Ok tt) | c :: cs => CDo c (fun _ => refs_prog cs) end.

(** The example of the documentation of [Assembly], with [.*] as regex. *)
Definition any_fullmatch (r s : pystr) : option unit := if str_eqb r (lit ".*") then Some tt else None.
Definition any_expand (m : unit) (t : pystr) : res pystr := Ok t.
Definition dbuild := build_component unit any_fullmatch any_expand (fun _ => true) (fun _ => false) 9.
Definition f1 : component := Func (lit "f1") (refs_prog [CPinp None; CGet 0 (lit "A"); CPout None; CGet 2 (lit "B")]).
Definition f2 : component := Func (lit "f2") (refs_prog [CPinp None; CGet 0 (lit "B"); CPout None; CGet 2 (lit "C")]).
Definition to_root : list (option pystr * option pystr) := [(Some (lit "~.*"), Some (lit "/root"))].
Definition root_maps : lpmod := fst (alloc_pmod (Pmod None [] [(lit ".*", leaf (lit "/root"))]) []).

Example C52_example :
  pmods_from_tuples (fun _ => true) to_root = Ok (Pmod None [] [(lit ".*", leaf (lit "/root"))])
  /\ snd (dbuild NoMaps (Assembly [f1; f2]) empty_heap) = Ok ([lit "f1/A"; lit "f2/B"], [lit "f1/B"; lit "f2/C"])
  /\ (let h := xrun empty_heap [OPmods to_root] in
      let (h1, r) := dbuild (MPmod root_maps) (Assembly [f1; f2]) h in
      r = Ok ([lit "/root/A"; lit "/root/B"], [lit "/root/B"; lit "/root/C"])
      /\ snd (dbuild (MPmod root_maps) (Assembly [f1; f2]) h1) = r
      /\ allocated (h_cells h) root_maps)
  /\ (forall n f, part_of (Assembly [f1; f2]) n f -> never_renames f)
  /\ component_name (lit "cfunc_f1") None = lit "f1".
Proof.
  split; [vm_compute; reflexivity|]. split; [vm_compute; reflexivity|]. split; [|split; [|reflexivity]].
  - cbn zeta. set (h := xrun empty_heap [OPmods to_root]). vm_compute in h.
    set (h1 := fst (dbuild (MPmod root_maps) (Assembly [f1; f2]) h)). vm_compute in h1.
    replace (dbuild (MPmod root_maps) (Assembly [f1; f2]) h)
      with (h1, Ok ([lit "/root/A"; lit "/root/B"], [lit "/root/B"; lit "/root/C"])) by (vm_compute; reflexivity).
    split; [reflexivity|]. split; [vm_compute; reflexivity|].
    exact (proj1 (proj2 (alloc_spec (Pmod None [] [(lit ".*", leaf (lit "/root"))]) [] _ _ (surjective_pairing _)))).
  - intros n f H. inversion H as [|cs c n' f' Hin Hp]; subst.
    destruct Hin as [<-|[<-|[]]]; unfold f1, f2 in Hp; inversion Hp; subst; cbn [refs_prog];
      repeat (apply Nr_do; [discriminate|intro]); apply Nr_end.
Qed.

(** A program that renames a step changes the mappings it was given: the second time
    the root has another name. *)
Theorem C52_rebuild_refuted : exists c tuples p h1 r r', pmods_from_tuples (fun _ => true) tuples = Ok p
  /\ (let lp := fst (alloc_pmod p []) in
      xbuild (MPmod lp) c (xrun empty_heap [OPmods tuples]) = (h1, Ok r)
      /\ snd (xbuild (MPmod lp) c h1) = Ok r'
      /\ r = ([lit "R/X"], []) /\ r' = ([lit "X/X"], [])).
Proof.
  exists (Func (lit "r") (refs_prog [CPinp None; CGet 0 (lit "b"); CSet 0 (lit "b") (CStr (lit "X"))])),
    [(Some (lit "r"), Some (lit "R"))]. eexists _, _, _, _.
  split; [reflexivity|]. cbn zeta. split; [vm_compute; reflexivity|]. split; [vm_compute; reflexivity|].
  split; reflexivity.
Qed.
Print Assumptions C52_rebuild_refuted.

(** Paths below a root of blank name are not listed, although the program got steps. *)
Theorem C52_blank_root_refuted : exists f h1,
  xbuild NoMaps (Func [] f) empty_heap = (h1, Ok ([], []))
  /\ paths 9 h1 0 false [] = Ok [lit "/A"].
Proof.
  exists (refs_prog [CPinp None; CGet 0 (lit "A")]). eexists. split; [vm_compute; reflexivity|vm_compute; reflexivity].
Qed.
Print Assumptions C52_blank_root_refuted.

(** Inputs of a component can repeat, those of an assembly cannot. *)
Example C52_repeats : exists f x,
  snd (xbuild NoMaps f empty_heap) = Ok ([x; x], [])
  /\ snd (xbuild NoMaps (Assembly [f]) empty_heap) = Ok ([x], []).
Proof.
  exists (Func (lit "f") (refs_prog [CInp (lit "f/A"); CPinp None; CGet 0 (lit "A")])), (lit "f/A").
  split; vm_compute; reflexivity.
Qed.
(** What a program sees of tags, locks and paths *)
Definition expect_done (k : cprog) (o : obs) : cprog := match o with Done => k | _ => CEnd (Raise AssertionError) end.
Definition note_paths (k : cprog) (o : obs) : cprog := match o with Listed [p] => CDo (COut p) (fun _ => k) | Listed [] => k | _ => CEnd (Raise AssertionError) end.
Example C52_seen :
  snd (xbuild NoMaps (Func (lit "f") (CDo (CPinp None) (fun _ => CDo (CGet 0 (lit "A")) (fun _ => CDo (CTag 1 [lit "t"]) (expect_done
    (CDo (CPaths 0 false (lit "t")) (note_paths (CDo (CUntag 1 (lit "t")) (expect_done (CDo (CPaths 0 false (lit "t")) (note_paths
    (CDo (CUntag 7 []) (expect_done (CEnd (Ok tt))))))))))))))) empty_heap) = Raise AssertionError
  /\ snd (xbuild NoMaps (Func (lit "f") (CDo (CPinp None) (fun _ => CDo (CGet 0 (lit "A")) (fun _ => CDo (CTag 1 [lit "t"]) (expect_done
    (CDo (CPaths 0 false (lit "t")) (note_paths (CDo (CUntag 1 (lit "t")) (expect_done (CDo (CPaths 0 false (lit "t")) (note_paths
    (CDo (CLocked 1 15) (expect_done (CEnd (Ok tt))))))))))))))) empty_heap) = Ok ([lit "f/A"], [lit "f/A"]).
Proof. split; vm_compute; reflexivity. Qed.

Example C52_by_hand_example :
  snd (build pystr ex_fullmatch ex_expand (fun _ => true) (fun _ => false) 9 (lit "c") NoMaps empty_heap
         (adding [inl (lit "/b"); inr (lit "/z"); inl (lit "/a"); inr (lit "/y")]))
  = Ok ([lit "/b"; lit "/a"], [lit "/z"; lit "/y"]).
Proof. vm_compute. reflexivity. Qed.
