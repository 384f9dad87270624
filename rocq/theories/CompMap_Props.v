(** * Properties of relocated and called components *)
From Coq Require Import String Lia.
From Verif Require Import PyBase PyBase_Proofs Json JsonPointer_Model JsonPointer_Spec JsonPointer_Props Paths_Model Paths_Spec
  Pmod_Model Pmod_Spec Pmod_Props Pstep_Model Pstep_Spec PstepPmod_Proofs Pstep_Proofs PstepTree_Proofs
  PstepHist_Proofs PstepPaths_Proofs Pstep_Props Comp_Model Comp_Spec CompShift_Proofs Comp_Proofs CompMap_Proofs
  CompCall_Proofs Comp_Props.

Section Components.
  Variable M : Type.
  Variable fullmatch : pystr -> pystr -> option M.
  Variable expand : M -> pystr -> res pystr.
  Variable compiles : pystr -> bool.
  Variable class_attr : pystr -> bool.
  Variable depth : nat.
  Notation run_prog := (run_prog M fullmatch expand compiles class_attr depth).
  Notation run_cmd := (run_cmd M fullmatch expand compiles class_attr depth).
  Notation build := (build M fullmatch expand compiles class_attr depth).
  Notation call := (call M fullmatch expand compiles class_attr depth).
  Notation exec := (exec M fullmatch expand compiles class_attr).
  Notation run := (run M fullmatch expand compiles class_attr).
  Notation map_path := (map_path M fullmatch expand).

  (** ** C80: relocation

      What a component lists with mappings are the mapped paths it lists without. *)
  Theorem C80_relocatable : forall name p h cs i o,
    plain_mappings M fullmatch expand (erase (h_cells h) p) -> allocated (h_cells h) p ->
    Forall (plain_ref name) cs ->
    snd (build name (MPmod p) h (straight cs)) = Ok (i, o) ->
    exists i0 o0, snd (build name NoMaps h (straight cs)) = Ok (i0, o0)
      /\ (forall x, In x i <-> exists y, In y i0 /\ map_path (erase (h_cells h) p) y = Ok x)
      /\ (forall x, In x o <-> exists y, In y o0 /\ map_path (erase (h_cells h) p) y = Ok x).
  Proof. exact (build_twin M fullmatch expand compiles class_attr depth). Qed.

  (** ** C81: calls

      The program called on the built component meets the steps it met when it was built:
      it makes no others, and lists no paths. *)
  Theorem C81_call : forall name pm os f st h i o, always exec no_loop empty_heap os -> only_refers f ->
    run_prog name pm (mkC (run empty_heap os) None None [] [] []) f = (st, Ok tt) ->
    build name pm (run empty_heap os) f = (h, Ok (i, o)) ->
    (forall v, In v (c_vars st) -> text_of h v <> []) ->
    forall vars, call name pm (mkC h (c_pinp st) (c_pout st) i o vars) f
      = (mkC h (c_pinp st) (c_pout st) i o (c_vars st), Ok tt).
  Proof.
    intros name pm os f st h i o NL R E B Nb vars.
    assert (G : good (run empty_heap os)).
    { apply (good_run M fullmatch expand compiles class_attr os empty_heap); auto. apply good_empty. }
    assert (V : valid (mkC (run empty_heap os) None None [] [] [])).
    { split; [exact G|]. cbn. intros j [H|H]; discriminate. }
    unfold Comp_Model.build in B. rewrite E in B. injection B as <- B.
    exact (proj2 (prog_again M fullmatch expand compiles class_attr depth name pm f _ st V R E) Nb i o).
  Qed.

  (** Roots are made at the first mention, named by the path then given or else by the
      component ... *)
  Theorem C81_first_root : forall name st path x,
    (forall p, path = Some p -> p <> [] -> x = p) -> (path = None \/ path = Some [] -> x = name) ->
    (c_pinp st = None -> exists st' j, run_cmd name NoMaps st (CPinp path) = (st', Seen x)
       /\ c_vars st' = c_vars st ++ [j] /\ c_pinp st' = Some j /\ c_pout st' = c_pout st
       /\ text_of (c_heap st') j = x /\ length (h_steps (c_heap st)) = j)
    /\ (c_pout st = None -> exists st' j, run_cmd name NoMaps st (CPout path) = (st', Seen x)
       /\ c_vars st' = c_vars st ++ [j] /\ c_pout st' = Some j /\ c_pinp st' = c_pinp st
       /\ text_of (c_heap st') j = x /\ length (h_steps (c_heap st)) = j).
  Proof.
    intros name st path x Hp Hn.
    assert (Ex : root_path name path = x).
    { destruct path as [[|a p]|]; cbn; [symmetry; apply Hn; auto|symmetry; apply Hp; [reflexivity|discriminate]|symmetry; apply Hn; auto]. }
    assert (Tx : forall s h, text_of (mkHeap (h_steps h ++ [s]) (h_dicts h) (h_cells h)) (length (h_steps h)) = s_text s).
    { intros s h. unfold text_of. cbn. now rewrite nth_error_snoc_new. }
    cbn [Comp_Model.run_cmd]. unfold run_pinp, run_pout. rewrite Ex. split; intros ->;
      unfold new_step, fresh_step, alloc_step; cbn; eexists _, _; (split; [f_equal; f_equal; apply Tx|]); cbn; repeat split; apply Tx.
  Qed.

  (** ... and are the same ever after, whatever path is given. *)
  Theorem C81_same_root : forall name pm st path j,
    (c_pinp st = Some j -> exists st', run_cmd name pm st (CPinp path) = (st', Seen (text_of (c_heap st) j))
       /\ c_vars st' = c_vars st ++ [j] /\ c_pinp st' = Some j /\ c_pout st' = c_pout st /\ c_heap st' = c_heap st)
    /\ (c_pout st = Some j -> exists st', run_cmd name pm st (CPout path) = (st', Seen (text_of (c_heap st) j))
       /\ c_vars st' = c_vars st ++ [j] /\ c_pout st' = Some j /\ c_pinp st' = c_pinp st /\ c_heap st' = c_heap st).
  Proof.
    intros name pm st path j. cbn [Comp_Model.run_cmd]. unfold run_pinp, run_pout. split; intros E; rewrite E; cbn;
      eexists; repeat split; auto.
  Qed.

  (** What the class of steps has is no reference: nothing is made of it. *)
  Theorem C81_class : forall name pm st v j a, nth_error (c_vars st) v = Some j -> class_attr a = true ->
    run_cmd name pm st (CGet v a) = (st, SeenClass).
  Proof.
    intros name pm st v j a Hv Ha. cbn [Comp_Model.run_cmd]. unfold on, getattr. rewrite Hv, Ha. now destruct st.
  Qed.
End Components.
Print Assumptions C81_class.
Print Assumptions C80_relocatable.
Print Assumptions C81_call.
Print Assumptions C81_first_root.
Print Assumptions C81_same_root.

(** The example of the documentation of [FuncComponent], with [.*] as regex. *)
Definition foobar : list cmd :=
  [CPinp None; CPout None; CGet 1 (lit "Acc"); CGet 0 (lit "V"); CGet 0 (lit "T")].
Definition foobar_name : pystr := lit "calc_foobar_rate".
Definition to_ab : pmod := Pmod None [] [(lit ".*", leaf (lit "/A/B"))].
Definition ab_heap : heap := mkHeap [] [] (snd (alloc_pmod to_ab [])).
Definition ab_maps : lpmod := fst (alloc_pmod to_ab []).
Notation fbuild := (build unit any_fullmatch any_expand (fun _ => true) (fun _ => false) 9).


Lemma plain_computes : forall n, (str_eqb n [] || str_eqb n (lit ".") || str_eqb n (lit "..")
  || existsb (N.eqb 47) n || negb (str_eqb (unescape_part n) n))%bool = false -> plain_name n.
Proof.
  intros n H. repeat (apply orb_false_iff in H; destruct H as [H ?]).
  assert (F : forall a b, str_eqb a b = false -> a <> b).
  { intros a b Hab ->. rewrite str_eqb_refl in Hab. discriminate. }
  split; [split; [|split]; apply F; auto|]. split.
  - intro Hin. match goal with H : existsb _ _ = false |- _ => rewrite <- not_true_iff_false, existsb_exists in H; apply H end. exists 47%N. auto.
  - apply C01_unescape_tokens. apply str_eqb_eq. now apply negb_false_iff.
Qed.

Lemma plain_to_ab : plain_mappings unit any_fullmatch any_expand to_ab.
Proof.
  split; [|split; [|split]].
  - assert (L : wf (leaf (lit "/A/B"))) by (constructor; cbn; try (constructor; fail); intros ? ? []).
    constructor; cbn; [constructor|repeat constructor; intros []|intros ? ? []|].
    intros ? ? [[= <- <-]|[]]. exact L.
  - reflexivity.
  - intros n x _ A. right. exists [lit "A"; lit "B"]. split; [discriminate|].
    assert (Ex : x = lit "/A/B").
    { remember (Ok (Some x)) as R eqn:ER. destruct A as [c a H H'|l1 r rp l2 m t H Hr Hm Ht Hl|]; [destruct H| |discriminate].
      destruct l1 as [|? [|]]; try discriminate. cbn in Hr. injection Hr as <- <- <-. injection Ht as <-. unfold any_expand in ER. injection ER as <-. reflexivity. }
    split; [|exact Ex]. repeat (apply Forall_cons; [apply plain_computes; reflexivity|]). apply Forall_nil.
  - intros n pm' names _ _ B. inversion B as [|ps cs q qs m Hm Hc Hq Ho]; subst; [constructor|].
    destruct Hc as [[c [[] _]]|[_ ->]]. rewrite app_nil_r in Hq. subst ps. cbn in Hm.
    inversion Hm as [|? ? ? ? _ Hm'|? ? ? ? _ Hm']; subst; inversion Hm'; subst.
    inversion Ho; subst. destruct names as [|a names]; constructor.
    + intros x A. inversion A as [c a' H H'|l1 r rp l2 m t H Hr Hm1 Ht Hl|]; subst; [destruct H|destruct l1; discriminate].
    + intros pm'' B'. inversion B' as [|ps cs q qs m Hm1 Hc Hq Ho']; subst; [constructor|].
      destruct Hc as [[c [[] _]]|[_ ->]]. cbn in Hm1. inversion Hm1; subst. discriminate.
Qed.

Example C80_example :
  pmods_from_tuples (fun _ => true) [(Some (lit "~.*"), Some (lit "/A/B"))] = Ok to_ab
  /\ plain_mappings unit any_fullmatch any_expand (erase (h_cells ab_heap) ab_maps)
  /\ allocated (h_cells ab_heap) ab_maps
  /\ Forall (plain_ref foobar_name) foobar
  /\ snd (fbuild foobar_name NoMaps ab_heap (straight foobar))
     = Ok ([foobar_name ++ lit "/T"; foobar_name ++ lit "/V"], [foobar_name ++ lit "/Acc"])
  /\ snd (fbuild foobar_name (MPmod ab_maps) ab_heap (straight foobar))
     = Ok ([lit "/A/B/T"; lit "/A/B/V"], [lit "/A/B/Acc"]).
Proof.
  destruct (alloc_spec to_ab [] _ _ (surjective_pairing _)) as [_ [A _]].
  split; [reflexivity|]. split; [|split; [exact A|]].
  - replace (erase (h_cells ab_heap) ab_maps) with to_ab by (vm_compute; reflexivity). exact plain_to_ab.
  - split; [|split; vm_compute; reflexivity].
    repeat (apply Forall_cons; [constructor; apply plain_computes; reflexivity|]); apply Forall_nil.
Qed.

(** An absolute path as alias below the root is not what the mappings say. *)
Theorem C80_absolute_refuted : exists p cs h1 x, 
  pmods_from_tuples (fun _ => true) [(Some (lit "r/a"), Some (lit "/y"))] = Ok p
  /\ Forall (plain_ref (lit "r")) cs
  /\ (let h := mkHeap [] [] (snd (alloc_pmod p [])) in
      snd (xbuild NoMaps (Func (lit "r") (straight cs)) h) = Ok ([x], [])
      /\ xbuild (MPmod (fst (alloc_pmod p []))) (Func (lit "r") (straight cs)) h = (h1, Ok ([lit "r//y/b"], []))
      /\ map_path pystr ex_fullmatch ex_expand p x = Ok (lit "/y/b")).
Proof.
  eexists _, [CPinp None; CGet 0 (lit "a"); CGet 1 (lit "b")], _, (lit "r/a/b"). split; [reflexivity|].
  split; [repeat (apply Forall_cons; [constructor; apply plain_computes; reflexivity|]); apply Forall_nil|]. cbn zeta.
  split; [vm_compute; reflexivity|]. split; vm_compute; reflexivity.
Qed.
Print Assumptions C80_absolute_refuted.

(** So is a relative one: the step above is not left. *)
Theorem C80_relative_refuted : exists p cs h1 x, 
  pmods_from_tuples (fun _ => true) [(Some (lit "r/a"), Some (lit "../y"))] = Ok p
  /\ Forall (plain_ref (lit "r")) cs
  /\ (let h := mkHeap [] [] (snd (alloc_pmod p [])) in
      snd (xbuild NoMaps (Func (lit "r") (straight cs)) h) = Ok ([x], [])
      /\ xbuild (MPmod (fst (alloc_pmod p []))) (Func (lit "r") (straight cs)) h = (h1, Ok ([lit "r/../y/b"], []))
      /\ map_path pystr ex_fullmatch ex_expand p x = Ok (lit "r/y/b")).
Proof.
  eexists _, [CPinp None; CGet 0 (lit "a"); CGet 1 (lit "b")], _, (lit "r/a/b"). split; [reflexivity|].
  split; [repeat (apply Forall_cons; [constructor; apply plain_computes; reflexivity|]); apply Forall_nil|]. cbn zeta.
  split; [vm_compute; reflexivity|]. split; vm_compute; reflexivity.
Qed.
Print Assumptions C80_relative_refuted.

(** ** Calls: examples *)
Notation xcall := (call pystr ex_fullmatch ex_expand (fun _ => true) (fun _ => false) 9).
Notation xprog := (run_prog pystr ex_fullmatch ex_expand (fun _ => true) (fun _ => false) 9).

Lemma straight_refers : forall cs, Forall ref_cmd cs -> only_refers (straight cs).
Proof.
  induction cs as [|c cs IH]; intro F; inversion F; subst; cbn [straight]; constructor; auto.
  intros []; try (apply IH; assumption). constructor.
Qed.

(** The component of the documentation, built and called. *)
Example C81_example :
  only_refers (straight foobar)
  /\ exists st, xprog foobar_name NoMaps (mkC (xrun empty_heap []) None None [] [] []) (straight foobar) = (st, Ok tt)
  /\ length (c_vars st) = 5
  /\ (forall v, In v (c_vars st) -> text_of (c_heap st) v <> [])
  /\ exists i o, build pystr ex_fullmatch ex_expand (fun _ => true) (fun _ => false) 9 foobar_name NoMaps (xrun empty_heap []) (straight foobar)
       = (c_heap st, Ok (i, o))
  /\ length i = 2 /\ length o = 1
  /\ xcall foobar_name NoMaps (mkC (c_heap st) (c_pinp st) (c_pout st) i o []) (straight foobar)
     = (mkC (c_heap st) (c_pinp st) (c_pout st) i o (c_vars st), Ok tt).
Proof.
  split; [apply straight_refers; repeat constructor|]. eexists. split; [vm_compute; reflexivity|].
  split; [reflexivity|]. split.
  - cbn [c_vars c_heap]. intros v H. repeat (destruct H as [<-|H]; [vm_compute; discriminate|]). destruct H.
  - eexists _, _. split; [vm_compute; reflexivity|]. split; [reflexivity|]. split; [reflexivity|]. vm_compute. reflexivity.
Qed.

(** Paths added by hand, as the documentation tells to, are added again by each call. *)
Theorem C81_by_hand_refuted : exists f st h i,
  xprog (lit "f") NoMaps (mkC empty_heap None None [] [] []) f = (st, Ok tt)
  /\ build pystr ex_fullmatch ex_expand (fun _ => true) (fun _ => false) 9 (lit "f") NoMaps empty_heap f = (h, Ok ([i], []))
  /\ xcall (lit "f") NoMaps (mkC h (c_pinp st) (c_pout st) [i] [] []) f
     = (mkC h (c_pinp st) (c_pout st) [i; i] [] [], Ok tt).
Proof.
  exists (straight [CInp (lit "fixed")]). eexists _, _, (lit "fixed"). split; [vm_compute; reflexivity|].
  split; vm_compute; reflexivity.
Qed.
Print Assumptions C81_by_hand_refuted.
