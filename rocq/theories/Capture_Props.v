(** * Properties C19-C26, C57, C58: margins, targeting, expansions and capturing *)
From Coq Require Import String.
From Verif Require Import PyBase PyBase_Proofs Coords_Model Coords_Spec ExpMoves_Model Capture_Model Capture_Spec
  Target_Proofs Expand_Proofs Capture_Proofs.
Open Scope Z_scope.

(** The sheet of the docstrings, _capture.py:696-702. *)
Definition sample : mat := mat_of
  [ [0; 0; 0; 0; 0; 0];
    [0; 0; 0; 0; 0; 0];
    [0; 0; 0; 1; 1; 1];
    [0; 0; 1; 0; 0; 1];
    [0; 0; 1; 1; 1; 1] ].

Lemma sample_margin : is_margin sample (4, 5).
Proof. exact (margin_coords_margin sample). Qed.

(** ** C19 *)

Theorem C19_tight_box : forall m, (exists p, full m p) ->
  bounding_box m (fst (margin_coords m)) (snd (margin_coords m)).
Proof. intros m (p & H). exact (margin_coords_full m p H). Qed.
Print Assumptions C19_tight_box.

Theorem C19_empty : forall m, (forall p, ~ full m p) -> margin_coords m = ((0, 0), (0, 0)).
Proof. exact margin_coords_empty. Qed.
Print Assumptions C19_empty.

(** The margins serve all what follows. *)
Theorem C19_is_margin : forall m, is_margin m (snd (margin_coords m)).
Proof. exact margin_coords_margin. Qed.
Print Assumptions C19_is_margin.

Example C19_example : margin_coords sample = ((2, 2), (4, 5)) /\ (exists p, full sample p)
  /\ margin_coords (mat_of [[0; 0]]) = ((0, 0), (0, 0)).
Proof.
  split; [reflexivity|]. split; [|reflexivity]. exists (2, 3). repeat split; cbn; lia.
Qed.

(** ** C20 *)

Theorem C20_first_full : forall m dn p moves, good_moves moves -> is_margin m dn -> 0 <= fst p -> 0 <= snd p ->
  forall t, target_opposite m dn p moves = Ok t <-> first_full m moves p t.
Proof.
  intros m dn p moves Hg Hm Hr Hc t.
  destruct (target_opposite_spec m dn p moves Hg Hm Hr Hc) as [(t' & E & Ht)|[E Ht]]; rewrite E; split; intro H.
  - injection H as <-. exact Ht.
  - f_equal. eapply first_full_unique; eassumption.
  - discriminate.
  - exfalso. exact (first_not_none _ _ _ _ H Ht).
Qed.
Print Assumptions C20_first_full.

Theorem C20_empty_capture : forall m dn p moves, good_moves moves -> is_margin m dn -> 0 <= fst p -> 0 <= snd p ->
  (target_opposite m dn p moves = Raise EmptyCapture <-> none_full m moves p).
Proof.
  intros m dn p moves Hg Hm Hr Hc.
  destruct (target_opposite_spec m dn p moves Hg Hm Hr Hc) as [(t' & E & Ht)|[E Ht]]; rewrite E; split; intro H; auto.
  - discriminate.
  - exfalso. exact (first_not_none _ _ _ _ Ht H).
Qed.
Print Assumptions C20_empty_capture.

(** No other error and no endless loop, whatever the landing. *)
Theorem C20_no_other_outcome : forall m dn p moves e, good_moves moves -> is_margin m dn ->
  target_opposite m dn p moves = Raise e -> e = EmptyCapture.
Proof.
  intros m dn p moves e Hg Hm H.
  destruct (Z_lt_le_dec (fst p) 0) as [Hr|Hr].
  { rewrite target_opposite_negative in H; [congruence|exact Hg|apply Hm|apply Hm|lia]. }
  destruct (Z_lt_le_dec (snd p) 0) as [Hc|Hc].
  { rewrite target_opposite_negative in H; [congruence|exact Hg|apply Hm|apply Hm|lia]. }
  destruct (target_opposite_spec m dn p moves Hg Hm Hr Hc) as [(t' & E & Ht)|[E Ht]]; congruence.
Qed.
Print Assumptions C20_no_other_outcome.

Theorem C20_negative_landing : forall m dn p moves, good_moves moves -> is_margin m dn ->
  fst p < 0 \/ snd p < 0 -> target_opposite m dn p moves = Raise EmptyCapture.
Proof. intros m dn p moves Hg (H1 & H2 & _). exact (target_opposite_negative m dn p moves Hg H1 H2). Qed.
Print Assumptions C20_negative_landing.

Example C20_example :
  good_moves [dD; dR] /\ is_margin sample (4, 5)
  /\ target_opposite sample (4, 5) (0, 0) [dD; dR] = Ok (3, 2)
  /\ target_opposite sample (4, 5) (0, 0) [dR; dD] = Ok (2, 3)
  /\ target_opposite sample (4, 5) (10, 5) [dL; dU] = Ok (4, 5)
  /\ target_opposite sample (4, 5) (10, 10) [dU; dL] = Ok (4, 5)
  /\ target_opposite sample (4, 5) (0, 0) [dR] = Raise EmptyCapture
  /\ target_opposite sample (4, 5) (3, 10) [dL] = Ok (3, 5)
  /\ none_full sample [dR] (0, 0).
Proof.
  assert (G : good_moves [dD; dR]).
  { constructor. left. split; [right; reflexivity|intros [H|H]; discriminate]. }
  split; [exact G|]. split; [exact sample_margin|]. repeat (split; [reflexivity|]).
  apply (C20_empty_capture sample (4, 5) (0, 0) [dR]); [constructor|exact sample_margin|cbn; lia|cbn; lia|reflexivity].
Qed.

(** ** C21 *)

Theorem C21_end_of_runs : forall m dn p moves, good_moves moves -> is_margin m dn -> full m p ->
  forall t, target_same m dn p moves = Ok t <-> ends_same m p moves t.
Proof.
  intros m dn p moves Hg Hm Hf t. destruct (ends_same_target m dn p moves Hg Hm Hf) as (t' & E & Ht). rewrite E. split.
  - intro H. injection H as <-. exact Ht.
  - intro H. f_equal. eapply ends_same_unique; eassumption.
Qed.
Print Assumptions C21_end_of_runs.

Theorem C21_always_succeeds : forall m dn p moves, good_moves moves -> is_margin m dn -> full m p ->
  exists t, target_same m dn p moves = Ok t.
Proof. intros m dn p moves Hg Hm Hf. destruct (ends_same_target m dn p moves Hg Hm Hf) as (t & E & _). eauto. Qed.
Print Assumptions C21_always_succeeds.

Theorem C21_order_irrelevant : forall m dn p a b, perpendicular a b -> is_margin m dn -> full m p ->
  target_same m dn p [a; b] = target_same m dn p [b; a].
Proof.
  intros m dn p a b Hp Hm Hf.
  assert (Hp' : perpendicular b a) by (unfold perpendicular in *; tauto).
  destruct (ends_same_target m dn p [a; b] (Gm_two a b Hp) Hm Hf) as (t & E & Ht).
  destruct (ends_same_target m dn p [b; a] (Gm_two b a Hp') Hm Hf) as (t' & E' & Ht').
  rewrite E, E'. f_equal. apply ends_same_swap in Ht. eapply ends_same_unique; eassumption.
Qed.
Print Assumptions C21_order_irrelevant.

(** From an empty cell it refuses. *)
Theorem C21_not_from_empty : forall m dn p moves, 0 <= fst p -> 0 <= snd p -> ~ full m p ->
  target_same m dn p moves = Raise EmptyCapture \/ target_same m dn p moves = Raise IndexError.
Proof. exact target_same_empty. Qed.
Print Assumptions C21_not_from_empty.

Example C21_example : full sample (4, 5)
  /\ target_same sample (4, 5) (4, 5) [dU; dL] = Ok (2, 2)
  /\ target_same sample (4, 5) (2, 5) [dL; dD] = Ok (4, 3)
  /\ run_end sample dU (4, 5) (2, 5).
Proof.
  split; [repeat split; cbn; lia|]. split; [reflexivity|]. split; [reflexivity|].
  exists 2%nat. split; [reflexivity|]. split.
  - intros i Hi. destruct i as [|[|[|i]]]; [| | |lia]; repeat split; cbn; lia.
  - intros (_ & _ & H). discriminate.
Qed.

(** ** C22 *)

(** [expand_rect] always returns, or complains about the moves. *)
Theorem C22_terminates : forall m a b em,
  (exists st nd, expand_rect m a b em = Ok (st, nd) /\ fst st <= fst nd /\ snd st <= snd nd)
  \/ (expand_rect m a b em = Raise ValueError /\ parse_expansion_moves em = Raise ValueError).
Proof.
  intros m a b em. destruct (expand_rect_cases m a b em) as [[E1 E2]|(gs & x & E1 & [S1 S2] & E2 & _)].
  - right. auto.
  - left. do 2 eexists. split; [exact E2|]. auto.
Qed.
Print Assumptions C22_terminates.

Definition spanned (a b : coords) : rect :=
  Rect (Z.min (fst a) (fst b)) (Z.max (fst a) (fst b)) (Z.min (snd a) (snd b)) (Z.max (snd a) (snd b)).

(** It does what the groups of moves say, group by group. *)
Theorem C22_does_the_groups : forall m a b em st nd,
  0 <= fst a -> 0 <= snd a -> 0 <= fst b -> 0 <= snd b ->
  expand_rect m a b em = Ok (st, nd) ->
  exists gs, parse_expansion_moves em = Ok (groups_of gs)
    /\ groups_expand m gs (spanned a b) (Rect (fst st) (fst nd) (snd st) (snd nd)).
Proof.
  intros m a b em st nd H1 H2 H3 H4 H. destruct (expand_rect_cases m a b em) as [[E1 E2]|(gs & x & E1 & S & E2 & Hx)].
  - congruence.
  - rewrite E2 in H. injection H as <- <-. exists gs. split; [exact E1|]. cbn [fst snd]. destruct x. apply Hx; assumption.
Qed.
Print Assumptions C22_does_the_groups.

(** It grows line by line, only towards the directions asked for and only onto data;
    so it contains the original and each side that moved is inside the sheet. *)
Theorem C22_grows_onto_data : forall m gs x y, groups_expand m gs x y -> grows m (flat_map fst gs) x y.
Proof. exact groups_grow. Qed.
Print Assumptions C22_grows_onto_data.

Theorem C22_contains : forall m ds x y, grows m ds x y -> forall p, inside p x -> inside p y.
Proof. exact grows_contains. Qed.
Print Assumptions C22_contains.

Theorem C22_directions : forall m ds x y d, grows m ds x y ->
  0 <= lines_added d x y /\ (~ In d ds -> lines_added d x y = 0).
Proof. exact grows_sides. Qed.
Print Assumptions C22_directions.

Theorem C22_in_sheet : forall m ds x y d, grows m ds x y -> lines_added d x y = 0 \/ side_inside m d y.
Proof. exact grows_in_sheet. Qed.
Print Assumptions C22_in_sheet.

Example C22_example :
  expand_rect sample (2, 3) (3, 2) (lit "U1RD") = Ok ((2, 2), (4, 5))
  /\ parse_expansion_moves (lit "U1RD") = Ok (groups_of [([dU], Some 1); ([dR; dD], None)])
  /\ expand_rect sample (0, 0) (0, 0) (lit "RD") = Ok ((0, 0), (0, 0))
  /\ expand_rect sample (3, 3) (3, 3) (lit "LURD") = Ok ((2, 2), (4, 5))
  /\ expand_rect sample (3, 3) (3, 3) (lit "LU1") = Ok ((2, 2), (3, 3))
  /\ expand_rect sample (3, 3) (3, 3) (lit "?") = Raise ValueError.
Proof. repeat split; vm_compute; reflexivity. Qed.

(** ** C23 *)

Theorem C23_fixpoint : forall m ds x y, group_expands m (ds, None) x y ->
  forall d, In d ds -> ~ data_beside m d y.
Proof.
  intros m ds x y H. inversion H; subst. apply one_round_same. assumption.
Qed.
Print Assumptions C23_fixpoint.

Theorem C23_count : forall m ds n x y d, 0 <= n -> group_expands m (ds, Some n) x y ->
  0 <= lines_added d x y <= n * Z.of_nat (count_occ dir_eq_dec ds d).
Proof.
  intros m ds n x y d Hn H. inversion H; subst. apply n_rounds_lines with (d := d) in H4. lia.
Qed.
Print Assumptions C23_count.

(** The model obeys that vocabulary. *)
Theorem C23_model_group : forall m x ds n, sorted x -> positive x ->
  exists y, expand_group m x (map dir_letter ds, n) = Ok y /\ group_expands m (ds, n) x y.
Proof.
  intros m x ds n S P. destruct (expand_group_total m x ds n) as (y & E). exists y. split; [exact E|].
  eapply expand_group_spec; eassumption.
Qed.
Print Assumptions C23_model_group.

Example C23_example :
  expand_group sample (Rect 3 3 3 3) (lit "RD", None) = Ok (Rect 3 4 3 5)
  /\ expand_group sample (Rect 4 4 2 2) (lit "R", Some 2) = Ok (Rect 4 4 2 4)
  /\ expand_group sample (Rect 4 4 2 2) (lit "R", Some 7) = Ok (Rect 4 4 2 5)
  /\ data_beside sample dU (Rect 3 4 3 5).
Proof.
  repeat (split; [reflexivity|]). exists (2, 3). split; [repeat split; cbn; lia|].
  unfold inside; cbn; lia.
Qed.

(** ** C24 *)

Theorem C24_sorted_or_refused : forall m u dn e1 e2 em base,
  good_edge e1 -> good_edge e2 -> is_margin m dn ->
  (exists st nd, resolve_capture_rect m (u, dn) e1 (Some e2) em base = Ok (st, Some nd)
                 /\ fst st <= fst nd /\ snd st <= snd nd)
  \/ resolve_capture_rect m (u, dn) e1 (Some e2) em base = Raise EmptyCapture
  \/ resolve_capture_rect m (u, dn) e1 (Some e2) em base = Raise ValueError.
Proof.
  intros m u dn e1 e2 em base H1 H2 Hm.
  pose proof (capture_outcome m u dn e1 (Some e2) em base H1) as H.
  specialize (H ltac:(intros e E; injection E as <-; exact H2) Hm).
  destruct (resolve_capture_rect m (u, dn) e1 (Some e2) em base) as [[st [nd|]]|x].
  - left. eauto.
  - destruct H; discriminate.
  - right. destruct H as [->| ->]; auto.
Qed.
Print Assumptions C24_sorted_or_refused.

(** With one edge: a cell, or a sorted rect if there are expansions. *)
Theorem C24_one_edge : forall m u dn e1 em base, good_edge e1 -> is_margin m dn ->
  match resolve_capture_rect m (u, dn) e1 None em base with
  | Ok (st, Some nd) => fst st <= fst nd /\ snd st <= snd nd
  | Ok (st, None) => em = None \/ em = Some []
  | Raise x => x = EmptyCapture \/ x = ValueError
  end.
Proof.
  intros m u dn e1 em base H1 Hm. pose proof (capture_outcome m u dn e1 None em base H1) as H.
  specialize (H ltac:(discriminate) Hm). destruct (resolve_capture_rect _ _ _ _ _ _) as [[st [nd|]]|x]; auto. apply H.
Qed.
Print Assumptions C24_one_edge.

Definition A1cell (r c : string) : cell := Cell (CStr (lit r)) (CStr (lit c)).
Example C24_example :
  resolve_capture_rect sample ((2, 2), (4, 5)) (Edge (A1cell "1" "A") (Some (lit "DR")) None)
    (Some (Edge (A1cell "." ".") (Some (lit "DR")) None)) None None = Ok ((3, 2), Some (4, 2))
  /\ resolve_capture_rect sample ((2, 2), (4, 5)) (Edge (A1cell "_" "_") None None)
    (Some (Edge (A1cell "." ".") (Some (lit "UL")) None)) None None = Ok ((2, 2), Some (4, 5))
  /\ resolve_capture_rect sample ((2, 2), (4, 5)) (Edge (A1cell "^" "_") (Some (lit "L")) None)
    (Some (Edge (A1cell "_" "_") (Some (lit "L")) (Some (lit "+")))) None None = Ok ((2, 2), Some (4, 5))
  /\ resolve_capture_rect sample ((2, 2), (4, 5)) (Edge (A1cell "1" "A") (Some (lit "R")) None)
    (Some (Edge (A1cell "." ".") None None)) None None = Raise EmptyCapture
  /\ resolve_capture_rect sample ((2, 2), (4, 5)) (Edge (A1cell "." "A") None None)
    (Some (Edge (A1cell "." ".") None None)) None None = Raise ValueError
  /\ resolve_capture_rect sample ((2, 2), (4, 5)) (Edge (A1cell "3" "D") None None) None (Some (lit "RD")) None
     = Ok ((2, 3), Some (4, 5))
  /\ good_edge (Edge (A1cell "1" "A") (Some (lit "DR")) None).
Proof.
  repeat (split; [vm_compute; reflexivity|]). right. exists [dD; dR]. split; [reflexivity|].
  constructor. left. split; [right; reflexivity|intros [H|H]; discriminate].
Qed.

(** ** C25 *)

Theorem C25_plain_edges : forall m u dn c c' mod1 mod2 base p q,
  resolve_cell c u dn base = Ok p -> resolve_cell c' u dn (Some p) = Ok q ->
  exists st nd, resolve_capture_rect m (u, dn) (Edge c None mod1) (Some (Edge c' None mod2)) None base = Ok (st, Some nd)
    /\ forall t, (fst st <= fst t <= fst nd /\ snd st <= snd t <= snd nd) <-> inside t (spanned p q).
Proof.
  intros m u dn c c' mod1 mod2 base p q H1 H2. do 2 eexists. split; [apply capture_plain; eassumption|].
  intro t. reflexivity.
Qed.
Print Assumptions C25_plain_edges.

Theorem C25_dependent_2nd_edge : forall m u dn e1 mod2 c base st, dependent c ->
  capture_st m (u, dn) e1 base = Ok st ->
  resolve_capture_rect m (u, dn) e1 (Some (Edge c None mod2)) None base = Ok (st, Some st).
Proof. exact capture_dependent. Qed.
Print Assumptions C25_dependent_2nd_edge.

Example C25_example :
  resolve_capture_rect sample ((2, 2), (4, 5)) (Edge (A1cell "4" "F") None None)
    (Some (Edge (A1cell "2" "B") None None)) None None = Ok ((1, 1), Some (3, 5))
  /\ dependent (A1cell "." ".") /\ inside (2, 4) (spanned (3, 5) (1, 1)).
Proof. split; [reflexivity|]. split; [split; reflexivity|]. unfold inside. cbn. lia. Qed.

(** ** C57: the documented table *)

Theorem C57_first_edge : forall m u dn e base ds p, mov e = Some (moves_text ds) -> good_moves ds ->
  is_margin m dn -> resolve_cell (land e) u dn base = Ok p -> 0 <= fst p -> 0 <= snd p ->
  enacts m ds (mod_ e = Some (lit "+")) p (capture_st m (u, dn) e base).
Proof. exact capture_st_enacts. Qed.
Print Assumptions C57_first_edge.

Theorem C57_second_edge : forall m u dn e st ds p, mov e = Some (moves_text ds) -> good_moves ds ->
  good_mod (mod_ e) -> is_margin m dn -> resolve_cell (land e) u dn (Some st) = Ok p -> 0 <= fst p -> 0 <= snd p ->
  enacts m ds (mod_ e = Some (lit "+") \/ (mod_ e = None /\ dependent (land e))) p (capture_nd m (u, dn) e st).
Proof. exact capture_nd_enacts. Qed.
Print Assumptions C57_second_edge.

(** That table leaves no choice. *)
Theorem C57_table_is_a_function : forall m ds same p x y, enacts m ds same p x -> enacts m ds same p y -> x = y.
Proof.
  intros m ds same p x y H H'. inversion H; subst; inversion H'; subst; try contradiction; try reflexivity.
  - f_equal. eapply first_full_unique; eassumption.
  - exfalso. eapply first_not_none; eassumption.
  - exfalso. eapply first_not_none; eassumption.
  - f_equal. eapply ends_same_unique; eassumption.
Qed.
Print Assumptions C57_table_is_a_function.

Example C57_example :
  capture_st sample ((2, 2), (4, 5)) (Edge (A1cell "3" "F") (Some (lit "LD")) (Some (lit "+"))) None = Ok (4, 3)
  /\ capture_st sample ((2, 2), (4, 5)) (Edge (A1cell "3" "F") (Some (lit "LD")) None) None = Ok (2, 5)
  /\ capture_nd sample ((2, 2), (4, 5)) (Edge (A1cell "." ".") (Some (lit "LD")) None) (2, 5) = Ok (4, 3)
  /\ capture_nd sample ((2, 2), (4, 5)) (Edge (A1cell "." ".") (Some (lit "LD")) (Some (lit "?"))) (2, 5) = Ok (2, 5)
  /\ capture_nd sample ((2, 2), (4, 5)) (Edge (A1cell "." "F") (Some (lit "LD")) None) (2, 5) = Ok (2, 5)
  /\ moves_text [dL; dD] = lit "LD" /\ good_mod (Some (lit "?")) /\ good_mod None.
Proof. repeat (split; [reflexivity|]). unfold good_mod. auto. Qed.

(** ** C26 *)

(** Without modifier, a full landing is not moved to the end of its run. *)
Theorem C26_full_landing_stays_refuted : exists m e p q,
  mov e = Some (lit "R") /\ mod_ e = None /\ resolve_cell (land e) (0, 0) (0, 2) None = Ok p
  /\ margin_coords m = ((0, 0), (0, 2)) /\ full m p /\ run_end m dR p q /\ q <> p
  /\ capture_st m (margin_coords m) e None = Ok p.
Proof.
  exists (mat_of [[1; 1; 1]]), (Edge (A1cell "1" "A") (Some (lit "R")) None), (0, 0), (0, 2).
  repeat (split; [reflexivity|]). split; [repeat split; cbn; lia|]. split; [|split; [discriminate|reflexivity]].
  exists 2%nat. split; [reflexivity|]. split.
  - intros i Hi. destruct i as [|[|[|i]]]; [| | |lia]; repeat split; cbn; lia.
  - intros (_ & H & _). cbn in H. lia.
Qed.
Print Assumptions C26_full_landing_stays_refuted.

(** With a question-mark, an empty landing is searched all the same; with a plus, a full landing does move. *)
Theorem C26_modifiers_refuted :
  (exists m e t, mod_ e = Some (lit "?") /\ resolve_cell (land e) (0, 0) (0, 2) None = Ok (0, 0)
     /\ ~ full m (0, 0) /\ capture_st m (margin_coords m) e None = Ok t)
  /\ exists m e t, mod_ e = Some (lit "+") /\ resolve_cell (land e) (0, 0) (0, 2) None = Ok (0, 0)
     /\ full m (0, 0) /\ t <> (0, 0) /\ capture_st m (margin_coords m) e None = Ok t.
Proof.
  split.
  - exists (mat_of [[0; 1; 1]]), (Edge (A1cell "1" "A") (Some (lit "R")) (Some (lit "?"))), (0, 1).
    repeat (split; [reflexivity|]). split; [|reflexivity]. intros (_ & _ & H). discriminate.
  - exists (mat_of [[1; 1; 1]]), (Edge (A1cell "1" "A") (Some (lit "R")) (Some (lit "+"))), (0, 2).
    repeat (split; [reflexivity|]). split; [repeat split; cbn; lia|]. split; [discriminate|reflexivity].
Qed.
Print Assumptions C26_modifiers_refuted.

(** What holds: whenever the 1st edge has moves, the captured cell is full. *)
Theorem C26_captured_cell_is_full : forall m u dn e base ds p t, mov e = Some (moves_text ds) -> good_moves ds ->
  is_margin m dn -> resolve_cell (land e) u dn base = Ok p -> 0 <= fst p -> 0 <= snd p ->
  capture_st m (u, dn) e base = Ok t -> length ds = 1%nat \/ mod_ e <> Some (lit "+") -> full m t.
Proof.
  intros m u dn e base ds p t E Hg Hm Hp Hr Hc H Hl.
  pose proof (capture_st_enacts m u dn e base ds p E Hg Hm Hp Hr Hc) as En. rewrite H in En.
  inversion En as [t' Hn Hf|Hn Hf|Hf Hs|t' Hf Hs He]; subst.
  - destruct Hf as (j & i & _ & Hf & _). exact Hf.
  - exact Hf.
  - inversion He as [a t' R|a b qa qb V1 V2 Ra Rb|a b qa qb V1 V2 Ra Rb]; subst.
    + destruct R as (n & -> & R & _). apply R. lia.
    + destruct Hl as [Hl|Hl]; [discriminate|contradiction].
    + destruct Hl as [Hl|Hl]; [discriminate|contradiction].
Qed.
Print Assumptions C26_captured_cell_is_full.

(** The corner of two runs may be empty. *)
Theorem C26_corner_may_be_empty_refuted : exists m e t, mod_ e = Some (lit "+")
  /\ capture_st m (margin_coords m) e None = Ok t /\ ~ full m t.
Proof.
  exists (mat_of [[1; 1]; [1; 0]]), (Edge (A1cell "1" "A") (Some (lit "RD")) (Some (lit "+"))), (1, 1).
  split; [reflexivity|]. split; [reflexivity|]. intros (_ & _ & H). discriminate.
Qed.
Print Assumptions C26_corner_may_be_empty_refuted.

Example C26_example :
  capture_st sample ((2, 2), (4, 5)) (Edge (A1cell "1" "A") (Some (lit "DR")) None) None = Ok (3, 2)
  /\ full sample (3, 2).
Proof. split; [reflexivity|]. repeat split; cbn; lia. Qed.

(** ** C58: a landing before the sheet's start *)

(** A negative landing is taken for the cell it wraps to, so that moves are
    not enacted and the negative coordinates are captured. *)
Theorem C58_negative_landing_refuted : exists m e p, mov e = Some (lit "R")
  /\ resolve_cell (land e) (fst (margin_coords m)) (snd (margin_coords m)) None = Ok p /\ fst p < 0
  /\ land e = A1cell "-3" "A" /\ capture_st m (margin_coords m) e None = Ok p.
Proof.
  exists (mat_of [[0; 0]; [1; 1]]), (Edge (A1cell "-3" "A") (Some (lit "R")) None), (-1, 0).
  repeat (split; [reflexivity|]). reflexivity.
Qed.
Print Assumptions C58_negative_landing_refuted.

(** Beyond the other end of the sheet the landing is empty, as it should. *)
Theorem C58_landing_beyond_end : forall m u dn e base ds p, mov e = Some (moves_text ds) -> good_moves ds ->
  is_margin m dn -> resolve_cell (land e) u dn base = Ok p -> 0 <= fst p -> 0 <= snd p ->
  Z.of_nat (rows m) <= fst p \/ Z.of_nat (cols m) <= snd p ->
  (exists t, capture_st m (u, dn) e base = Ok t /\ first_full m ds p t)
  \/ (capture_st m (u, dn) e base = Raise EmptyCapture /\ none_full m ds p).
Proof.
  intros m u dn e base ds p E Hg Hm Hp Hr Hc Hb.
  pose proof (capture_st_enacts m u dn e base ds p E Hg Hm Hp Hr Hc) as En.
  assert (Hn : ~ full m p) by (intros (F1 & F2 & _); lia).
  inversion En as [t' Hn' Hf Et|Hn' Hf Et|Hf Hs Et|t' Hf Hs He Et]; try contradiction; [left; eauto|right; auto].
Qed.
Print Assumptions C58_landing_beyond_end.

(** A negative landing never reaches a cell of the sheet wrongly by search-opposite. *)
Theorem C58_negative_and_wrapped_empty : forall m u dn e base ds p, mov e = Some (moves_text ds) -> good_moves ds ->
  is_margin m dn -> resolve_cell (land e) u dn base = Ok p -> fst p < 0 \/ snd p < 0 ->
  state_at m p = false -> capture_st m (u, dn) e base = Raise EmptyCapture.
Proof.
  intros m u dn e base ds p E Hg Hm Hp Hn Hs. rewrite (capture_st_go m u dn e base ds p E Hp). unfold go. rewrite Hs.
  apply target_opposite_negative; [exact Hg|apply Hm|apply Hm|exact Hn].
Qed.
Print Assumptions C58_negative_and_wrapped_empty.

Example C58_example :
  capture_st sample ((2, 2), (4, 5)) (Edge (A1cell "9" "F") (Some (lit "U")) None) None = Ok (4, 5)
  /\ capture_st sample ((2, 2), (4, 5)) (Edge (A1cell "9" "F") (Some (lit "R")) None) None = Raise EmptyCapture.
Proof. split; reflexivity. Qed.
