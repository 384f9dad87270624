(** * The cells that xl-refs stand for: proofs *)
From Coq Require Import String.
From Verif Require Import PyBase PyBase_Proofs Json Coords_Model Coords_Spec Coords_Proofs ExpMoves_Model ExpMoves_Spec ExpMoves_Props.
From Verif Require Import Capture_Model Capture_Spec Capture_Proofs Expand_Proofs Target_Proofs Capture_Props Parse_Model Parse_Spec Parse_Proofs Xlref_Proofs Parse_Props.
From Verif Require Import ReadRect_Model ReadRect_Spec Whole_Spec Meaning_Spec.
Open Scope Z_scope.

Definition nonneg (p : coords) : Prop := 0 <= fst p /\ 0 <= snd p.

Lemma cell_column : forall dot t c, cell_text dot t c -> c_col c <> CStr [].
Proof.
  intros dot t c [col row H _|r c0 row col _ _ _ H]; cbn [c_col]; intros E; injection E as E.
  - destruct H as [(N & _)|[ -> |[ -> |(_ & -> )]]]; try discriminate E. apply N. destruct col; [reflexivity|discriminate E].
  - destruct H as [(d & t0 & -> & _)|[(t0 & -> & _)|[ -> |[ -> |(_ & -> )]]]]; discriminate E.
Qed.

(** What is known of edges that are written *)
Definition written (e : edge) : Prop := good_edge e /\ good_mod (mod_ e) /\ c_col (land e) <> CStr [].
Lemma edge_written : forall dot t e, edge_text dot t e -> written e.
Proof.
  intros dot t e H. destruct (edge_good _ _ _ H) as (A & B & _). split; [exact A|]. split; [exact B|].
  destruct H as [t c H|t c ds mv md o H _ _ _]; exact (cell_column _ _ _ H).
Qed.
Lemma frag_body : forall t f, frag_text t f -> exists b, body_text b f.
Proof. intros t f [sp b f' _ H _|sp n b f' _ _ H _]; exists b; exact H. Qed.
Lemma frag_edges : forall t f, frag_text t f -> exists e, meant_st f = Some e /\ written e /\ forall e', meant_nd f = Some e' -> written e'.
Proof.
  intros t f H. destruct (frag_body t f H) as (b & B).
  assert (exists e, meant_st f = Some e) as (e & E) by (unfold meant_st; destruct (f_st f); eauto).
  exists e. split; [exact E|]. split.
  - destruct (meant_edges b f e B (or_introl E)) as (d & t' & T). exact (edge_written _ _ _ T).
  - intros e' E'. destruct (meant_edges b f e' B (or_intror E')) as (d & t' & T). exact (edge_written _ _ _ T).
Qed.
Lemma frag_expansion : forall t f em, frag_text t f -> f_exp f = Some em -> em <> [] /\ only_of exp_char em.
Proof.
  intros t f em H E. destruct (frag_body t f H) as (b & B). destruct B as [sh a st e fl _ _|sh a st b nd em' e fl _ B _]; cbn [f_exp] in E; [discriminate E|].
  subst em'. inversion B as [t' nd' u em' _ U E1 E2]. subst. destruct U as (_ & N & O). auto.
Qed.

(** ** Landings *)

Lemma lands_iff : forall up dn base c p, c_col c <> CStr [] -> (lands up dn base c p <-> resolve_cell c up dn base = Ok p).
Proof. intros up dn base c [r k] H. rewrite resolve_cell_spec by exact H. reflexivity. Qed.
Lemma lands_nowhere : forall up dn base c, c_col c <> CStr [] -> ((forall p, ~ lands up dn base c p) <-> resolve_cell c up dn base = Raise ValueError).
Proof.
  intros up dn base c H. destruct (resolve_cell c up dn base) as [p|e] eqn:E.
  - split; [|discriminate]. intros F. destruct (F p). apply lands_iff; assumption.
  - rewrite (resolve_cell_raise _ _ _ _ _ E). split; [reflexivity|]. intros _ p L. apply (lands_iff _ _ _ _ _ H) in L. congruence.
Qed.
Lemma lands_nonneg : forall up dn base e p, written e -> nonneg up -> nonneg dn -> (forall b, base = Some b -> nonneg b) ->
  within dn e -> lands up dn base (land e) p -> nonneg p.
Proof.
  intros up dn base e [r k] (_ & _ & C) (U1 & U2) (D1 & D2) B (W1 & W2) L. apply (lands_iff _ _ _ _ _ C) in L.
  destruct (resolve_cell_nonneg _ _ _ _ _ _ U1 U2 D1 D2 B C L) as ([A|(z & Z1 & Z2)] & [A'|(z' & Z1' & Z2')]); split; cbn [fst snd]; try assumption.
  - specialize (W2 _ Z1'). lia.
  - specialize (W1 _ Z1). lia.
  - specialize (W1 _ Z1). lia.
  - specialize (W2 _ Z1'). lia.
Qed.

(** ** Moves *)

Lemma letters_inj : forall a b, moves_text a = moves_text b -> a = b.
Proof.
  induction a as [|x a IH]; intros [|y b] E; try discriminate E; [reflexivity|]. cbn [moves_text map] in E. injection E as E1 E2.
  f_equal; [|apply IH; exact E2]. destruct x, y; try reflexivity; vm_compute in E1; discriminate E1.
Qed.

Lemma full_nonneg : forall m p, full m p -> nonneg p.
Proof. intros m p ((H1 & _) & (H2 & _) & _). split; assumption. Qed.
Lemma run_end_full : forall m d p q, run_end m d p q -> full m q.
Proof. intros m d p q (n & -> & H & _). apply H. lia. Qed.
Lemma enacts_nonneg : forall m ds same p t, enacts m ds same p (Ok t) -> nonneg p -> nonneg t.
Proof.
  intros m ds same p t H P. inversion H as [t' _ (j & i & _ & F & _)|F|F N|t' F _ E]; subst.
  - exact (full_nonneg _ _ F).
  - exact P.
  - destruct E as [a t R|a b qa qb _ _ Ra Rb|a b qa qb _ _ Ra Rb]; [exact (full_nonneg _ _ (run_end_full _ _ _ _ R))| |];
      destruct (full_nonneg _ _ (run_end_full _ _ _ _ Ra)), (full_nonneg _ _ (run_end_full _ _ _ _ Rb)); split; cbn [fst snd]; assumption.
Qed.
Lemma finds_nonneg : forall m up dn base same e a, written e -> nonneg up -> nonneg dn -> (forall b, base = Some b -> nonneg b) ->
  within dn e -> finds m up dn base same e (Ok a) -> nonneg a.
Proof.
  intros m up dn base same e a W U D B I F. inversion F as [|p L M|p ds r L M E]; subst.
  - exact (lands_nonneg _ _ _ _ _ W U D B I L).
  - exact (enacts_nonneg _ _ _ _ _ E (lands_nonneg _ _ _ _ _ W U D B I L)).
Qed.

(** What is computed is what is meant. *)
Lemma finds_unique : forall m up dn base same e r r', c_col (land e) <> CStr [] ->
  finds m up dn base same e r -> finds m up dn base same e r' -> r = r'.
Proof.
  intros m up dn base same e r r' C F F'.
  assert (U : forall p p', lands up dn base (land e) p -> lands up dn base (land e) p' -> p = p').
  { intros p p' L L'. apply (lands_iff _ _ _ _ _ C) in L, L'. congruence. }
  inversion F as [N|p L M|p ds r0 L M E]; subst; inversion F' as [N'|p' L' M'|p' ds' r0' L' M' E']; subst; try reflexivity;
    try (exfalso; eapply N; eassumption); try (exfalso; eapply N'; eassumption); try congruence; rewrite (U _ _ L L') in *; [reflexivity|].
  rewrite M in M'. injection M' as M'. apply letters_inj in M'. subst ds'. eapply C57_table_is_a_function; eassumption.
Qed.

Lemma capture_st_finds : forall m up dn base e, written e -> is_margin m dn -> nonneg up -> nonneg dn ->
  (forall b, base = Some b -> nonneg b) -> within dn e -> finds m up dn base same1 e (capture_st m (up, dn) e base).
Proof.
  intros m up dn base e W M U D B I. pose proof W as (G & GM & C).
  destruct (resolve_cell (land e) up dn base) as [p|x] eqn:R.
  - pose proof R as L. apply (lands_iff _ _ _ _ _ C) in L. destruct (lands_nonneg _ _ _ _ _ W U D B I L) as (P1 & P2).
    destruct G as [G|(ds & G & GM')].
    + unfold capture_st. rewrite R. cbn [rbind]. rewrite G. apply Fi_there; assumption.
    + eapply Fi_moves; [exact L|exact G|]. apply C57_first_edge; assumption.
  - unfold capture_st. rewrite R. cbn [rbind]. assert (x = ValueError) as -> by exact (resolve_cell_raise _ _ _ _ _ R). apply Fi_nowhere. apply (lands_nowhere _ _ _ _ C). exact R.
Qed.
Lemma capture_nd_finds : forall m up dn a e, written e -> is_margin m dn -> nonneg up -> nonneg dn ->
  nonneg a -> within dn e -> finds m up dn (Some a) same2 e (capture_nd m (up, dn) e a).
Proof.
  intros m up dn a e W M U D B I. pose proof W as (G & GM & C).
  assert (B' : forall b, Some a = Some b -> nonneg b) by (intros b E; injection E as <-; exact B).
  destruct (resolve_cell (land e) up dn (Some a)) as [p|x] eqn:R.
  - pose proof R as L. apply (lands_iff _ _ _ _ _ C) in L. destruct (lands_nonneg _ _ _ _ _ W U D B' I L) as (P1 & P2).
    destruct G as [G|(ds & G & GM')].
    + unfold capture_nd. rewrite R. cbn [rbind]. rewrite G. apply Fi_there; assumption.
    + eapply Fi_moves; [exact L|exact G|]. apply C57_second_edge; assumption.
  - unfold capture_nd. rewrite R. cbn [rbind]. assert (x = ValueError) as -> by exact (resolve_cell_raise _ _ _ _ _ R). apply Fi_nowhere. apply (lands_nowhere _ _ _ _ C). exact R.
Qed.

(** ** Expansions *)

Lemma letter_unique : forall m d x y z, letter m d x y -> letter m d x z -> y = z.
Proof. intros m d x y z [H|H] [H'|H']; try reflexivity; contradiction. Qed.
Lemma one_round_unique : forall m ds x y z, one_round m ds x y -> one_round m ds x z -> y = z.
Proof.
  intros m ds x y z H. revert z. induction H as [x|d ds x y z L H IH]; intros w H'; inversion H'; subst; [reflexivity|].
  apply IH. rewrite (letter_unique _ _ _ _ _ L H2). assumption.
Qed.
Lemma n_rounds_unique : forall m ds n x y z, n_rounds m ds n x y -> n_rounds m ds n x z -> y = z.
Proof.
  intros m ds n x y z H. revert z. induction H as [x|n x y z L H IH]; intros w H'; inversion H'; subst; [reflexivity|].
  apply IH. rewrite (one_round_unique _ _ _ _ _ L H1). assumption.
Qed.
Lemma n_rounds_end : forall m ds n x y k z, n_rounds m ds n x y -> one_round m ds y y -> n_rounds m ds k x z -> one_round m ds z z -> y = z.
Proof.
  intros m ds n x y k z H. revert k z. induction H as [x|n x y y' L H IH]; intros k z E H' E'.
  - induction H' as [x|k x w z L H' IH']; [reflexivity|]. rewrite <- (one_round_unique _ _ _ _ _ E L) in *. apply IH'; assumption.
  - inversion H' as [|k' x' w z' L' H'']; subst.
    + rewrite <- (one_round_unique _ _ _ _ _ E' L) in *. apply (IH 0%nat); [exact E|constructor|exact E'].
    + rewrite <- (one_round_unique _ _ _ _ _ L L') in *. apply (IH k'); assumption.
Qed.
Lemma group_unique : forall m g x y z, group_expands m g x y -> group_expands m g x z -> y = z.
Proof.
  intros m g x y z H H'. inversion H; subst; inversion H'; subst; [eapply n_rounds_unique; eassumption|eapply n_rounds_end; eassumption].
Qed.
Lemma groups_unique : forall m gs x y z, groups_expand m gs x y -> groups_expand m gs x z -> y = z.
Proof.
  intros m gs x y z H. revert z. induction H as [x|g gs x y z L H IH]; intros w H'; inversion H'; subst; [reflexivity|].
  apply IH. match goal with K : group_expands m g x _ |- _ => rewrite (group_unique _ _ _ _ _ L K) end. assumption.
Qed.

Lemma groups_of_inj : forall a b, groups_of a = groups_of b -> a = b.
Proof.
  induction a as [|[x n] a IH]; intros [|[y k] b] E; try discriminate E; [reflexivity|]. cbn [groups_of map fst snd] in E. injection E as E1 E2 E3.
  subst k. rewrite (letters_inj x y E1), (IH b E3). reflexivity.
Qed.

Lemma exp_no_newline : forall em, only_of exp_char em -> ~ In 10%N em.
Proof. intros em H I. specialize (H _ I). vm_compute in H. discriminate H. Qed.

Lemma spells_unique : forall em g g', ~ In 10%N em -> spells (upper em) g -> spells (upper em) g' -> g = g'.
Proof. intros em g g' N H H'. apply (C29_all_other_texts em N) in H, H'. congruence. Qed.

(** ** Capturing *)

Section Capture.
  Variables (m : mat) (up dn : coords) (base : option coords) (e1 : edge) (e2 : option edge) (em : option pystr).
  Hypothesis W1 : written e1.
  Hypothesis W2 : forall e, e2 = Some e -> written e.
  Hypothesis Hm : is_margin m dn.
  Hypothesis Hu : nonneg up.
  Hypothesis Hb : forall b, base = Some b -> nonneg b.
  Hypothesis I1 : within dn e1.
  Hypothesis I2 : forall e, e2 = Some e -> within dn e.
  Hypothesis He : forall t, em = Some t -> t <> [] /\ ~ In 10%N t.

  Lemma dn_nonneg : nonneg dn. Proof. destruct Hm as (A & B & _). split; assumption. Qed.

  Definition capture2 (a : coords) : res coords := match e2 with None => Ok a | Some e => capture_nd m (up, dn) e a end.
  Lemma capture2_finds : forall a, nonneg a -> finds2 m up dn a e2 (capture2 a).
  Proof.
    intros a A. unfold capture2. destruct e2 as [e|] eqn:E; [|constructor]. constructor.
    apply capture_nd_finds; auto using dn_nonneg.
  Qed.
  Lemma finds2_unique : forall a r r', finds2 m up dn a e2 r -> finds2 m up dn a e2 r' -> r = r'.
  Proof.
    intros a r r' H H'. destruct e2 as [e|] eqn:Q.
    - inversion H; subst. inversion H'; subst. eapply finds_unique; try eassumption. apply (W2 e eq_refl).
    - inversion H; subst. inversion H'; subst. reflexivity.
  Qed.
  Lemma finds2_nonneg : forall a b, nonneg a -> finds2 m up dn a e2 (Ok b) -> nonneg b.
  Proof.
    intros a b A H. destruct e2 as [e|] eqn:Q; [|inversion H; subst; exact A].
    assert (F : finds m up dn (Some a) same2 e (Ok b)) by (inversion H; assumption).
    assert (A' : forall b', Some a = Some b' -> nonneg b') by (intros b' E'; injection E' as <-; exact A).
    exact (finds_nonneg _ _ _ _ _ _ _ (W2 e eq_refl) Hu dn_nonneg A' (I2 e eq_refl) F).
  Qed.

  Lemma means_captured : means m up dn base e1 e2 em (resolve_capture_rect m (up, dn) e1 e2 em base).
  Proof.
    pose proof (capture_st_finds m up dn base e1 W1 Hm Hu dn_nonneg Hb I1) as F1. unfold resolve_capture_rect.
    destruct (capture_st m (up, dn) e1 base) as [a|x]; cbn [rbind]; [|apply Me_fail1; exact F1].
    pose proof (finds_nonneg _ _ _ _ _ _ _ W1 Hu dn_nonneg Hb I1 F1) as A.
    pose proof (capture2_finds a A) as F2. unfold capture2 in F2.
    assert (X : forall b, finds2 m up dn a e2 (Ok b) -> forall c t, em = Some (c :: t) ->
      means m up dn base e1 e2 em (rbind (expand_rect m a b (c :: t)) (fun '(a, b) => Ok (a, Some b)))).
    { intros b F c t E. destruct (finds2_nonneg _ _ A F) as (B1 & B2). destruct A as (A1 & A2). destruct (He _ E) as (_ & NN).
      destruct (expand_rect_cases m a b (c :: t)) as [(E1 & ->)|(gs & x & E1 & _ & -> & G)]; cbn [rbind].
      - eapply Me_misspelled; [exact F1|exact F|exact E|]. intros gs S. apply (C29_all_other_texts _ NN) in S. congruence.
      - change (means m up dn base e1 e2 em (Ok (corners_of x))). eapply Me_grown; [exact F1|exact F|exact E| |apply G; assumption].
        apply (C29_all_other_texts _ NN). exact E1. }
    destruct e2 as [e|] eqn:E2.
    - destruct (capture_nd m (up, dn) e a) as [b|x]; cbn [rbind]; [|eapply Me_fail2; [exact F1|exact F2]].
      destruct em as [[|c t]|] eqn:E.
      + destruct (proj1 (He _ eq_refl) eq_refl).
      + exact (X b F2 c t eq_refl).
      + exact (Me_rect m up dn base e1 (Some e) None a e b F1 eq_refl F2 eq_refl).
    - cbn [rbind]. destruct em as [[|c t]|] eqn:E.
      + destruct (proj1 (He _ eq_refl) eq_refl).
      + exact (X a F2 c t eq_refl).
      + apply Me_cell; auto.
  Qed.

  Lemma means_unique : forall r r', means m up dn base e1 e2 em r -> means m up dn base e1 e2 em r' -> r = r'.
  Proof.
    assert (C1 : c_col (land e1) <> CStr []) by apply W1.
    assert (U1 : forall r r', finds m up dn base same1 e1 r -> finds m up dn base same1 e1 r' -> r = r') by (intros; eapply finds_unique; eassumption).
    assert (S : forall t g g', em = Some t -> spells (upper t) g -> spells (upper t) g' -> g = g').
    { intros t g g' E. apply spells_unique. exact (proj2 (He _ E)). }
    intros r r' H H'.
    destruct H as [x F|a x F G|a F N M|a e b F N G M|a b t gs y F G M P Q|a b t F G M P];
    destruct H' as [x' F'|a' x' F' G'|a' F' N' M'|a' e' b' F' N' G' M'|a' b' t' gs' y' F' G' M' P' Q'|a' b' t' F' G' M' P'];
    try (pose proof (U1 _ _ F F') as Y; try discriminate Y; injection Y as <-); try reflexivity; try congruence;
    try (pose proof (finds2_unique _ _ _ G G') as Y; try discriminate Y; injection Y as <-); try reflexivity; try congruence;
    try (rewrite N in *; match goal with H : finds2 _ _ _ _ None (Raise _) |- _ => inversion H end);
    try (rewrite N' in *; match goal with H : finds2 _ _ _ _ None (Raise _) |- _ => inversion H end).
    - assert (t' = t) as -> by congruence. pose proof (S _ _ _ M P P') as Y. apply groups_of_inj in Y. subst gs'.
      rewrite (groups_unique _ _ _ _ _ Q Q'). reflexivity.
    - assert (t' = t) as -> by congruence. destruct (P' _ P).
    - assert (t' = t) as -> by congruence. destruct (P _ P').
  Qed.

  Lemma captured_iff : forall r, resolve_capture_rect m (up, dn) e1 e2 em base = r <-> means m up dn base e1 e2 em r.
  Proof.
    intros r. split; [intros <-; exact means_captured|]. intros H. exact (means_unique _ _ means_captured H).
  Qed.

  (** The rects captured are sorted, from the 1st row and column on. *)
  Lemma means_rect : forall a b, means m up dn base e1 e2 em (Ok (a, b)) ->
    nonneg a /\ match b with Some b => sorted_rect a b | None => e2 = None end.
  Proof.
    intros a b H. pose proof (capture_outcome m up dn e1 e2 em base (proj1 W1) (fun e E => proj1 (W2 e E)) Hm) as O.
    rewrite (proj2 (captured_iff _) H) in O.
    assert (A : nonneg a).
    { clear O. remember (Ok (a, b)) as r eqn:R. destruct H as [x F|a' x F G|a' F N M|a' e b' F N G M|a' b' t gs y F G M P Q|a' b' t F G M P];
        try discriminate R; injection R as <- <-.
      - exact (finds_nonneg _ _ _ _ _ _ _ W1 Hu dn_nonneg Hb I1 F).
      - pose proof (finds_nonneg _ _ _ _ _ _ _ W1 Hu dn_nonneg Hb I1 F) as A. destruct (finds2_nonneg _ _ A G). destruct A.
        split; cbn [fst snd box r1 c1]; lia.
      - pose proof (finds_nonneg _ _ _ _ _ _ _ W1 Hu dn_nonneg Hb I1 F) as A. destruct (finds2_nonneg _ _ A G). destruct A.
        pose proof (C22_grows_onto_data _ _ _ _ Q) as R. split; cbn [fst snd].
        + destruct (C22_in_sheet _ _ _ _ dU R) as [L|L]; cbn [lines_added side_inside box r1] in L; lia.
        + destruct (C22_in_sheet _ _ _ _ dL R) as [L|L]; cbn [lines_added side_inside box c1] in L; lia. }
    split; [exact A|]. destruct A. destruct b as [b|]; [|exact (proj1 O)]. unfold sorted_rect. lia.
  Qed.
End Capture.

(** ** The full cells are all that counts. *)

Section Same_cells.
  Variables m m' : mat.
  Hypothesis E : forall p, full m p <-> full m' p.
  Lemma enacts_same : forall ds same p r, enacts m ds same p r -> enacts m' ds same p r.
  Proof.
    intros ds same p r H. assert (R : forall d a b, run_end m d a b -> run_end m' d a b).
    { intros d a b (n & -> & A & B). exists n. split; [reflexivity|]. split; [intros i I; apply E; apply A; exact I|]. rewrite <- E. exact B. }
    destruct H as [t N (j & i & A & B & C)|N F|N F|t N F G].
    - apply En_first; [rewrite <- E; exact N|]. exists j, i. split; [exact A|]. split; [apply E; exact B|].
      intros j' i' t' O S F. apply E in F. exact (C _ _ _ O S F).
    - apply En_empty; [rewrite <- E; exact N|]. intros j i t S B. apply E in B. exact (F _ _ _ S B).
    - apply En_stay; [apply E; exact N|exact F].
    - apply En_same; [apply E; exact N|exact F|]. destruct G; [apply Es_one|eapply Es_vert|eapply Es_horiz]; eauto.
  Qed.
  Lemma groups_same : forall gs x y, groups_expand m gs x y -> groups_expand m' gs x y.
  Proof.
    assert (B : forall d x, data_beside m d x <-> data_beside m' d x).
    { intros d x. unfold data_beside. split; intros (p & F & G); exists p; (split; [apply E; exact F|exact G]). }
    assert (L : forall d x y, letter m d x y -> letter m' d x y) by (intros d x y [H|H]; constructor; rewrite <- B; exact H).
    assert (O : forall ds x y, one_round m ds x y -> one_round m' ds x y) by (intros ds x y H; induction H; econstructor; eauto).
    assert (N : forall ds n x y, n_rounds m ds n x y -> n_rounds m' ds n x y) by (intros ds n x y H; induction H; econstructor; eauto).
    intros gs x y H. induction H as [x|g gs x y z G H IH]; econstructor; eauto. destruct G; econstructor; eauto.
  Qed.
  Lemma finds_same : forall up dn base same e r, finds m up dn base same e r -> finds m' up dn base same e r.
  Proof. intros up dn base same e r [N|p L M|p ds r' L M F]; [apply Fi_nowhere|eapply Fi_there|eapply Fi_moves]; eauto using enacts_same. Qed.
  Lemma finds2_same : forall up dn a e r, finds2 m up dn a e r -> finds2 m' up dn a e r.
  Proof. intros up dn a e r [|e' r' F]; constructor. apply finds_same. exact F. Qed.
  Lemma means_same : forall up dn base e1 e2 em r, means m up dn base e1 e2 em r -> means m' up dn base e1 e2 em r.
  Proof.
    intros up dn base e1 e2 em r [x F|a x F G|a F N M|a e b F N G M|a b t gs y F G M P Q|a b t F G M P].
    - apply Me_fail1. apply finds_same. exact F.
    - eapply Me_fail2; [apply finds_same; exact F|apply finds2_same; exact G].
    - apply Me_cell; auto. apply finds_same. exact F.
    - eapply Me_rect; [apply finds_same; exact F|exact N|apply finds2_same; exact G|exact M].
    - eapply Me_grown; [apply finds_same; exact F|apply finds2_same; exact G|exact M|exact P|apply groups_same; exact Q].
    - eapply Me_misspelled; [apply finds_same; exact F|apply finds2_same; exact G|exact M|exact P].
  Qed.
  Lemma first_same : forall up, first_of m up -> first_of m' up.
  Proof.
    intros up [(A & (p & B & B') & (q & C & C'))|(N & ->)]; [left|right].
    - split; [intros x X; apply A; apply E; exact X|]. split; [exists p|exists q]; (split; [apply E|]; assumption).
    - split; [|reflexivity]. intros p F. apply (N p). apply E. exact F.
  Qed.
End Same_cells.
Lemma first_unique : forall m up up', first_of m up -> first_of m up' -> up = up'.
Proof.
  intros m [u v] [u' v'] [(A & (p & B & B') & (q & C & C'))|(N & E)] [(A' & (p' & D & D') & (q' & F & F'))|(N' & E')]; cbn [fst snd] in *.
  - pose proof (A _ D). pose proof (A' _ B). pose proof (A _ F). pose proof (A' _ C). f_equal; lia.
  - destruct (N' _ B).
  - destruct (N _ D).
  - congruence.
Qed.
