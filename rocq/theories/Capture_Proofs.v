(** Lemmas for C24-C26, C57, C58: capturing. *)
From Coq Require Import String.
From Verif Require Import PyBase PyBase_Proofs Regex Coords_Model Coords_Spec Coords_Proofs
  ExpMoves_Model ExpMoves_Spec ExpMoves_Proofs Capture_Model Capture_Spec Target_Proofs Expand_Proofs.
Open Scope Z_scope.

Lemma state_at_full : forall m p, 0 <= fst p -> 0 <= snd p -> (state_at m p = true <-> full m p).
Proof.
  intros m p Hr Hc. unfold state_at. split.
  - intro H. apply get_nonneg; [exact Hr|exact Hc|]. destruct (get m p); [congruence|discriminate].
  - intro H. rewrite (get_full m p H). reflexivity.
Qed.

Lemma ends_same_target : forall m dn p ds, good_moves ds -> is_margin m dn -> full m p ->
  exists t, target_same m dn p ds = Ok t /\ ends_same m p ds t.
Proof.
  intros m dn p ds Hg Hm Hf. inversion Hg; subst.
  - destruct (target_same_one m dn p a Hm Hf) as (t & E & Ht). exists t. split; [exact E|constructor; exact Ht].
  - destruct (target_same_two m dn p a b H Hm Hf) as (t & qa & qb & E & Ha & Hb & Hv & Hh). exists t. split; [exact E|].
    destruct H as [[H1 H2]|[H1 H2]].
    + rewrite (Hv H1). apply Es_vert; assumption.
    + rewrite (Hh H2). apply Es_horiz; assumption.
Qed.

Lemma ends_same_unique : forall m p ds t t', ends_same m p ds t -> ends_same m p ds t' -> t = t'.
Proof.
  intros m p ds t t' H H'.
  inversion H as [a t1 R|a b qa qb V1 V2 Ra Rb|a b qa qb V1 V2 Ra Rb]; subst;
    inversion H' as [a' t1' R'|a' b' qa' qb' V1' V2' Ra' Rb'|a' b' qa' qb' V1' V2' Ra' Rb']; subst; try contradiction.
  - eapply run_end_unique; eassumption.
  - rewrite (run_end_unique _ _ _ _ _ Ra Ra'), (run_end_unique _ _ _ _ _ Rb Rb'). reflexivity.
  - rewrite (run_end_unique _ _ _ _ _ Ra Ra'), (run_end_unique _ _ _ _ _ Rb Rb'). reflexivity.
Qed.

Lemma ends_same_swap : forall m p a b t, ends_same m p [a; b] t -> ends_same m p [b; a] t.
Proof. intros m p a b t H. inversion H; subst; [apply Es_horiz|apply Es_vert]; assumption. Qed.

(** The common shape of both edges. *)
Definition go (m : mat) (dn p : coords) (ds : list dir) (same : bool) : res coords :=
  if state_at m p then if same then target_same m dn p ds else Ok p else target_opposite m dn p ds.

Lemma go_enacts : forall m dn p ds same (P : Prop), good_moves ds -> is_margin m dn ->
  0 <= fst p -> 0 <= snd p -> (same = true <-> P) -> enacts m ds P p (go m dn p ds same).
Proof.
  intros m dn p ds same P Hg Hm Hr Hc HP. unfold go. destruct (state_at m p) eqn:E.
  - apply state_at_full in E; [|exact Hr|exact Hc]. destruct same.
    + destruct (ends_same_target m dn p ds Hg Hm E) as (t & -> & Ht). apply En_same; [exact E|apply HP; reflexivity|exact Ht].
    + apply En_stay; [exact E|]. intro H. apply HP in H. discriminate.
  - assert (Hn : ~ full m p). { intro F. apply state_at_full in F; [congruence|exact Hr|exact Hc]. }
    destruct (target_opposite_spec m dn p ds Hg Hm Hr Hc) as [(t & -> & Ht)|[-> Ht]].
    + apply En_first; assumption.
    + apply En_empty; assumption.
Qed.

Lemma capture_st_go : forall m u dn e base ds p, mov e = Some (moves_text ds) ->
  resolve_cell (land e) u dn base = Ok p ->
  capture_st m (u, dn) e base = go m dn p ds (mod_is e "+").
Proof.
  intros m u dn e base ds p E Hp. unfold capture_st. rewrite Hp. cbn [rbind]. rewrite E. unfold moves_text.
  rewrite dir_of_letters. cbn [rbind]. reflexivity.
Qed.

Lemma capture_nd_go : forall m u dn e st ds p, mov e = Some (moves_text ds) ->
  resolve_cell (land e) u dn (Some st) = Ok p ->
  capture_nd m (u, dn) e st = go m dn p ds (mod_is e "+" || (is_dotdot (land e) && negb (mod_is e "?"))).
Proof.
  intros m u dn e st ds p E Hp. unfold capture_nd. rewrite Hp. cbn [rbind]. rewrite E. unfold moves_text.
  rewrite dir_of_letters. cbn [rbind]. reflexivity.
Qed.

Lemma mod_is_iff : forall e s, mod_is e s = true <-> mod_ e = Some (lit s).
Proof.
  intros e s. unfold mod_is. destruct (mod_ e) as [t|]; [|split; discriminate].
  rewrite str_eqb_eq. split; [intros ->; reflexivity|intro E; injection E as ->; reflexivity].
Qed.

Lemma is_dotdot_iff : forall c, is_dotdot c = true <-> dependent c.
Proof.
  intros [r k]. unfold is_dotdot, dependent. cbn [c_row c_col]. rewrite andb_true_iff.
  assert (G : forall x, is_dot x = true <-> x = CStr (lit ".")).
  { intros [s|z|]; cbn [is_dot]; try (split; discriminate). rewrite str_eqb_eq. split; [intros ->; reflexivity|intro E; injection E as ->; reflexivity]. }
  rewrite !G. reflexivity.
Qed.

Lemma capture_st_enacts : forall m u dn e base ds p, mov e = Some (moves_text ds) -> good_moves ds ->
  is_margin m dn -> resolve_cell (land e) u dn base = Ok p -> 0 <= fst p -> 0 <= snd p ->
  enacts m ds (mod_ e = Some (lit "+")) p (capture_st m (u, dn) e base).
Proof.
  intros m u dn e base ds p E Hg Hm Hp Hr Hc. rewrite (capture_st_go m u dn e base ds p E Hp).
  apply go_enacts; auto. apply mod_is_iff.
Qed.

Lemma capture_nd_enacts : forall m u dn e st ds p, mov e = Some (moves_text ds) -> good_moves ds ->
  good_mod (mod_ e) -> is_margin m dn -> resolve_cell (land e) u dn (Some st) = Ok p -> 0 <= fst p -> 0 <= snd p ->
  enacts m ds (mod_ e = Some (lit "+") \/ (mod_ e = None /\ dependent (land e))) p (capture_nd m (u, dn) e st).
Proof.
  intros m u dn e st ds p E Hg Hmod Hm Hp Hr Hc. rewrite (capture_nd_go m u dn e st ds p E Hp).
  apply go_enacts; auto.
  rewrite orb_true_iff, andb_true_iff, mod_is_iff, is_dotdot_iff, negb_true_iff.
  assert (mod_is e "?" = false <-> mod_ e <> Some (lit "?")) as ->.
  { rewrite <- mod_is_iff. destruct (mod_is e "?"); split; congruence. }
  destruct Hmod as [H|[H|H]]; rewrite H; split; intros; intuition congruence.
Qed.

(** ** C24: errors, for any landing *)

Definition only (e : exn) : Prop := e = EmptyCapture \/ e = ValueError.

Lemma same_len_errors : forall m p d e, get m p = Ok true -> same_len m p d = Raise e -> e = ValueError.
Proof.
  intros m [r c] d e Hg H. unfold get in Hg. cbn [fst snd] in Hg.
  destruct (np_index (rows m) r) as [i|] eqn:Ei; [|discriminate].
  destruct (np_index (cols m) c) as [j|] eqn:Ej; [|discriminate].
  unfold same_len, extract_states_vector in H. destruct d; rewrite ?Ei, ?Ej in H; cbn [rbind] in H;
    match type of H with (if ?x then _ else _) = _ => destruct x; [discriminate|] end;
    match type of H with match ?x with _ => _ end = _ => destruct x; congruence end.
Qed.

Lemma same_loop_errors : forall m p ds t e, get m p = Ok true -> same_loop m p t ds = Raise e -> e = ValueError.
Proof.
  intros m p ds. induction ds as [|d ds IH]; intros t e Hg H; cbn [same_loop] in H; [discriminate|].
  destruct (same_len m p d) as [n|e'] eqn:E; cbn [rbind] in H.
  - eapply IH; eassumption.
  - injection H as <-. eapply same_len_errors; eassumption.
Qed.

Lemma go_errors : forall m dn p ds same e, good_moves ds -> is_margin m dn -> go m dn p ds same = Raise e -> only e.
Proof.
  intros m dn p ds same e Hg Hm H. unfold go in H. destruct (state_at m p) eqn:Es.
  - destruct same; [|discriminate]. unfold target_same in H.
    destruct (_ && _); [|injection H as <-; left; reflexivity].
    unfold state_at in Es. destruct (get m p) as [b|] eqn:Eg; [|discriminate]. subst b. cbn [rbind] in H.
    right. eapply same_loop_errors; eassumption.
  - destruct (Z_lt_le_dec (fst p) 0) as [Hr|Hr].
    { rewrite target_opposite_negative in H; [injection H as <-; left; reflexivity|exact Hg|apply Hm|apply Hm|lia]. }
    destruct (Z_lt_le_dec (snd p) 0) as [Hc|Hc].
    { rewrite target_opposite_negative in H; [injection H as <-; left; reflexivity|exact Hg|apply Hm|apply Hm|lia]. }
    destruct (target_opposite_spec m dn p ds Hg Hm Hr Hc) as [(t & E & _)|[E _]]; rewrite E in H; [discriminate|].
    injection H as <-. left. reflexivity.
Qed.

Lemma capture_st_errors : forall m u dn e base x, good_edge e -> is_margin m dn ->
  capture_st m (u, dn) e base = Raise x -> only x.
Proof.
  intros m u dn e base x Hg Hm H. destruct (resolve_cell (land e) u dn base) as [p|x'] eqn:Ep.
  - destruct Hg as [Hg|(ds & Hg & Hd)].
    + unfold capture_st in H. rewrite Ep, Hg in H. discriminate.
    + rewrite (capture_st_go _ _ _ _ _ _ _ Hg Ep) in H. eapply go_errors; eassumption.
  - unfold capture_st in H. rewrite Ep in H. injection H as <-. right. eapply resolve_cell_raise. exact Ep.
Qed.

Lemma capture_nd_errors : forall m u dn e st x, good_edge e -> is_margin m dn ->
  capture_nd m (u, dn) e st = Raise x -> only x.
Proof.
  intros m u dn e st x Hg Hm H. destruct (resolve_cell (land e) u dn (Some st)) as [p|x'] eqn:Ep.
  - destruct Hg as [Hg|(ds & Hg & Hd)].
    + unfold capture_nd in H. rewrite Ep, Hg in H. discriminate.
    + rewrite (capture_nd_go _ _ _ _ _ _ _ Hg Ep) in H. eapply go_errors; eassumption.
  - unfold capture_nd in H. rewrite Ep in H. injection H as <-. right. eapply resolve_cell_raise. exact Ep.
Qed.

Lemma capture_outcome : forall m u dn e1 e2 em base, good_edge e1 -> (forall e, e2 = Some e -> good_edge e) ->
  is_margin m dn ->
  match resolve_capture_rect m (u, dn) e1 e2 em base with
  | Ok (st, Some nd) => fst st <= fst nd /\ snd st <= snd nd
  | Ok (st, None) => e2 = None /\ (em = None \/ em = Some [])
  | Raise x => only x
  end.
Proof.
  intros m u dn e1 e2 em base H1 H2 Hm. unfold resolve_capture_rect.
  destruct (capture_st m (u, dn) e1 base) as [st|x] eqn:Es; [|eapply capture_st_errors; eassumption].
  cbn [rbind].
  assert (Hx : forall nd, match match em with
    | Some ((_ :: _) as em0) => do (a, b) <- expand_rect m st match nd with Some x => x | None => st end em0; Ok (a, Some b)
    | _ => match nd with None => Ok (st, None) | Some x => let (a, b) := sort_rect st x in Ok (a, Some b) end
    end with
    | Ok (st, Some nd) => fst st <= fst nd /\ snd st <= snd nd
    | Ok (_, None) => nd = None /\ (em = None \/ em = Some [])
    | Raise x => only x end).
  { intro nd. destruct em as [[|c em]|].
    - destruct nd as [nd|]; [cbn; lia|auto].
    - cbv iota. destruct (expand_rect_cases m st (match nd with Some x => x | None => st end) (c :: em)) as [[_ E]|(gs & x & _ & [S1 S2] & E & _)];
        rewrite E; cbn [rbind fst snd]; [right; reflexivity|]. auto.
    - destruct nd as [nd|]; [cbn; lia|auto]. }
  destruct e2 as [e2|].
  - destruct (capture_nd m (u, dn) e2 st) as [nd|x] eqn:En; cbn [rbind].
    + specialize (Hx (Some nd)).
      match goal with |- match ?a with _ => _ end => destruct a as [[s [n|]]|] end; [exact Hx| |exact Hx].
      destruct Hx; discriminate.
    + eapply capture_nd_errors; [|eassumption|exact En]. auto.
  - cbn [rbind]. specialize (Hx None).
    match goal with |- match ?a with _ => _ end => destruct a as [[s [n|]]|] end; auto. split; [reflexivity|apply Hx].
Qed.

(** ** C25 *)

Lemma capture_plain : forall m u dn c1' c2' mod1 mod2 base p q,
  resolve_cell c1' u dn base = Ok p -> resolve_cell c2' u dn (Some p) = Ok q ->
  resolve_capture_rect m (u, dn) (Edge c1' None mod1) (Some (Edge c2' None mod2)) None base
  = Ok ((Z.min (fst p) (fst q), Z.min (snd p) (snd q)), Some (Z.max (fst p) (fst q), Z.max (snd p) (snd q))).
Proof.
  intros m u dn c1' c2' mod1 mod2 base p q H1 H2. unfold resolve_capture_rect, capture_st. cbn [land mov].
  rewrite H1. cbn [rbind]. unfold capture_nd. cbn [land mov]. rewrite H2. reflexivity.
Qed.

Lemma dotdot_resolves : forall c u dn st, dependent c -> resolve_cell c u dn (Some st) = Ok st.
Proof.
  intros [r k] u dn [a b] [H1 H2]. cbn [c_row c_col] in *. subst. reflexivity.
Qed.

Lemma capture_dependent : forall m u dn e1 mod2 c base st, dependent c ->
  capture_st m (u, dn) e1 base = Ok st ->
  resolve_capture_rect m (u, dn) e1 (Some (Edge c None mod2)) None base = Ok (st, Some st).
Proof.
  intros m u dn e1 mod2 c base st Hd H. unfold resolve_capture_rect. rewrite H. cbn [rbind].
  unfold capture_nd. cbn [land mov]. rewrite dotdot_resolves by exact Hd. cbn [rbind].
  destruct st as [a b]. unfold sort_rect. cbn [fst snd]. rewrite !Z.min_id, !Z.max_id. reflexivity.
Qed.
