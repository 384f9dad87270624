(** * What a sheet remembers: the theorems *)
From Coq Require Import String QArith.
From Verif Require Import PyBase Coords_Model Capture_Model Capture_Spec Sheets_Model ReadRect_Model Cache_Model Cache_Spec Cache_Proofs.
Open Scope Z_scope.

Section Props.
  Context {V : Type}.

  Lemma blank_made : forall a : array V, blank (made a).
  Proof. split; reflexivity. Qed.

  (** While neither the array nor the states given are written on, every answer is of the array,
      however often and in whatever order it is asked. *)
  Theorem C111_steady : forall (a : array V) l, steady l -> clean l ->
    (~ no_cells a -> forall k e x, In (k, e, x) (array_history a l) -> k = a /\ (asks e -> tells a x)) /\
    (no_cells a -> forall k e x, In (k, e, x) (array_history a l) -> k = a /\ refuses x).
  Proof.
    intros a l Hl Hc.
    assert (C : forall k e x, In (k, e, x) (array_history a l) -> k = a)
      by (intros k e x H; exact (hist_cells l (made a) Hl (k, e, x) H)).
    destruct (hist_blank l (made a) (blank_made a) Hc) as [H|(h1 & k0 & e0 & a0 & h2 & m & H & H1 & H2 & H3 & H4)].
    - split; intros N k e x Hx; pose proof (C k e x Hx) as ->; (split; [reflexivity|]); destruct (H (a, e, x) Hx) as (A & B).
      + intros D. destruct (N (B D)).
      + exact A.
    - assert (X : k0 = a) by (apply (C k0 e0 a0); unfold array_history; rewrite H; apply in_or_app; right; now left).
      rewrite X in *. pose proof (states_ok _ _ H3) as Y. split; intros N; [|now destruct Y].
      intros k e x Hx. split; [exact (C k e x Hx)|]. pose proof (C k e x Hx) as ->. unfold array_history in Hx. rewrite H in Hx. apply in_app_or in Hx.
      destruct Hx as [Hx|Hx].
      + intros D. destruct (Y (proj2 (H1 _ Hx) D)).
      + exact (proj1 (H4 _ Hx)).
  Qed.

  (** Whatever becomes of the array: as long as it has no cells the sheet refuses to answer; and all
      the answers from the first given tell of the array as it was then. *)
  Theorem C111_frozen : forall (a : array V) l, clean l ->
    (forall k e x, In (k, e, x) (array_history a l) -> refuses x /\ (asks e -> no_cells k)) \/
    exists h1 k0 e0 x0 h2, array_history a l = h1 ++ (k0, e0, x0) :: h2 /\ asks e0 /\ ~ no_cells k0 /\
      (forall k e x, In (k, e, x) h1 -> refuses x /\ (asks e -> no_cells k)) /\
      (forall k e x, In (k, e, x) ((k0, e0, x0) :: h2) -> asks e -> tells k0 x).
  Proof.
    intros a l Hc.
    destruct (hist_blank l (made a) (blank_made a) Hc) as [H|(h1 & k0 & e0 & a0 & h2 & m & H & H1 & H2 & H3 & H4)].
    - left. intros k e x Hx. exact (H _ Hx).
    - right. exists h1, k0, e0, a0, h2. refine (conj H (conj H2 (conj (states_ok _ _ H3) (conj _ _)))).
      + intros k e x Hx. exact (H1 _ Hx).
      + intros k e x Hx. exact (proj1 (H4 _ Hx)).
  Qed.

  Lemma given : forall (a : array V) l, clean l -> forall k e x, In (k, e, x) (array_history a l) ->
    refuses x \/ exists m, (exists k0 : array V, array_states k0 = Ok m) /\
      forall k e x, In (k, e, x) (array_history a l) ->
        (forall m', x = States (Ok m') -> m' = m) /\ (forall b, x = Margins (Ok b) -> b = margin_coords m).
  Proof.
    intros a l Hc k e x Hx.
    destruct (hist_blank l (made a) (blank_made a) Hc) as [H|(h1 & k0 & e0 & a0 & h2 & m & H & H1 & H2 & H3 & H4)].
    - left. exact (proj1 (H _ Hx)).
    - right. exists m. split; [eauto|]. clear k e x Hx. intros k e x Hx. unfold array_history in Hx. rewrite H in Hx.
      apply in_app_or in Hx. destruct Hx as [Hx|Hx].
      + destruct (H1 _ Hx) as (A & _). cbn in A. split; intros ? ->; discriminate.
      + destruct (H4 _ Hx) as (_ & A & B). cbn in A, B. split; intros y ->; [specialize (A _ eq_refl)|specialize (B _ eq_refl)]; congruence.
  Qed.

  (** So the margins given always fit the states given, whichever was asked for first, and the
      answers never vary. *)
  Theorem C111_agree : forall (a : array V) l k k' m b, clean l ->
    In (k, AskStates, States (Ok m)) (array_history a l) -> In (k', AskMargins, Margins (Ok b)) (array_history a l) -> fits m b.
  Proof.
    intros a l k k' m b Hc Hm Hb. destruct (given a l Hc _ _ _ Hm) as [X|(m0 & _ & H)]; [discriminate|].
    rewrite (proj1 (H _ _ _ Hm) m eq_refl), (proj2 (H _ _ _ Hb) b eq_refl). apply margins_fit.
  Qed.
  Theorem C111_same : forall (a : array V) l k k' m m', clean l ->
    In (k, AskStates, States (Ok m)) (array_history a l) -> In (k', AskStates, States (Ok m')) (array_history a l) -> m = m'.
  Proof.
    intros a l k k' m m' Hc Hm Hb. destruct (given a l Hc _ _ _ Hm) as [X|(m0 & _ & H)]; [discriminate|].
    rewrite (proj1 (H _ _ _ Hm) m eq_refl), (proj1 (H _ _ _ Hb) m' eq_refl). reflexivity.
  Qed.

  (** Values, unlike states, are always those of the moment. *)
  Theorem C111_live : forall (a : array V) l k p v,
    In (k, AskRect p None, Rect (Ok (Scalar v))) (array_history a l) -> 0 <= fst p -> 0 <= snd p ->
    (Z.to_nat (fst p) < a_rows k)%nat /\ (Z.to_nat (snd p) < a_cols k)%nat /\ v = a_at k (Z.to_nat (fst p)) (Z.to_nat (snd p)).
  Proof.
    intros a l k p v H A B. apply hist_rect in H. unfold array_read_rect in H. destruct (has_size k); [|discriminate].
    unfold np_index in H. apply Z.leb_le in A, B. rewrite A, B in H. apply Z.leb_le in A, B.
    destruct (Z.ltb_spec (fst p) (Z.of_nat (a_rows k))); [|discriminate].
    destruct (Z.ltb_spec (snd p) (Z.of_nat (a_cols k))); [|discriminate].
    injection H as ->. repeat split; lia.
  Qed.
End Props.

Definition one : array Z := Array 1 2 (fun _ c => match c with O => Some 7 | _ => None end).
Definition two : array Z := Array 1 2 (fun _ c => match c with O => None | _ => Some 8 end).
Definition none : array Z := Array 0 2 (fun _ _ => None).

Example C111_example :
  map snd (array_history one [AskMargins; AskStates; AskRect (0, 0) None]) =
    [Margins (Ok ((0, 0), (0, 0))); States (array_states one); Rect (Ok (Scalar (Some 7)))] /\
  (forall m, array_states one = Ok m -> at_ m 0 0 = true /\ at_ m 0 1 = false /\ rows m = 1%nat /\ cols m = 2%nat) /\
  map snd (array_history none [AskMargins; AskStates; Change one; AskMargins; Change two; AskMargins; AskRect (0, 1) None]) =
    [Margins (Raise EmptyCapture); States (Raise EmptyCapture); Silence; Margins (Ok ((0, 0), (0, 0))); Silence;
     Margins (Ok ((0, 0), (0, 0))); Rect (Ok (Scalar (Some 8)))] /\
  map snd (array_history two [AskMargins]) = [Margins (Ok ((0, 1), (0, 1)))] /\
  clean (K := array Z) [AskMargins; AskStates; Change one; AskMargins] /\ steady (K := array Z) [AskMargins; AskStates; AskRect (0, 0) None].
Proof.
  refine (conj eq_refl (conj _ (conj eq_refl (conj eq_refl (conj _ _))))).
  - intros m H. injection H as <-. repeat split.
  - intros m H. repeat destruct H as [H|H]; try discriminate; destruct H.
  - intros m H. repeat destruct H as [H|H]; try discriminate; destruct H.
Qed.

(** Once the array is written on, states and values disagree: a cell is said to be full that has no
    value, and one with a value lies beyond the margins. *)
Theorem C111_stale_refuted : exists (a b : array Z) m,
  let h := array_history a [AskStates; Change b; AskStates; AskMargins; AskRect (0, 0) None; AskRect (0, 1) None] in
  map snd (skipn 2 h) = [States (Ok m); Margins (Ok ((0, 0), (0, 0))); Rect (Ok (Scalar None)); Rect (Ok (Scalar (Some 8)))] /\
  map (fun x => fst (fst x)) (skipn 2 h) = [b; b; b; b] /\ full m (0, 0) /\ ~ full m (0, 1).
Proof.
  exists one, two, (Mat 1 2 (fun r c => match a_at one r c with Some _ => true | None => false end)). cbv zeta.
  refine (conj eq_refl (conj eq_refl (conj _ _))).
  - unfold full. cbn. repeat split; lia.
  - unfold full. cbn. intros (_ & _ & X). discriminate.
Qed.

(** The states given are those remembered: whoever writes on them changes the answers to come,
    which the margins do not follow. *)
Theorem C111_scribble_refuted : exists (a : array Z) m,
  let h := array_history a [AskMargins; Scribble m; AskStates; AskMargins] in
  map snd (skipn 2 h) = [States (Ok m); Margins (Ok ((0, 0), (0, 0)))] /\ ~ marks a m /\ ~ fits m ((0, 0), (0, 0)).
Proof.
  exists one, (Mat 1 2 (fun _ _ => true)). cbv zeta. refine (conj eq_refl (conj _ _)).
  - intros (_ & _ & H). destruct (H 0%nat 1%nat) as (X & _); [cbn; lia|cbn; lia|]. destruct (X eq_refl) as (v & Y). discriminate.
  - intros [((p & F) & B)|(N & _)].
    + destruct B as (B & _). assert (G : full (Mat 1 2 (fun _ _ => true)) (0, 1)) by (unfold full; cbn; repeat split; lia).
      specialize (B _ G). cbn in B. lia.
    + apply (N (0, 0)). unfold full; cbn; repeat split; lia.
Qed.

(** ** xlrd sheets *)
Section Xlrd.
  Variable as_datetime : Q -> bool -> datetime.
  Variable epoch1904 : bool.

  (** As long as nobody writes on the sheet or the states, a sheet asked before answers as one
      newly made (see C39 and C67 for what that is). *)
  Theorem C111_xlrd : forall s l e a, steady l -> clean l ->
    In (s, e, a) (xlrd_history as_datetime epoch1904 s l) ->
    match e with
    | AskStates | AskMargins | AskRect _ _ => [(s, e, a)] = xlrd_history as_datetime epoch1904 s [e]
    | _ => False
    end.
  Proof.
    intros s l e a Hl Hc H.
    assert (T : true_of (made s)) by (split; left; reflexivity).
    destruct (xhist_true as_datetime epoch1904 l (made s) T Hl Hc s e a H) as (_ & F).
    destruct e as [| |st nd|k|m].
    - cbn in F. subst a. reflexivity.
    - cbn in F. subst a. unfold xlrd_history. cbn [history step].
      destruct (get_margins (fun s => Ok (xlrd_states s)) xlrd_read_margins (made s)) as (s', r) eqn:E. cbn. do 3 f_equal.
      unfold get_margins in E. cbn in E. unfold xlrd_margins, get_margin_coords.
      destruct (xlrd_read_margins s) as [([u|], [d|])|x]; cbn in *; try (injection E as <- <-; reflexivity);
        destruct (margin_coords (xlrd_states s)); injection E as <- <-; reflexivity.
    - cbn in F. subst a. destruct nd; reflexivity.
    - exfalso. assert (I : In (Change k) l); [|exact (Hl k I)].
      clear - H. unfold xlrd_history in H. revert H. generalize (made s). induction l as [|e l IH]; intros t H; cbn in H; [destruct H|].
      destruct (step _ _ _ _ t e) as (t', a'). destruct H as [H|H]; [left; congruence|right; exact (IH t' H)].
    - exfalso. assert (I : In (Scribble m) l); [|exact (Hc m I)].
      clear - H. unfold xlrd_history in H. revert H. generalize (made s). induction l as [|e l IH]; intros t H; cbn in H; [destruct H|].
      destruct (step _ _ _ _ t e) as (t', a'). destruct H as [H|H]; [left; congruence|right; exact (IH t' H)].
  Qed.

  Definition xempty : xcell := XCell XEmpty 0 [].
  Definition xtext : xcell := XCell XText 0 (lit "hi").

  Example C111_xlrd_example :
    map snd (xlrd_history as_datetime epoch1904 (XSheet 1 2 (fun _ c => match c with O => xtext | _ => xempty end))
       [AskMargins; AskRect (0, 0) (Some (0, 1)); AskMargins; AskRect (0, 0) None]) =
    [Margins (Ok ((0, 0), (0, 1))); Rect (Ok (XTable [[VText (lit "hi"); VNone]])); Margins (Ok ((0, 0), (0, 1))); Rect (Ok (XScalar (VText (lit "hi"))))].
  Proof. reflexivity. Qed.

  (** A cell put into the sheet later ([put_cell] of xlrd) has a value when read alone and none when
      read as part of a rectangle. *)
  Theorem C111_put_refuted : exists s t : xsheet,
    map snd (skipn 2 (xlrd_history as_datetime epoch1904 s [AskStates; Change t; AskRect (0, 0) None; AskRect (0, 0) (Some (0, 0))])) =
    [Rect (Ok (XScalar (VText (lit "hi")))); Rect (Ok (XTable [[VNone]]))].
  Proof. exists (XSheet 1 1 (fun _ _ => xempty)), (XSheet 1 1 (fun _ _ => xtext)). reflexivity. Qed.
End Xlrd.

Print Assumptions C111_steady.
Print Assumptions C111_frozen.
Print Assumptions C111_agree.
Print Assumptions C111_same.
Print Assumptions C111_live.
Print Assumptions C111_stale_refuted.
Print Assumptions C111_scribble_refuted.
Print Assumptions C111_xlrd.
Print Assumptions C111_put_refuted.
