(** * What a sheet remembers: proofs *)
From Coq Require Import String QArith Lia.
From Verif Require Import PyBase PyBase_Proofs Coords_Model Capture_Model Capture_Spec Capture_Proofs Target_Proofs Sheets_Model ReadRect_Model Cache_Model Cache_Spec.
Open Scope Z_scope.

Section Arrays.
  Context {V : Type}.
  Notation arr := (array V).
  Notation ev := (event arr).
  Notation ahist := (history (V := reading V) (@array_states V) (fun _ => Ok (None, None)) (fun _ => false)
                             (fun a _ st nd => array_read_rect a st nd)).
  Notation astep := (step (V := reading V) (@array_states V) (fun _ => Ok (None, None)) (fun _ => false)
                             (fun a _ st nd => array_read_rect a st nd)).

  Lemma states_marks : forall (a : arr) m, array_states a = Ok m -> marks a m.
  Proof.
    intros a m H. unfold array_states in H. destruct (has_size a); [|discriminate].
    injection H as <-. refine (conj eq_refl (conj eq_refl _)). cbn. intros r c _ _.
    destruct (a_at a r c) as [v|]; split; intros X; try discriminate; eauto. destruct X; discriminate.
  Qed.

  Lemma margins_fit : forall m, fits m (margin_coords m).
  Proof.
    intros m. unfold fits.
    destruct (existsb (fun r => existsb (at_ m r) (seq 0 (cols m))) (seq 0 (rows m))) eqn:E.
    - left. apply existsb_exists in E. destruct E as (r & Hr & E). apply existsb_exists in E. destruct E as (c & Hc & E).
      apply in_seq in Hr. apply in_seq in Hc.
      assert (F : full m (Z.of_nat r, Z.of_nat c)).
      { unfold full. cbn. rewrite !Nat2Z.id. repeat split; try lia; try assumption. }
      split; [eauto|]. exact (margin_coords_full m _ F).
    - right. assert (N : forall p, ~ full m p).
      { intros (r, c) F. unfold full in F. cbn in F.
        enough (X : existsb (fun r => existsb (at_ m r) (seq 0 (cols m))) (seq 0 (rows m)) = true) by congruence.
        apply existsb_exists. exists (Z.to_nat r). split; [apply in_seq; lia|].
        apply existsb_exists. exists (Z.to_nat c). split; [apply in_seq; lia|tauto]. }
      split; [exact N|]. apply margin_coords_empty, N.
  Qed.

  Lemma states_raise : forall (a : arr) e, array_states a = Raise e -> e = EmptyCapture /\ no_cells a.
  Proof.
    intros a e H. unfold array_states, has_size in H. destruct (Nat.eqb (a_rows a * a_cols a) 0) eqn:E; cbn in H; [|discriminate].
    injection H as <-. split; [reflexivity|]. apply Nat.eqb_eq in E. unfold no_cells. lia.
  Qed.

  Lemma states_ok : forall (a : arr) m, array_states a = Ok m -> ~ no_cells a.
  Proof.
    intros a m H N. unfold array_states, has_size in H. destruct N as [N|N]; rewrite N in H; rewrite ?Nat.mul_0_r in H; discriminate.
  Qed.

  (** What is remembered: nothing, or something of [k]. *)
  Definition of (m : mat) (s : sheet arr) : Prop :=
    s_states s = Some m /\ (s_margins s = None \/ s_margins s = Some (margin_coords m)).
  Definition blank (s : sheet arr) : Prop := s_states s = None /\ s_margins s = None.

  Lemma step_of : forall k m s e, array_states k = Ok m -> of m s -> (forall m', e <> Scribble m') ->
    of m (fst (astep s e)) /\ (asks e -> tells k (snd (astep s e))) /\
    (forall r, snd (astep s e) = States r -> r = Ok m) /\ (forall r, snd (astep s e) = Margins r -> r = Ok (margin_coords m)).
  Proof.
    intros k m s e Hk (Hs & Hm) Hc.
    pose proof (states_marks _ _ Hk) as M.
    destruct e as [| |st nd|k'|m']; cbn [step].
    - unfold get_states. rewrite Hs. cbn. repeat apply conj; auto; intros r X; try discriminate; injection X as <-; reflexivity.
    - unfold get_margins. destruct Hm as [Hm|Hm]; rewrite Hm.
      + unfold get_states. rewrite Hs. cbv iota beta. destruct (margin_coords m) as (u, d) eqn:E. cbn.
        refine (conj (conj Hs (or_intror _)) (conj _ (conj _ _))).
        * cbn. now rewrite E.
        * intros _. exists m. split; [exact M|]. rewrite <- E. apply margins_fit.
        * intros r X; discriminate.
        * intros r X; injection X as <-; reflexivity.
      + cbn. refine (conj (conj Hs (or_intror Hm)) (conj _ (conj _ _))).
        * intros _. exists m. split; [exact M|apply margins_fit].
        * intros r X; discriminate.
        * intros r X; injection X as <-; reflexivity.
    - unfold get_rect. cbn. refine (conj (conj Hs Hm) (conj _ (conj _ _))); [intros [X|X]; discriminate| |]; intros r X; discriminate.
    - cbn. refine (conj (conj Hs Hm) (conj _ (conj _ _))); [intros [X|X]; discriminate| |]; intros r X; discriminate.
    - now destruct (Hc m').
  Qed.

  Lemma step_blank : forall s e, blank s -> (forall m', e <> Scribble m') ->
    (blank (fst (astep s e)) /\ refuses (snd (astep s e)) /\ (asks e -> no_cells (s_cells s))) \/
    (asks e /\ exists m, array_states (s_cells s) = Ok m /\ of m (fst (astep s e)) /\ tells (s_cells s) (snd (astep s e)) /\
      (forall r, snd (astep s e) = States r -> r = Ok m) /\ (forall r, snd (astep s e) = Margins r -> r = Ok (margin_coords m))).
  Proof.
    intros s e (Hs & Hm) Hc. destruct e as [| |st nd|k'|m']; cbn [step].
    - unfold get_states. rewrite Hs. destruct (array_states (s_cells s)) as [m|x] eqn:E; cbn.
      + right. split; [now left|]. exists m. refine (conj eq_refl (conj (conj eq_refl (or_introl Hm)) (conj (states_marks _ _ E) (conj _ _)))).
        * intros r X; injection X as <-; reflexivity.
        * intros r X; discriminate.
      + left. destruct (states_raise _ _ E) as (-> & N). repeat apply conj; auto.
    - unfold get_margins. rewrite Hm. unfold get_states. rewrite Hs. destruct (array_states (s_cells s)) as [m|x] eqn:E.
      + right. split; [now right|]. exists m. destruct (margin_coords m) as (u, d) eqn:Em. cbn.
        refine (conj eq_refl (conj (conj eq_refl (or_intror _)) (conj _ (conj _ _)))).
        * cbn. now rewrite Em.
        * exists m. split; [exact (states_marks _ _ E)|]. rewrite <- Em. apply margins_fit.
        * intros r X; discriminate.
        * intros r X; injection X as <-; reflexivity.
      + left. destruct (states_raise _ _ E) as (-> & N). cbn. repeat apply conj; auto.
    - left. unfold get_rect. cbn. repeat apply conj; auto. intros [X|X]; discriminate.
    - left. cbn. repeat apply conj; auto. intros [X|X]; discriminate.
    - now destruct (Hc m').
  Qed.

  Lemma clean_cons : forall (e : ev) l, clean (e :: l) -> (forall m, e <> Scribble m) /\ clean l.
  Proof. intros e l H. split; intros m X; apply (H m); [now left|now right]. Qed.

  Definition answers_of (k : arr) (m : mat) (x : arr * ev * answer (reading V)) : Prop :=
    (asks (snd (fst x)) -> tells k (snd x)) /\
    (forall r, snd x = States r -> r = Ok m) /\ (forall r, snd x = Margins r -> r = Ok (margin_coords m)).

  Lemma hist_of : forall k m, array_states k = Ok m -> forall l s, of m s -> clean l ->
    forall x, In x (ahist s l) -> answers_of k m x.
  Proof.
    intros k m Hk. induction l as [|e l IH]; intros s Hs Hc x Hx; cbn in Hx; [destruct Hx|].
    apply clean_cons in Hc. destruct Hc as (He & Hc).
    destruct (step_of k m s e Hk Hs He) as (A & B & C).
    destruct (astep s e) as (s', a) eqn:E. destruct Hx as [<-|Hx]; [split; [exact B|exact C]|].
    exact (IH s' A Hc x Hx).
  Qed.

  Definition early (x : arr * ev * answer (reading V)) : Prop :=
    refuses (snd x) /\ (asks (snd (fst x)) -> no_cells (fst (fst x))).

  Lemma hist_blank : forall l s, blank s -> clean l ->
    (forall x, In x (ahist s l) -> early x) \/
    exists h1 k e a h2 m, ahist s l = h1 ++ (k, e, a) :: h2 /\ (forall x, In x h1 -> early x) /\
      asks e /\ array_states k = Ok m /\ (forall x, In x ((k, e, a) :: h2) -> answers_of k m x).
  Proof.
    induction l as [|e l IH]; intros s Hs Hc; [left; intros x []|].
    apply clean_cons in Hc. destruct Hc as (He & Hc).
    cbn. destruct (step_blank s e Hs He) as [(A & B & C)|(A & m & B & C & D & F)]; destruct (astep s e) as (s', a) eqn:E; cbn in *.
    - destruct (IH s' A Hc) as [H|(h1 & k & e1 & a1 & h2 & m & H & H1 & H2 & H3 & H4)].
      + left. intros x [<-|Hx]; [split; [exact B|exact C]|now apply H].
      + right. exists ((s_cells s, e, a) :: h1), k, e1, a1, h2, m. refine (conj _ (conj _ (conj H2 (conj H3 H4)))).
        * cbn. now rewrite H.
        * intros x [<-|Hx]; [split; [exact B|exact C]|now apply H1].
    - right. exists [], (s_cells s), e, a, (ahist s' l), m. refine (conj eq_refl (conj _ (conj A (conj B _)))); [intros x []|].
      intros x [<-|Hx]; [exact (conj (fun _ => D) F)|]. exact (hist_of _ _ B l s' C Hc x Hx).
  Qed.

  Lemma hist_cells : forall l s, steady l -> forall x, In x (ahist s l) -> fst (fst x) = s_cells s.
  Proof.
    induction l as [|e l IH]; intros s Hl x Hx; cbn in Hx; [destruct Hx|].
    assert (A : steady l) by (intros k X; apply (Hl k); now right).
    destruct (astep s e) as (s', a) eqn:E. destruct Hx as [<-|Hx]; [reflexivity|].
    rewrite (IH s' A x Hx). clear - E Hl. destruct s as [k sm mg]. destruct e as [| |st nd|k'|m']; cbn in E.
    - unfold get_states in E; cbn in E. destruct sm; [|destruct (array_states k)]; injection E as <- <-; reflexivity.
    - unfold get_margins in E; cbn in E. destruct mg; [injection E as <- <-; reflexivity|].
      unfold get_states in E; cbn in E. destruct sm as [m|]; [|destruct (array_states k) as [m|]]; [| |injection E as <- <-; reflexivity];
        destruct (margin_coords m); injection E as <- <-; reflexivity.
    - injection E as <- <-; reflexivity.
    - destruct (Hl k'). now left.
    - injection E as <- <-. cbn. now destruct sm.
  Qed.

  Lemma hist_rect : forall l s k st nd r, In (k, AskRect st nd, Rect r) (ahist s l) -> r = array_read_rect k st nd.
  Proof.
    induction l as [|e l IH]; intros s k st nd r Hx; cbn in Hx; [destruct Hx|].
    destruct (astep s e) as (s', a) eqn:E. destruct Hx as [Hx|Hx]; [|exact (IH _ _ _ _ _ Hx)].
    injection Hx as <- -> ->. cbn in E. now injection E as <- <-.
  Qed.
End Arrays.

(** ** xlrd sheets *)
Section Xlrds.
  Variable as_datetime : Q -> bool -> datetime.
  Variable epoch1904 : bool.
  Notation xstep := (step (fun s => Ok (xlrd_states s)) xlrd_read_margins
            (fun nd => match nd with None => false | Some _ => true end) (xlrd_read_of as_datetime epoch1904)).
  Notation xhist := (history (fun s => Ok (xlrd_states s)) xlrd_read_margins
            (fun nd => match nd with None => false | Some _ => true end) (xlrd_read_of as_datetime epoch1904)).

  Definition fresh (k : xsheet) (e : event xsheet) (a : answer xreading) : Prop :=
    match e with
    | AskStates => a = States (Ok (xlrd_states k))
    | AskMargins => a = Margins (xlrd_margins k)
    | AskRect st nd => a = Rect (xlrd_read_rect as_datetime epoch1904 k st nd)
    | _ => True
    end.

  Definition true_of (s : sheet xsheet) : Prop :=
    (s_states s = None \/ s_states s = Some (xlrd_states (s_cells s))) /\
    (s_margins s = None \/ exists b, s_margins s = Some b /\ xlrd_margins (s_cells s) = Ok b).

  Lemma read_fresh : forall k st nd, xlrd_read_of as_datetime epoch1904 k (Ok (xlrd_states k)) st nd = xlrd_read_rect as_datetime epoch1904 k st nd.
  Proof. intros k st [nd|]; reflexivity. Qed.

  Lemma xstep_true : forall s e, true_of s -> (forall k, e <> Change k) -> (forall m, e <> Scribble m) ->
    true_of (fst (xstep s e)) /\ s_cells (fst (xstep s e)) = s_cells s /\ fresh (s_cells s) e (snd (xstep s e)).
  Proof.
    intros [k sm mg] e (Hs & Hm) H1 H2. cbn in Hs, Hm. destruct e as [| |st nd|k'|m']; [| | |now destruct (H1 k')|now destruct (H2 m')].
    - cbn. unfold get_states. cbn. destruct Hs as [->|E]; [|rewrite E]; cbn; repeat apply conj; auto.
    - cbn. unfold get_margins. cbn [s_margins]. destruct Hm as [->|(b & E & F)].
      + unfold xlrd_margins, get_margin_coords. cbn [s_cells]. unfold xlrd_read_margins.
        destruct ((Z.of_nat (xs_rows k) - 1 <? 0) || (Z.of_nat (xs_cols k) - 1 <? 0)) eqn:N.
        * cbn. repeat apply conj; auto.
        * assert (G : get_states (fun s => Ok (xlrd_states s)) (Sheet k sm None) = (Sheet k (Some (xlrd_states k)) None, Ok (xlrd_states k)))
            by (unfold get_states; cbn; destruct Hs as [->|E]; [|rewrite E]; reflexivity).
          rewrite G. destruct (margin_coords (xlrd_states k)) as (u, d) eqn:M. cbn.
          refine (conj (conj (or_intror eq_refl) (or_intror _)) (conj eq_refl _)).
          -- eexists. split; [reflexivity|]. unfold xlrd_margins, get_margin_coords, xlrd_read_margins. cbn. rewrite N. cbn. now rewrite M.
          -- now rewrite M.
      + rewrite E. cbn. rewrite F. refine (conj (conj Hs (or_intror _)) (conj eq_refl eq_refl)). cbn. eauto.
    - cbn. unfold get_rect. destruct nd as [nd|]; cbn [s_cells].
      + unfold get_states. cbn. destruct Hs as [->|E]; [|rewrite E]; cbn; (refine (conj (conj _ _) (conj eq_refl _)); [now right|exact Hm|reflexivity]).
      + cbn. repeat apply conj; auto.
  Qed.

  Lemma xhist_true : forall l s, true_of s -> steady l -> clean l ->
    forall k e a, In (k, e, a) (xhist s l) -> k = s_cells s /\ fresh k e a.
  Proof.
    induction l as [|e l IH]; intros s Hs Hl Hc k e' a Hx; cbn in Hx; [destruct Hx|].
    destruct (xstep_true s e Hs) as (A & B & C); [intros k' ->; apply (Hl k'); now left|intros m' ->; apply (Hc m'); now left|].
    destruct (xstep s e) as (s', a') eqn:E. cbn in A, B, C. destruct Hx as [Hx|Hx].
    - injection Hx as <- <- <-. auto.
    - destruct (IH s' A) with (k := k) (e := e') (a := a) as (X & Y); auto; [intros k' Z; apply (Hl k'); now right|intros m' Z; apply (Hc m'); now right|].
      rewrite X in *. rewrite B in *. auto.
  Qed.
End Xlrds.
