(** Lemmas for C33: what element-wise filters visit and change. *)
From Coq Require Import String.
From Verif Require Import PyBase PyBase_Proofs Json Regex Coords_Model Capture_Model Parse_Model Lasso_Model Lasso_Spec Lasso_Proofs.

Lemma at_key_inv : forall d s p y, at_path (JDict d) (s :: p) y -> exists k x, s = Key k /\ In (k, x) d /\ at_path x p y.
Proof. intros d s p y H. inversion H; subst; eauto. Qed.
Lemma at_idx_inv : forall l s p y, at_path (JList l) (s :: p) y -> exists i x, s = Idx i /\ nth_error l i = Some x /\ at_path x p y.
Proof. intros d s p y H. inversion H; subst; eauto. Qed.
Lemma at_nil_inv : forall v y, at_path v [] y -> y = v.
Proof. intros v y H. inversion H; reflexivity. Qed.
Lemma at_cell_inv : forall v s p y, at_path v (s :: p) y -> is_a_dict v \/ is_a_list v.
Proof. intros v s p y H. inversion H; subst; [left|right]; eexists; reflexivity. Qed.
Lemma keys_unique : forall (d : list (pystr * json)) k x y, NoDup (map fst d) -> In (k, x) d -> In (k, y) d -> x = y.
Proof.
  induction d as [|[k0 z] d IH]; intros k x y Hn Hx Hy; [destruct Hx|]. cbn [map fst] in Hn. inversion Hn as [|a b Ha Hb]; subst.
  destruct Hx as [E|Hx], Hy as [F|Hy].
  - congruence.
  - injection E as -> ->. destruct Ha. apply (in_map fst) in Hy. exact Hy.
  - injection F as -> ->. destruct Ha. apply (in_map fst) in Hx. exact Hx.
  - eauto.
Qed.

Section Facts.
  Variables (include exclude : option (list pystr)) (depth : option Z) (g : json -> res (option json)).
  Definition alone (v : json) : Prop := g v = Ok None.
  Notation V := (visited include exclude depth alone).
  Notation incl := (is_included include exclude).

  Lemma incl_selected : forall k, incl k = true <-> selected include exclude k.
  Proof.
    intros k. unfold is_included, selected. rewrite andb_true_iff.
    assert (forall l, existsb (str_eqb k) l = true <-> In k l) as X.
    { intros l. rewrite existsb_exists. split; [intros (x & Hx & E); apply str_eqb_eq in E; congruence|intros H; exists k; split; [exact H|apply str_eqb_refl]]. }
    split; intros [H1 H2]; split.
    - intros l -> Hl. destruct l as [|a l]; [contradiction|]. apply X. exact H1.
    - intros l -> Hi. destruct l as [|a l]; [destruct Hi|]. apply X in Hi. rewrite Hi in H2. discriminate H2.
    - destruct include as [[|a l]|]; try reflexivity. apply X. apply H1; [reflexivity|discriminate].
    - destruct exclude as [[|a l]|]; try reflexivity. apply negb_true_iff. destruct (existsb (str_eqb k) (a :: l)) eqn:E; [|reflexivity].
      apply X in E. destruct (H2 _ eq_refl E).
  Qed.
  Lemma stop_depth : forall n, stop depth n = true <-> depth = Some n.
  Proof. intros n. unfold stop. destruct depth as [d|]; [|split; discriminate]. rewrite Z.eqb_eq. split; congruence. Qed.

  Record facts (n : Z) (v r : json) (ls : list json) : Prop := {
    F1 : exists ps, NoDup ps /\ (forall p, In p ps <-> V n v p /\ exists x, at_path v p x /\ ~ is_a_dict x) /\ Forall2 (at_path v) ps ls;
    F2 : forall p x y, V n v p -> at_path v p x -> ~ is_a_dict x -> g x = Ok (Some y) -> at_path r p y;
    F3 : forall p x, V n v p -> at_path v p x -> ~ is_a_dict x -> ~ is_a_list x -> g x = Ok None -> at_path r p x;
    F4 : forall p x, V n v p -> at_path v p x -> is_a_dict x \/ (is_a_list x /\ g x = Ok None) -> exists y, at_path r p y /\ same_form x y;
    F5 : forall p x, at_path v p x -> ~ V n v p -> (forall q q' z y, p = q ++ q' -> V n v q -> at_path v q z -> ~ is_a_dict z -> g z <> Ok (Some y)) ->
         at_path r p x }.

  Lemma V_depth : forall n v p, V n v p -> depth <> Some n.
  Proof. intros n v p H. inversion H; assumption. Qed.
  Lemma V_key_inv : forall n d s p, V n (JDict d) (s :: p) -> exists k x, s = Key k /\ In (k, x) d /\ selected include exclude k /\ V (n + 1) x p.
  Proof. intros n d s p H. inversion H; subst; eauto 7. Qed.
  Lemma V_idx_inv : forall n l s p, V n (JList l) (s :: p) -> alone (JList l) /\ exists i x, s = Idx i /\ nth_error l i = Some x /\ V (n + 1) x p.
  Proof. intros n l s p H. inversion H; subst; eauto 7. Qed.
  Lemma V_cell_inv : forall n v s p, V n v (s :: p) -> is_a_dict v \/ is_a_list v.
  Proof. intros n v s p H. inversion H; subst; [left|right]; eexists; reflexivity. Qed.

  Lemma facts_stop : forall n v, depth = Some n -> facts n v v [].
  Proof.
    intros n v Hd. split.
    - exists []. split; [constructor|]. split; [|constructor]. intros p. split; [intros []|]. intros [H _]. destruct (V_depth _ _ _ H Hd).
    - intros p x y H. destruct (V_depth _ _ _ H Hd).
    - intros p x H. destruct (V_depth _ _ _ H Hd).
    - intros p x H. destruct (V_depth _ _ _ H Hd).
    - intros p x H _ _. exact H.
  Qed.
  Lemma facts_processed : forall n v y, depth <> Some n -> ~ is_a_dict v -> g v = Ok (Some y) -> facts n v y [v].
  Proof.
    intros n v y Hd Hv Hg.
    assert (forall s p, ~ V n v (s :: p)) as X.
    { intros s p H. destruct (V_cell_inv _ _ _ _ H) as [F|(l & ->)]; [contradiction|]. apply V_idx_inv in H. destruct H as [H _]. unfold alone in H. congruence. }
    split.
    - exists [[]]. split; [constructor; [intros []|constructor]|]. split; [|constructor; [constructor|constructor]]. intros p. split.
      + intros [<-|[]]. split; [constructor; exact Hd|]. exists v. split; [constructor|exact Hv].
      + intros [H _]. destruct p as [|s p]; [left; reflexivity|destruct (X _ _ H)].
    - intros [|s p] x z H Ha Hx Hz; [|destruct (X _ _ H)]. apply at_nil_inv in Ha. subst x. rewrite Hg in Hz. injection Hz as <-. constructor.
    - intros [|s p] x H Ha Hx _ Hz; [|destruct (X _ _ H)]. apply at_nil_inv in Ha. subst x. congruence.
    - intros [|s p] x H Ha Hx; [|destruct (X _ _ H)]. apply at_nil_inv in Ha. subst x. destruct Hx as [F|[_ F]]; [contradiction|congruence].
    - intros p x Ha Hn Hq. destruct (Hq [] p v y eq_refl); [constructor; exact Hd|constructor|exact Hv|exact Hg].
  Qed.
  Lemma facts_cell : forall n v, depth <> Some n -> ~ is_a_dict v -> ~ is_a_list v -> g v = Ok None -> facts n v v [v].
  Proof.
    intros n v Hd Hv Hl Hg.
    assert (forall s p, ~ V n v (s :: p)) as X.
    { intros s p H. destruct (V_cell_inv _ _ _ _ H); contradiction. }
    split.
    - exists [[]]. split; [constructor; [intros []|constructor]|]. split; [|constructor; [constructor|constructor]]. intros p. split.
      + intros [<-|[]]. split; [constructor; exact Hd|]. exists v. split; [constructor|exact Hv].
      + intros [H _]. destruct p as [|s p]; [left; reflexivity|destruct (X _ _ H)].
    - intros [|s p] x z H Ha Hx Hz; [|destruct (X _ _ H)]. apply at_nil_inv in Ha. subst x. congruence.
    - intros p x H Ha _ _ _. exact Ha.
    - intros [|s p] x H Ha Hx; [|destruct (X _ _ H)]. apply at_nil_inv in Ha. subst x. destruct Hx as [F|[F _]]; contradiction.
    - intros p x Ha _ _. exact Ha.
  Qed.

  (** Dicts *)
  Inductive items_ok (n : Z) : dict -> dict -> list json -> Prop :=
  | Io_nil : items_ok n [] [] []
  | Io_in : forall k x y ls d d' ls', selected include exclude k -> facts (n + 1) x y ls -> items_ok n d d' ls' -> items_ok n ((k, x) :: d) ((k, y) :: d') (ls ++ ls')
  | Io_out : forall k x d d' ls', ~ selected include exclude k -> items_ok n d d' ls' -> items_ok n ((k, x) :: d) ((k, x) :: d') ls'.

  Lemma nodup_app : forall {A} (a b : list A), NoDup a -> NoDup b -> (forall x, In x a -> ~ In x b) -> NoDup (a ++ b).
  Proof.
    intros A a b Ha Hb H. induction Ha as [|x a Hx Ha IH]; [exact Hb|]. cbn. constructor.
    - intros F. apply in_app_or in F. destruct F as [F|F]; [contradiction|]. exact (H x (or_introl eq_refl) F).
    - apply IH. intros y Hy. apply H. right. exact Hy.
  Qed.
  Lemma nodup_map_cons : forall (s : step) ps, NoDup ps -> NoDup (map (cons s) ps).
  Proof.
    intros s ps H. induction H as [|p ps Hp _ IH]; [constructor|]. cbn. constructor; [|exact IH]. intros F. apply in_map_iff in F. destruct F as (q & E & Hq). congruence.
  Qed.

  Lemma items_facts : forall n d d' ls, items_ok n d d' ls -> NoDup (map fst d) ->
    map fst d = map fst d'
    /\ (exists ps, NoDup ps
        /\ (forall p, In p ps <-> exists k x q, p = Key k :: q /\ In (k, x) d /\ selected include exclude k /\ V (n + 1) x q /\ exists z, at_path x q z /\ ~ is_a_dict z)
        /\ Forall2 (fun p z => exists k x q, p = Key k :: q /\ In (k, x) d /\ at_path x q z) ps ls)
    /\ (forall k x, In (k, x) d -> selected include exclude k -> exists y ls, In (k, y) d' /\ facts (n + 1) x y ls)
    /\ (forall k x, In (k, x) d -> ~ selected include exclude k -> In (k, x) d').
  Proof.
    intros n d d' ls H. induction H as [|k x y ls d d' ls' Hk Hf H IH|k x d d' ls' Hk H IH]; intros Hn.
    - split; [reflexivity|]. split; [|split; intros k x []]. exists []. split; [constructor|]. split; [|constructor].
      intros p. split; [intros []|]. intros (k & x & q & _ & [] & _).
    - cbn [map fst] in Hn. inversion Hn as [|a b Ha Hb]; subst. destruct (IH Hb) as (E & (ps & P1 & P2 & P3) & I1 & I2). clear IH.
      split; [cbn; f_equal; exact E|]. split; [|split].
      + destruct (F1 _ _ _ _ Hf) as (qs & Q1 & Q2 & Q3). exists (map (cons (Key k)) qs ++ ps). split; [|split].
        * apply nodup_app; [apply nodup_map_cons; exact Q1|exact P1|]. intros p Hp Hp'. apply in_map_iff in Hp. destruct Hp as (q & <- & _).
          apply P2 in Hp'. destruct Hp' as (k' & x' & q' & E' & Hi & _). injection E' as -> _. apply (in_map fst) in Hi. contradiction.
        * intros p. rewrite in_app_iff, in_map_iff. split.
          -- intros [(q & <- & Hq)|Hp].
             ++ apply Q2 in Hq. destruct Hq as [Hq1 Hq2]. exists k, x, q. split; [reflexivity|]. split; [left; reflexivity|]. auto.
             ++ apply P2 in Hp. destruct Hp as (k' & x' & q' & E' & Hi & Hr). exists k', x', q'. split; [exact E'|]. split; [right; exact Hi|exact Hr].
          -- intros (k' & x' & q' & -> & [Hi|Hi] & Hs & Hv & Hz).
             ++ injection Hi as <- <-. left. exists q'. split; [reflexivity|]. apply Q2. auto.
             ++ right. apply P2. exists k', x', q'. auto 7.
        * apply Forall2_app.
          -- clear - Q3. induction Q3 as [|q z qs ls Hq _ IHq]; [constructor|]. cbn. constructor; [|exact IHq]. exists k, x, q. split; [reflexivity|]. split; [left; reflexivity|exact Hq].
          -- clear - P3. induction P3 as [|q z ps ls (k' & x' & q' & E & Hi & Ha) _ IHq]; [constructor|]. constructor; [|exact IHq]. exists k', x', q'. split; [exact E|]. split; [right; exact Hi|exact Ha].
      + intros k' x' [Hi|Hi] Hs; [injection Hi as <- <-; exists y, ls; split; [left; reflexivity|exact Hf]|].
        destruct (I1 k' x' Hi Hs) as (y' & ls0 & Hi' & Hf'). exists y', ls0. split; [right; exact Hi'|exact Hf'].
      + intros k' x' [Hi|Hi] Hs; [injection Hi as <- <-; contradiction|]. right. exact (I2 k' x' Hi Hs).
    - cbn [map fst] in Hn. inversion Hn as [|a b Ha Hb]; subst. destruct (IH Hb) as (E & (ps & P1 & P2 & P3) & I1 & I2). clear IH.
      split; [cbn; f_equal; exact E|]. split; [|split].
      + exists ps. split; [exact P1|]. split.
        * intros p. rewrite P2. split.
          -- intros (k' & x' & q' & E' & Hi & Hr). exists k', x', q'. split; [exact E'|]. split; [right; exact Hi|exact Hr].
          -- intros (k' & x' & q' & E' & [Hi|Hi] & Hs & Hr); [injection Hi as <- <-; contradiction|]. exists k', x', q'. auto.
        * clear - P3. induction P3 as [|q z ps ls (k' & x' & q' & E & Hi & Ha) _ IHq]; [constructor|]. constructor; [|exact IHq]. exists k', x', q'. split; [exact E|]. split; [right; exact Hi|exact Ha].
      + intros k' x' [Hi|Hi] Hs; [injection Hi as <- <-; contradiction|].
        destruct (I1 k' x' Hi Hs) as (y' & ls0 & Hi' & Hf'). exists y', ls0. split; [right; exact Hi'|exact Hf'].
      + intros k' x' [Hi|Hi] Hs; [left; exact Hi|]. right. exact (I2 k' x' Hi Hs).
  Qed.

  Lemma facts_dict : forall n d d' ls, depth <> Some n -> NoDup (map fst d) -> items_ok n d d' ls -> facts n (JDict d) (JDict d') ls.
  Proof.
    intros n d d' ls Hd Hn H. destruct (items_facts n d d' ls H Hn) as (E & (ps & P1 & P2 & P3) & I1 & I2).
    assert (is_a_dict (JDict d)) as Dd by (eexists; reflexivity).
    split.
    - exists ps. split; [exact P1|]. split.
      + intros p. rewrite P2. split.
        * intros (k & x & q & -> & Hi & Hs & Hv & z & Hz & Hz'). split; [eapply Vs_key; eassumption|]. exists z. split; [eapply At_key; eassumption|exact Hz'].
        * intros (Hv & z & Hz & Hz'). destruct p as [|s p]; [apply at_nil_inv in Hz; subst z; contradiction|].
          apply V_key_inv in Hv. destruct Hv as (k & x & -> & Hi & Hs & Hv). apply at_key_inv in Hz. destruct Hz as (k' & x' & E' & Hi' & Hz). injection E' as <-.
          rewrite (keys_unique d k x' x Hn Hi' Hi) in Hz. exists k, x, p. split; [reflexivity|]. split; [exact Hi|]. split; [exact Hs|]. split; [exact Hv|]. eauto.
      + clear - P3. induction P3 as [|q z ps ls (k & x & q' & -> & Hi & Ha) _ IH]; [constructor|]. constructor; [|exact IH]. eapply At_key; eassumption.
    - intros [|s p] x y Hv Ha Hx Hy; [apply at_nil_inv in Ha; subst x; contradiction|].
      apply V_key_inv in Hv. destruct Hv as (k & x0 & -> & Hi & Hs & Hv). apply at_key_inv in Ha. destruct Ha as (k' & x' & E' & Hi' & Ha). injection E' as <-.
      rewrite (keys_unique d k x' x0 Hn Hi' Hi) in Ha. destruct (I1 k x0 Hi Hs) as (y0 & ls0 & Hi0 & Hf). eapply At_key; [exact Hi0|]. exact (F2 _ _ _ _ Hf p x y Hv Ha Hx Hy).
    - intros [|s p] x Hv Ha Hx Hx' Hy; [apply at_nil_inv in Ha; subst x; contradiction|].
      apply V_key_inv in Hv. destruct Hv as (k & x0 & -> & Hi & Hs & Hv). apply at_key_inv in Ha. destruct Ha as (k' & x' & E' & Hi' & Ha). injection E' as <-.
      rewrite (keys_unique d k x' x0 Hn Hi' Hi) in Ha. destruct (I1 k x0 Hi Hs) as (y0 & ls0 & Hi0 & Hf). eapply At_key; [exact Hi0|]. exact (F3 _ _ _ _ Hf p x Hv Ha Hx Hx' Hy).
    - intros [|s p] x Hv Ha Hx.
      { apply at_nil_inv in Ha. subst x. exists (JDict d'). split; [constructor|]. left. exists d, d'. auto. }
      apply V_key_inv in Hv. destruct Hv as (k & x0 & -> & Hi & Hs & Hv). apply at_key_inv in Ha. destruct Ha as (k' & x' & E' & Hi' & Ha). injection E' as <-.
      rewrite (keys_unique d k x' x0 Hn Hi' Hi) in Ha. destruct (I1 k x0 Hi Hs) as (y0 & ls0 & Hi0 & Hf).
      destruct (F4 _ _ _ _ Hf p x Hv Ha Hx) as (y & Hy & Hy'). exists y. split; [eapply At_key; [exact Hi0|exact Hy]|exact Hy'].
    - intros [|s p] x Ha Hv Hq; [destruct Hv; constructor; exact Hd|].
      apply at_key_inv in Ha. destruct Ha as (k & x0 & -> & Hi & Ha).
      destruct (incl k) eqn:Ek.
      + apply incl_selected in Ek. destruct (I1 k x0 Hi Ek) as (y0 & ls0 & Hi0 & Hf). eapply At_key; [exact Hi0|]. apply (F5 _ _ _ _ Hf p x Ha).
        * intros F. apply Hv. eapply Vs_key; eassumption.
        * intros q q' z y -> Vq Aq Dz. apply (Hq (Key k :: q) q' z y eq_refl); [eapply Vs_key; eassumption|eapply At_key; eassumption|exact Dz].
      + eapply At_key; [|exact Ha]. apply I2; [exact Hi|]. intros F. apply incl_selected in F. congruence.
  Qed.

  (** Lists *)
  Inductive elems_ok (n : Z) : list json -> list json -> list json -> Prop :=
  | Eo_nil : elems_ok n [] [] []
  | Eo_cons : forall x y ls v v' ls', facts (n + 1) x y ls -> elems_ok n v v' ls' -> elems_ok n (x :: v) (y :: v') (ls ++ ls').

  Lemma elems_facts : forall n v v' ls, elems_ok n v v' ls -> forall i0,
    length v = length v'
    /\ (exists ps, NoDup ps
        /\ (forall p, In p ps <-> exists i x q, p = Idx (i0 + i) :: q /\ nth_error v i = Some x /\ V (n + 1) x q /\ exists z, at_path x q z /\ ~ is_a_dict z)
        /\ Forall2 (fun p z => exists i x q, p = Idx (i0 + i) :: q /\ nth_error v i = Some x /\ at_path x q z) ps ls)
    /\ (forall i x, nth_error v i = Some x -> exists y ls, nth_error v' i = Some y /\ facts (n + 1) x y ls).
  Proof.
    intros n v v' ls H. induction H as [|x y ls v v' ls' Hf H IH]; intros i0.
    - split; [reflexivity|]. split; [|intros [|i] x F; discriminate F]. exists []. split; [constructor|]. split; [|constructor].
      intros p. split; [intros []|]. intros ([|i] & x & q & _ & F & _); discriminate F.
    - destruct (IH (S i0)) as (E & (ps & P1 & P2 & P3) & I1). clear IH. split; [cbn; f_equal; exact E|]. split.
      + destruct (F1 _ _ _ _ Hf) as (qs & Q1 & Q2 & Q3). exists (map (cons (Idx i0)) qs ++ ps). split; [|split].
        * apply nodup_app; [apply nodup_map_cons; exact Q1|exact P1|]. intros p Hp Hp'. apply in_map_iff in Hp. destruct Hp as (q & <- & _).
          apply P2 in Hp'. destruct Hp' as (k' & x' & q' & E' & _). injection E' as E' _. lia.
        * intros p. rewrite in_app_iff, in_map_iff. split.
          -- intros [(q & <- & Hq)|Hp].
             ++ apply Q2 in Hq. destruct Hq as [Hq1 Hq2]. exists 0%nat, x, q. split; [rewrite Nat.add_0_r; reflexivity|]. split; [reflexivity|]. auto.
             ++ apply P2 in Hp. destruct Hp as (i & x' & q' & -> & Hi & Hr). exists (S i), x', q'. split; [rewrite Nat.add_succ_r; reflexivity|]. split; [exact Hi|exact Hr].
          -- intros ([|i] & x' & q' & -> & Hi & Hv & Hz).
             ++ injection Hi as <-. left. exists q'. split; [rewrite Nat.add_0_r; reflexivity|]. apply Q2. auto.
             ++ right. apply P2. exists i, x', q'. split; [rewrite Nat.add_succ_r; reflexivity|]. auto.
        * apply Forall2_app.
          -- clear - Q3. induction Q3 as [|q z qs ls Hq _ IHq]; [constructor|]. cbn. constructor; [|exact IHq]. exists 0%nat, x, q. split; [rewrite Nat.add_0_r; reflexivity|]. split; [reflexivity|exact Hq].
          -- clear - P3. induction P3 as [|q z ps ls (i & x' & q' & -> & Hi & Ha) _ IHq]; [constructor|]. constructor; [|exact IHq]. exists (S i), x', q'. split; [rewrite Nat.add_succ_r; reflexivity|]. split; [exact Hi|exact Ha].
      + intros [|i] x' Hi; [injection Hi as <-; exists y, ls; split; [reflexivity|exact Hf]|]. exact (I1 i x' Hi).
  Qed.

  Lemma facts_list : forall n v v' ls, depth <> Some n -> g (JList v) = Ok None -> elems_ok n v v' ls -> facts n (JList v) (JList v') (JList v :: ls).
  Proof.
    intros n v v' ls Hd Hg H. destruct (elems_facts n v v' ls H 0%nat) as (E & (ps & P1 & P2 & P3) & I1). cbn [Nat.add] in P2, P3.
    assert (~ is_a_dict (JList v)) as Dd by (intros (x & F); discriminate F).
    assert (is_a_list (JList v)) as Ll by (eexists; reflexivity).
    split.
    - exists ([] :: ps). split; [constructor; [|exact P1]|split].
      + intros F. apply P2 in F. destruct F as (i & x & q & F & _). discriminate F.
      + intros p. split.
        * intros [<-|Hp]; [split; [constructor; exact Hd|exists (JList v); split; [constructor|exact Dd]]|].
          apply P2 in Hp. destruct Hp as (i & x & q & -> & Hi & Hv & z & Hz & Hz'). split; [eapply Vs_idx; eassumption|]. exists z. split; [eapply At_idx; eassumption|exact Hz'].
        * intros (Hv & z & Hz & Hz'). destruct p as [|s p]; [left; reflexivity|right]. apply P2.
          apply V_idx_inv in Hv. destruct Hv as (_ & i & x & -> & Hi & Hv). apply at_idx_inv in Hz. destruct Hz as (i' & x' & E' & Hi' & Hz). injection E' as <-.
          rewrite Hi' in Hi. injection Hi as <-. exists i, x', p. split; [reflexivity|]. split; [exact Hi'|]. split; [exact Hv|]. eauto.
      + constructor; [constructor|]. clear - P3. induction P3 as [|q z ps ls (k & x & q' & -> & Hi & Ha) _ IH]; [constructor|]. constructor; [|exact IH]. eapply At_idx; eassumption.
    - intros [|s p] x y Hv Ha Hx Hy; [apply at_nil_inv in Ha; subst x; congruence|].
      apply V_idx_inv in Hv. destruct Hv as (_ & i & x0 & -> & Hi & Hv). apply at_idx_inv in Ha. destruct Ha as (i' & x' & E' & Hi' & Ha). injection E' as <-.
      rewrite Hi' in Hi. injection Hi as <-. destruct (I1 i x' Hi') as (y0 & ls0 & Hi0 & Hf). eapply At_idx; [exact Hi0|]. exact (F2 _ _ _ _ Hf p x y Hv Ha Hx Hy).
    - intros [|s p] x Hv Ha Hx Hx' Hy; [apply at_nil_inv in Ha; subst x; contradiction|].
      apply V_idx_inv in Hv. destruct Hv as (_ & i & x0 & -> & Hi & Hv). apply at_idx_inv in Ha. destruct Ha as (i' & x' & E' & Hi' & Ha). injection E' as <-.
      rewrite Hi' in Hi. injection Hi as <-. destruct (I1 i x' Hi') as (y0 & ls0 & Hi0 & Hf). eapply At_idx; [exact Hi0|]. exact (F3 _ _ _ _ Hf p x Hv Ha Hx Hx' Hy).
    - intros [|s p] x Hv Ha Hx.
      { apply at_nil_inv in Ha. subst x. exists (JList v'). split; [constructor|]. right. exists v, v'. auto. }
      apply V_idx_inv in Hv. destruct Hv as (_ & i & x0 & -> & Hi & Hv). apply at_idx_inv in Ha. destruct Ha as (i' & x' & E' & Hi' & Ha). injection E' as <-.
      rewrite Hi' in Hi. injection Hi as <-. destruct (I1 i x' Hi') as (y0 & ls0 & Hi0 & Hf).
      destruct (F4 _ _ _ _ Hf p x Hv Ha Hx) as (y & Hy & Hy'). exists y. split; [eapply At_idx; [exact Hi0|exact Hy]|exact Hy'].
    - intros [|s p] x Ha Hv Hq; [destruct Hv; constructor; exact Hd|].
      apply at_idx_inv in Ha. destruct Ha as (i & x0 & -> & Hi & Ha).
      destruct (I1 i x0 Hi) as (y0 & ls0 & Hi0 & Hf). eapply At_idx; [exact Hi0|]. apply (F5 _ _ _ _ Hf p x Ha).
      + intros F. apply Hv. eapply Vs_idx; eassumption.
      + intros q q' z y -> Vq Aq Dz. apply (Hq (Idx i :: q) q' z y eq_refl); [eapply Vs_idx; eassumption|eapply At_idx; eassumption|exact Dz].
  Qed.
End Facts.

(** A function whose calls are logged *)
Section Logging.
  Context {SH : Type}.
  Variable filters : pystr -> option (filter (list json) SH).
  Variables (include exclude : option (list pystr)) (depth : option Z) (g : json -> res (option json)).
  Definition logging (l : lasso SH) (x : location SH) (v : json) : M (list json) SH (bool * fval SH) :=
    fun s => (State (world s ++ [v]) (inter s),
              match g v with Raise e => Raise e | Ok None => Ok (false, inl l) | Ok (Some y) => Ok (true, inr y) end).
  Variable has_pandas : bool.
  Variable l : lasso SH.
  Notation dv := (dive filters logging has_pandas l include exclude depth).
  Notation call := (call_element_func filters logging l).

  Lemma call_logging : forall v b s, call v b (s, []) =
    ((State (world s ++ [v]) (inter s), []), match g v with Raise _ => Raise ValueError | Ok o => Ok o end).
  Proof. intros v b s. unfold call_element_func, catching, logging. destruct (g v) as [[y|]|e]; reflexivity. Qed.


  Definition good_log (ls : list json) : Prop := forall y, In y ls -> exists o, g y = Ok o.

  Lemma dive_outcome : forall v, proper v -> forall n b s es' r e, dv v n b (s, []) = (es', r, e) ->
    exists ls, es' = (State (world s ++ ls) (inter s), [])
    /\ match e with
       | None => facts include exclude depth g n v r ls /\ good_log ls
       | Some e => e = ValueError /\ exists ls' x e', ls = ls' ++ [x] /\ g x = Raise e' /\ good_log ls'
       end.
  Proof.
    assert (forall s : state (list json) SH, s = State (world s ++ []) (inter s)) as St by (intros [w i]; cbn; rewrite app_nil_r; reflexivity).
    intros v. induction v as [|bb|z|t|v IH|d IH] using json_ind'; intros Hp n b s es' r e H;
      (destruct (stop depth n) eqn:En;
       [apply stop_depth in En; pose proof (dive_stop filters logging has_pandas l include exclude depth) as X; rewrite X in H by (apply stop_depth; exact En); injection H as <- <- <-;
        exists []; split; [rewrite <- St; reflexivity|]; split; [apply facts_stop; exact En|intros y []]|
        assert (depth <> Some n) as Hd by (intros F; apply stop_depth in F; congruence)]).
    1-4: (rewrite (dive_other filters logging has_pandas l include exclude depth) in H by (exact En || (intros (q & F); discriminate F)); rewrite call_logging in H;
          match type of H with context [g ?x] => destruct (g x) as [[y|]|e0] eqn:Eg end; injection H as <- <- <-; eexists; (split; [reflexivity|]);
          [split; [apply facts_processed; auto; intros (q & F); discriminate F|intros y' [<-|[]]; eauto]
          |split; [apply facts_cell; auto; intros (q & F); discriminate F|intros y' [<-|[]]; eauto]
          |split; [reflexivity|]; eexists [], _, _; split; [reflexivity|]; split; [exact Eg|intros y []]]).
    - rewrite (dive_other filters logging has_pandas l include exclude depth) in H by (exact En || (intros (q & F); discriminate F)). rewrite call_logging in H.
      destruct (g (JList v)) as [[y|]|e0] eqn:Eg.
      + injection H as <- <- <-. eexists. split; [reflexivity|]. split; [apply facts_processed; auto; intros (q & F); discriminate F|intros y' [<-|[]]; eauto].
      + destruct (dive_elems filters logging has_pandas l include exclude depth n b v 0 (State (world s ++ [JList v]) (inter s), [])) as [[es1 v1] e1] eqn:Ee. injection H as <- <- <-.
        assert (forall x, In x v -> proper x) as Hpv by (inversion Hp as [? _ F| |]; subst; [destruct (F v eq_refl)|assumption]).
        assert (forall v i s es1 v1 e1, Forall (fun v => proper v -> forall n b s es' r e, dv v n b (s, []) = (es', r, e) ->
            exists ls, es' = (State (world s ++ ls) (inter s), [])
            /\ match e with
               | None => facts include exclude depth g n v r ls /\ good_log ls
               | Some e => e = ValueError /\ exists ls' x e', ls = ls' ++ [x] /\ g x = Raise e' /\ good_log ls'
               end) v -> (forall x, In x v -> proper x) ->
            dive_elems filters logging has_pandas l include exclude depth n b v i (s, []) = (es1, v1, e1) ->
            exists ls, es1 = (State (world s ++ ls) (inter s), [])
            /\ match e1 with
               | None => elems_ok include exclude depth g n v v1 ls /\ good_log ls
               | Some e => e = ValueError /\ exists ls' x e', ls = ls' ++ [x] /\ g x = Raise e' /\ good_log ls'
               end) as X.
        { clear - St. induction v as [|x v IHv]; intros i s es1 v1 e1 IH Hp H; cbn [dive_elems] in H.
          - injection H as <- <- <-. exists []. split; [rewrite <- St; reflexivity|]. split; [constructor|intros y []].
          - inversion IH as [|? ? Hx Hv]; subst.
            destruct (dv x (n + 1)%Z (upd_base_coords has_pandas n b i) (s, [])) as [[es2 y] e2] eqn:Ex.
            destruct (Hx (Hp x (or_introl eq_refl)) _ _ _ _ _ _ Ex) as (ls & -> & Hls). destruct e2 as [e2|].
            + injection H as <- <- <-. exists ls. split; [reflexivity|exact Hls].
            + destruct (dive_elems filters logging has_pandas l include exclude depth n b v (i + 1) (State (world s ++ ls) (inter s), [])) as [[es3 r] e3] eqn:Er. injection H as <- <- <-.
              destruct (IHv _ _ _ _ _ Hv (fun x Hx => Hp x (or_intror Hx)) Er) as (ls2 & -> & Hls2). exists (ls ++ ls2). cbn [world inter]. rewrite <- app_assoc. split; [reflexivity|].
              destruct Hls as [Hf Hg]. destruct e3 as [e3|].
              * destruct Hls2 as (-> & ls' & z & e' & -> & Hz & Hg'). split; [reflexivity|]. exists (ls ++ ls'), z, e'. split; [apply app_assoc|]. split; [exact Hz|].
                intros w Hw. apply in_app_or in Hw. destruct Hw; auto.
              * destruct Hls2 as [Hf2 Hg2]. split; [constructor; assumption|]. intros w Hw. apply in_app_or in Hw. destruct Hw; auto. }
        destruct (X _ _ _ _ _ _ IH Hpv Ee) as (ls & -> & Hls). exists (JList v :: ls). cbn [world inter]. rewrite <- app_assoc. split; [reflexivity|]. destruct e1 as [e1|].
        * destruct Hls as (-> & ls' & z & e' & -> & Hz & Hg'). split; [reflexivity|]. exists (JList v :: ls'), z, e'. split; [reflexivity|]. split; [exact Hz|]. intros w [<-|Hw]; eauto.
        * destruct Hls as [Hf2 Hg2]. split; [apply facts_list; assumption|]. intros w [<-|Hw]; eauto.
      + injection H as <- <- <-. eexists. split; [reflexivity|]. split; [reflexivity|]. eexists [], _, _. split; [reflexivity|]. split; [exact Eg|intros y []].
    - rewrite (dive_dict filters logging has_pandas l include exclude depth) in H by exact En.
      destruct (dive_items filters logging has_pandas l include exclude depth n d (s, [])) as [[es1 d1] e1] eqn:Ee. injection H as <- <- <-.
      assert (NoDup (map fst d) /\ forall k x, In (k, x) d -> proper x) as [Hnd Hpv] by (inversion Hp as [? F _| |]; subst; [destruct (F d eq_refl)|split; assumption]).
      assert (forall d s es1 d1 e1, Forall (fun kv => proper (snd kv) -> forall n b s es' r e, dv (snd kv) n b (s, []) = (es', r, e) ->
          exists ls, es' = (State (world s ++ ls) (inter s), [])
          /\ match e with
             | None => facts include exclude depth g n (snd kv) r ls /\ good_log ls
             | Some e => e = ValueError /\ exists ls' x e', ls = ls' ++ [x] /\ g x = Raise e' /\ good_log ls'
             end) d -> (forall k x, In (k, x) d -> proper x) ->
          dive_items filters logging has_pandas l include exclude depth n d (s, []) = (es1, d1, e1) ->
          exists ls, es1 = (State (world s ++ ls) (inter s), [])
          /\ match e1 with
             | None => items_ok include exclude depth g n d d1 ls /\ good_log ls
             | Some e => e = ValueError /\ exists ls' x e', ls = ls' ++ [x] /\ g x = Raise e' /\ good_log ls'
             end) as X.
      { clear - St. induction d as [|[k x] d IHd]; intros s es1 d1 e1 IH Hp H; cbn [dive_items] in H.
        - injection H as <- <- <-. exists []. split; [rewrite <- St; reflexivity|]. split; [constructor|intros y []].
        - inversion IH as [|? ? Hx Hv]; subst. cbn [snd] in Hx. destruct (is_included include exclude k) eqn:Ek.
          + apply incl_selected in Ek. destruct (dv x (n + 1)%Z None (s, [])) as [[es2 y] e2] eqn:Ex.
            destruct (Hx (Hp k x (or_introl eq_refl)) _ _ _ _ _ _ Ex) as (ls & -> & Hls). destruct e2 as [e2|].
            * injection H as <- <- <-. exists ls. split; [reflexivity|exact Hls].
            * destruct (dive_items filters logging has_pandas l include exclude depth n d (State (world s ++ ls) (inter s), [])) as [[es3 r] e3] eqn:Er. injection H as <- <- <-.
              destruct (IHd _ _ _ _ Hv (fun k x Hx => Hp k x (or_intror Hx)) Er) as (ls2 & -> & Hls2). exists (ls ++ ls2). cbn [world inter]. rewrite <- app_assoc. split; [reflexivity|].
              destruct Hls as [Hf Hg]. destruct e3 as [e3|].
              -- destruct Hls2 as (-> & ls' & z & e' & -> & Hz & Hg'). split; [reflexivity|]. exists (ls ++ ls'), z, e'. split; [apply app_assoc|]. split; [exact Hz|].
                 intros w Hw. apply in_app_or in Hw. destruct Hw; auto.
              -- destruct Hls2 as [Hf2 Hg2]. split; [apply Io_in; assumption|]. intros w Hw. apply in_app_or in Hw. destruct Hw; auto.
          + destruct (dive_items filters logging has_pandas l include exclude depth n d (s, [])) as [[es3 r] e3] eqn:Er. injection H as <- <- <-.
            destruct (IHd _ _ _ _ Hv (fun k x Hx => Hp k x (or_intror Hx)) Er) as (ls2 & -> & Hls2). exists ls2. split; [reflexivity|].
            destruct e3 as [e3|]; [exact Hls2|]. destruct Hls2 as [Hf2 Hg2]. split; [|exact Hg2]. apply Io_out; [|exact Hf2]. intros F. apply incl_selected in F. congruence. }
      destruct (X _ _ _ _ _ IH Hpv Ee) as (ls & -> & Hls). exists ls. split; [reflexivity|]. destruct e1 as [e1|]; [exact Hls|].
      destruct Hls as [Hf Hg]. split; [apply facts_dict; assumption|exact Hg].
  Qed.
End Logging.
