(** * Where objects are does not matter *)
From Coq Require Import String Lia.
From Verif Require Import PyBase PyBase_Proofs Json JsonPointer_Model Paths_Model Pmod_Model Pmod_Spec
  Pmod_Proofs Pstep_Model Pstep_Spec PstepPmod_Proofs Pstep_Proofs Comp_Model.

Lemma nth_update : forall A (l : list A) i v j d, nth j (list_update l i v) d
  = if Nat.eqb i j then if Nat.ltb i (length l) then v else d else nth j l d.
Proof.
  induction l as [|x l IH]; intros [|i] v [|j] d; cbn [list_update nth Nat.eqb length]; auto.
  - destruct (Nat.eqb i j); reflexivity.
  - rewrite IH. reflexivity.
Qed.

Section Shift.
  (** Two heaps that are equal from these sizes on, and in the cells [inp] below. *)
  Variables ns ns' nd nd' nc nc' : nat.
  Variable inp : nat -> Prop.
  Hypothesis inp_lt : forall l, inp l -> (l < nc)%nat /\ (l < nc')%nat.

  Definition fs (i : nat) := (i - ns + ns')%nat.
  Definition fd (d : nat) := (d - nd + nd')%nat.
  Definition fl (l : nat) := if Nat.ltb l nc then l else (l - nc + nc')%nat.
  Definition dom (l : nat) := inp l \/ (nc <= l)%nat.

  Fixpoint lmap (p : lpmod) : lpmod :=
    match p with
    | LP l s r => LP (fl l) (map (fun kp => (fst kp, lmap (snd kp))) s)
                            (map (fun kp => (fst kp, lmap (snd kp))) r)
    end.
  Definition lm := map (fun kp : pystr * lpmod => (fst kp, lmap (snd kp))).

  Definition rc (c c' : cells) : Prop :=
    (nc <= length c)%nat /\ length c' = (length c - nc + nc')%nat
    /\ forall l, dom l -> (l < length c)%nat -> nth (fl l) c' None = nth l c None.

  Definition ok (c : cells) (p : lpmod) : Prop := forall x, has_label p x -> dom x /\ (x < length c)%nat.
  Definition oks (c : cells) (d : list (pystr * lpmod)) : Prop := forall k p, In (k, p) d -> ok c p.

  Lemma fl_new : forall l, (nc <= l)%nat -> fl l = (l - nc + nc')%nat.
  Proof. intros l H. unfold fl. destruct (Nat.ltb_spec l nc); lia. Qed.
  Lemma fl_old : forall l, inp l -> fl l = l.
  Proof. intros l H. unfold fl. apply inp_lt in H. destruct (Nat.ltb_spec l nc); lia. Qed.
  Lemma fl_inj : forall a b, dom a -> dom b -> fl a = fl b -> a = b.
  Proof.
    intros a b [Ha|Ha] [Hb|Hb].
    - rewrite (fl_old a), (fl_old b) by auto. auto.
    - rewrite (fl_old a), (fl_new b) by auto. apply inp_lt in Ha. lia.
    - rewrite (fl_new a), (fl_old b) by auto. apply inp_lt in Hb. lia.
    - rewrite (fl_new a), (fl_new b) by auto. lia.
  Qed.
  Lemma rc_length : forall c c', rc c c' -> length c' = fl (length c).
  Proof. intros c c' [H1 [H2 _]]. rewrite fl_new by auto. exact H2. Qed.

  Lemma rc_snoc : forall c c' a, rc c c' -> rc (c ++ [a]) (c' ++ [a]).
  Proof.
    intros c c' a R. assert (L := rc_length _ _ R). destruct R as [H1 [H2 H3]].
    split; [rewrite app_length; cbn; lia|]. split; [rewrite !app_length; cbn; lia|].
    intros l D Hl. rewrite app_length in Hl. cbn in Hl.
    destruct (Nat.eq_dec l (length c)) as [->|N].
    - rewrite <- L, !nth_middle. reflexivity.
    - rewrite !app_nth1; try lia; auto; [apply H3; auto; lia|].
      destruct D as [D|D]; [rewrite fl_old by auto|rewrite fl_new by auto; lia].
      apply inp_lt in D. lia.
  Qed.

  Lemma rc_update : forall c c' l v, rc c c' -> dom l -> (l < length c)%nat ->
    rc (list_update c l v) (list_update c' (fl l) v).
  Proof.
    intros c c' l v [H1 [H2 H3]] D Hl. split; [now rewrite list_update_length|].
    split; [now rewrite !list_update_length|]. rewrite list_update_length. intros x Dx Hx.
    rewrite !nth_update. destruct (Nat.eqb_spec l x) as [->|N].
    - rewrite Nat.eqb_refl. destruct (Nat.ltb_spec x (length c)); [|lia].
      destruct (Nat.ltb_spec (fl x) (length c')); auto. exfalso.
      destruct Dx as [Dx|Dx]; [rewrite fl_old in H0 by auto; apply inp_lt in Dx; lia|rewrite fl_new in H0 by auto; lia].
    - destruct (Nat.eqb_spec (fl l) (fl x)) as [E|E]; [exfalso; apply N; now apply fl_inj|]. auto.
  Qed.

  Lemma ok_inv : forall c l s r, ok c (LP l s r) <-> (dom l /\ (l < length c)%nat) /\ oks c s /\ oks c r.
  Proof.
    intros c l s r. split.
    - intros H. split; [|split].
      + apply H. constructor.
      + intros k p Hin x Hx. apply H. eapply Hl_step; eauto.
      + intros k p Hin x Hx. apply H. eapply Hl_regx; eauto.
    - intros [H1 [H2 H3]] x Hx. inversion Hx; subst; auto; [eapply H2|eapply H3]; eauto.
  Qed.
  Lemma ok_more : forall c c1 p, (length c <= length c1)%nat -> ok c p -> ok c1 p.
  Proof. intros c c1 p L H x Hx. destruct (H x Hx). split; auto. lia. Qed.
  Lemma oks_more : forall c c1 d, (length c <= length c1)%nat -> oks c d -> oks c1 d.
  Proof. intros c c1 d L H k p Hin. eapply ok_more; eauto. Qed.
  Lemma lmerge_longer : forall s o c m c1, lmerge s o c = (m, c1) -> (length c <= length c1)%nat.
  Proof.
    intros s o c m c1 E. destruct (lmerge_ext o s c) as [cx Ex]. rewrite E in Ex. cbn in Ex. subst c1.
    rewrite app_length. lia.
  Qed.

  Lemma lm_app : forall a b, lm (a ++ b) = lm a ++ lm b.  Proof. intros. apply map_app. Qed.
  Lemma lm_dget : forall k d, dget str_eqb k (lm d) = option_map lmap (dget str_eqb k d).
  Proof. induction d as [|[k' p] d IH]; cbn; auto. destruct (str_eqb k k'); auto. Qed.
  Lemma lm_dset : forall k p d, lm (dset str_eqb k p d) = dset str_eqb k (lmap p) (lm d).
  Proof. induction d as [|[k' p'] d IH]; cbn; auto. destruct (str_eqb k k'); cbn; auto. f_equal. exact IH. Qed.
  Lemma lm_dmem : forall k d, dmem str_eqb k (lm d) = dmem str_eqb k d.
  Proof. intros. unfold dmem. rewrite lm_dget. destruct (dget str_eqb k d); auto. Qed.
  Lemma lm_filter : forall (f : pystr -> bool) d,
    lm (filter (fun x => f (fst x)) d) = filter (fun x => f (fst x)) (lm d).
  Proof. induction d as [|[k p] d IH]; cbn; auto. destruct (f k); cbn; f_equal; auto. Qed.
  Lemma oks_dget : forall c k d p, oks c d -> dget str_eqb k d = Some p -> ok c p.
  Proof. intros c k d p H E. apply dget_In in E. eauto. Qed.
  Lemma oks_dset : forall c k d p, oks c d -> ok c p -> oks c (dset str_eqb k p d).
  Proof. intros c k d p H Hp k2 p2 Hin. apply In_dset in Hin. destruct Hin as [E|Hin]; [injection E as -> ->; auto|eauto]. Qed.

  Definition shifts (o : lpmod) : Prop := forall s c c' m c1, lmerge s o c = (m, c1) -> ok c s -> ok c o -> rc c c' ->
    ok c1 m /\ exists c1', lmerge (lmap s) (lmap o) c' = (lmap m, c1') /\ rc c1 c1'.

  Lemma fsteps_shift : forall c0 c0' os, (forall k o, In (k, o) os -> shifts o) ->
    forall d c d1 c1 c', fold_left (fsteps c0) os (d, c) = (d1, c1) -> oks c d -> oks c os -> rc c c' ->
    (length c <= length c1)%nat /\ oks c1 d1
    /\ exists c1', fold_left (fsteps c0') (lm os) (lm d, c') = (lm d1, c1') /\ rc c1 c1'.
  Proof.
    intros c0 c0' os. induction os as [|[k o] os IH]; intros H d c d1 c1 c' E Hd Ho R; cbn [fold_left lm map] in *.
    - injection E as <- <-. split; auto. split; auto. eauto.
    - unfold fsteps at 2 in E. unfold fsteps at 2. cbn [fst snd] in *. rewrite lm_dget.
      destruct (dget str_eqb k d) as [sp|] eqn:Ed; cbn [option_map].
      + destruct (lmerge sp o c) as [m c2] eqn:Em. assert (L := lmerge_longer _ _ _ _ _ Em).
        destruct (H k o (or_introl eq_refl) _ _ _ _ _ Em (oks_dget _ _ _ _ Hd Ed) (Ho k o (or_introl eq_refl)) R) as [A [c2' [B C]]].
        rewrite B. rewrite <- lm_dset.
        destruct (IH (fun k2 o2 Hin => H k2 o2 (or_intror Hin)) _ _ _ _ c2' E) as [L2 X]; auto.
        * apply oks_dset; auto. eapply oks_more; eauto.
        * intros k2 o2 Hin. eapply ok_more; [exact L|]. apply (Ho k2). now right.
        * split; auto. lia.
      + rewrite <- lm_dset. apply (IH (fun k2 o2 Hin => H k2 o2 (or_intror Hin)) _ _ _ _ c' E); auto.
        * apply oks_dset; auto. apply (Ho k). now left.
        * intros k2 o2 Hin. apply (Ho k2). now right.
  Qed.

  Lemma fregxs_shift : forall sr os, (forall k o, In (k, o) os -> shifts o) ->
    forall d c d1 c1 c', fold_left (fregxs sr) os (d, c) = (d1, c1) -> oks c sr -> oks c d -> oks c os -> rc c c' ->
    (length c <= length c1)%nat /\ oks c1 d1
    /\ exists c1', fold_left (fregxs (lm sr)) (lm os) (lm d, c') = (lm d1, c1') /\ rc c1 c1'.
  Proof.
    intros sr os. induction os as [|[k o] os IH]; intros H d c d1 c1 c' E Hsr Hd Ho R; cbn [fold_left lm map] in *.
    - injection E as <- <-. split; auto. split; auto. eauto.
    - unfold fregxs at 2 in E. unfold fregxs at 2. cbn [fst snd] in *. rewrite lm_dget.
      destruct (dget str_eqb k sr) as [sp|] eqn:Ed; cbn [option_map].
      + destruct (lmerge sp o c) as [m c2] eqn:Em. assert (L := lmerge_longer _ _ _ _ _ Em).
        destruct (H k o (or_introl eq_refl) _ _ _ _ _ Em (oks_dget _ _ _ _ Hsr Ed) (Ho k o (or_introl eq_refl)) R) as [A [c2' [B C]]].
        rewrite B. replace (lm d ++ [(k, lmap m)]) with (lm (d ++ [(k, m)])) by (unfold lm; now rewrite map_app).
        destruct (IH (fun k2 o2 Hin => H k2 o2 (or_intror Hin)) _ _ _ _ c2' E) as [L2 X]; auto.
        * eapply oks_more; eauto.
        * intros k2 p2 Hin. apply in_app_or in Hin. destruct Hin as [Hin|[Hin|[]]];
            [eapply ok_more; [exact L|eauto]|now injection Hin as <- <-].
        * intros k2 o2 Hin. eapply ok_more; [exact L|]. apply (Ho k2). now right.
        * split; auto. lia.
      + replace (lm d ++ [(k, lmap o)]) with (lm (d ++ [(k, o)])) by (unfold lm; now rewrite map_app).
        apply (IH (fun k2 o2 Hin => H k2 o2 (or_intror Hin)) _ _ _ _ c' E); auto.
        * intros k2 p2 Hin. apply in_app_or in Hin. destruct Hin as [Hin|[Hin|[]]]; [eauto|].
          injection Hin as <- <-. apply (Ho k). now left.
        * intros k2 o2 Hin. apply (Ho k2). now right.
  Qed.

  Lemma l_steps_lmap : forall p, l_steps (lmap p) = lm (l_steps p).  Proof. intros [l s r]. reflexivity. Qed.
  Lemma l_regxs_lmap : forall p, l_regxs (lmap p) = lm (l_regxs p).  Proof. intros [l s r]. reflexivity. Qed.
  Lemma l_label_lmap : forall p, l_label (lmap p) = fl (l_label p).  Proof. intros [l s r]. reflexivity. Qed.
  Lemma ok_label : forall c p, ok c p -> dom (l_label p) /\ (l_label p < length c)%nat.
  Proof. intros c [l s r] H. apply H. constructor. Qed.
  Lemma l_alias_lmap : forall c c' p, ok c p -> rc c c' -> l_alias c' (lmap p) = l_alias c p.
  Proof. intros c c' p H [_ [_ R]]. unfold l_alias. rewrite l_label_lmap. apply ok_label in H. now apply R. Qed.

  Lemma lmerge_shift : forall o, shifts o.
  Proof.
    induction o as [ol os or IHs IHr] using lpmod_ind'. intros s c0 c0' m c3 E Hs Ho R.
    cbn [lmap]. fold (lm os). fold (lm or). rewrite lmerge_eq in *. cbv zeta in *.
    rewrite l_steps_lmap, l_regxs_lmap, (l_alias_lmap c0) by auto.
    assert (Eo := l_alias_lmap c0 c0' (LP ol os or) Ho R). unfold l_alias in Eo. cbn [lmap l_label] in Eo.
    rewrite Eo. clear Eo.
    set (a := match nth ol c0 None with Some a => Some a | None => l_alias c0 s end) in *.
    assert (R1 := rc_snoc _ _ a R).
    assert (L1 : (length c0 <= length (c0 ++ [a]))%nat) by (rewrite app_length; lia).
    assert (Hl := rc_length _ _ R).
    assert (HL : dom (length c0) /\ (length c0 < length (c0 ++ [a]))%nat).
    { split; [right; apply R|rewrite app_length; cbn; lia]. }
    set (c1 := c0 ++ [a]) in *. set (c1' := c0' ++ [a]) in *.
    apply (proj1 (ok_inv _ _ _ _)) in Ho. destruct Ho as [_ [Hos Hor]].
    assert (Hs' : oks c0 (l_steps s) /\ oks c0 (l_regxs s)).
    { destruct s. apply (proj1 (ok_inv _ _ _ _)) in Hs. destruct Hs as [_ Hs]. exact Hs. }
    destruct Hs' as [Hss Hsr].
    destruct (match os with [] => (l_steps s, c1) | _ => _ end) as [st c2] eqn:E1.
    assert (X : (length c1 <= length c2)%nat /\ oks c2 st /\ exists c2',
      match lm os with [] => (lm (l_steps s), c1') | _ => match lm (l_steps s) with [] => (lm os, c1')
        | _ => fold_left (fsteps c0') (lm os) (lm (l_steps s), c1') end end = (lm st, c2') /\ rc c2 c2').
    { destruct os as [|o1 os1].
      - injection E1 as <- <-. split; auto. split; [eapply oks_more; eauto|]. cbn. eauto.
      - destruct (l_steps s) as [|s1 ss1] eqn:Es.
        + injection E1 as <- <-. split; auto. split; [eapply oks_more; eauto|]. cbn. eauto.
        + destruct (fsteps_shift c0 c0' (o1 :: os1) IHs _ _ _ _ c1' E1) as [X1 [X2 [c2' [X3 X4]]]]; auto.
          * eapply oks_more; eauto.
          * eapply oks_more; eauto.
          * split; auto. split; auto. exists c2'. split; auto. }
    destruct X as [L2 [Hst [c2' [E1' R2]]]].
    change (map (fun kp : pystr * lpmod => (fst kp, lmap (snd kp)))) with lm. rewrite E1'. clear E1 E1'.
    destruct (match or with [] => (l_regxs s, c2) | _ => _ end) as [rg c2r] eqn:E2. injection E as <- <-.
    assert (X : (length c2 <= length c2r)%nat /\ oks c2r rg /\ exists c3',
      match lm or with [] => (lm (l_regxs s), c2') | _ => match lm (l_regxs s) with [] => (lm or, c2')
        | _ => let (opairs, c) := fold_left (fregxs (lm (l_regxs s))) (lm or) ([], c2') in
               (filter (fun ns => negb (dmem str_eqb (fst ns) (lm or))) (lm (l_regxs s)) ++ opairs, c) end end
      = (lm rg, c3') /\ rc c2r c3').
    { destruct or as [|o1 or1].
      - injection E2 as <- <-. split; auto. split; [eapply oks_more; [|eauto]; lia|]. cbn. eauto.
      - destruct (l_regxs s) as [|s1 sr1] eqn:Es.
        + injection E2 as <- <-. split; auto. split; [eapply oks_more; [|eauto]; lia|]. cbn. eauto.
        + rewrite <- Es in *.
          destruct (fold_left (fregxs (l_regxs s)) (o1 :: or1) ([], c2)) as [op c3] eqn:E3. injection E2 as <- <-.
          destruct (fregxs_shift (l_regxs s) (o1 :: or1) IHr [] _ _ _ c2' E3) as [X1 [X2 [c3' [X3 X4]]]]; auto.
          * eapply oks_more; [|eauto]; lia.
          * intros k p [].
          * eapply oks_more; [|eauto]; lia.
          * split; auto. split.
            { intros k p Hin. apply in_app_or in Hin. destruct Hin as [Hin|Hin]; [|eauto].
              apply filter_In in Hin. destruct Hin as [Hin _]. eapply ok_more; [|eapply Hsr; eauto]. lia. }
            exists c3'. split; auto. 
            match goal with |- context [fold_left ?f ?l ?a] =>
              replace (fold_left f l a) with (lm op, c3') by (symmetry; exact X3) end.
            rewrite lm_app, (lm_filter (fun k => negb (dmem str_eqb k (o1 :: or1)))).
            destruct (lm (l_regxs s)) as [|y ys] eqn:Ey; [rewrite Es in Ey; discriminate|].
            change (match lm (o1 :: or1) with [] => (y :: ys, c2') | _ :: _ =>
              (filter (fun ns => negb (dmem str_eqb (fst ns) (lm (o1 :: or1)))) (y :: ys) ++ lm op, c3') end =
              (filter (fun x => negb (dmem str_eqb (fst x) (o1 :: or1))) (y :: ys) ++ lm op, c3')).
            rewrite (filter_ext (fun ns => negb (dmem str_eqb (fst ns) (lm (o1 :: or1))))
                                (fun ns => negb (dmem str_eqb (fst ns) (o1 :: or1)))); [reflexivity|].
            intros [k p]. cbn [fst]. now rewrite lm_dmem. }
    destruct X as [L3 [Hrg [c3' [E3' R3]]]]. rewrite E3'. split.
    - apply ok_inv. split; [split; [apply HL|lia]|]. split; auto. eapply oks_more; eauto.
    - exists c3'. rewrite Hl. split; auto.
  Qed.

  (** ** Descending, and new mapping objects *)
  Definition lpair {A} (pm : lpmod * A) := (lmap (fst pm), snd pm).

  Section Regex.
  Variable M : Type.
  Variable fullmatch : pystr -> pystr -> option M.
  Variable expand : M -> pystr -> res pystr.
  Variable compiles : pystr -> bool.
  Variable class_attr : pystr -> bool.
  Notation ldesc := (ldescend M fullmatch expand).

  Lemma match_shift : forall p k, lmatch_regxs M fullmatch (lmap p) k = map lpair (lmatch_regxs M fullmatch p k).
  Proof.
    intros [l s r] k. unfold lmatch_regxs. cbn [lmap l_regxs]. induction r as [|[x q] r IH]; auto.
    cbn [map flat_map fst snd]. rewrite map_app, IH. f_equal. destruct (fullmatch x k); reflexivity.
  Qed.
  Lemma match_ok : forall c p k q m, ok c p -> In (q, m) (lmatch_regxs M fullmatch p k) -> ok c q.
  Proof.
    intros c [l s r] k q m H Hin. unfold lmatch_regxs in Hin. apply in_flat_map in Hin.
    destruct Hin as [[x p] [H1 H2]]. cbn [fst snd l_regxs] in *. destruct (fullmatch x k); [|destruct H2].
    destruct H2 as [E|[]]. injection E as <- <-. apply (proj1 (ok_inv _ _ _ _)) in H. destruct H as [_ [_ H]]. eauto.
  Qed.
  Lemma first_alias_shift : forall c c' l, rc c c' -> (forall q m, In (q, m) l -> ok c q) ->
    lfirst_alias M expand c' (map lpair l) = lfirst_alias M expand c l.
  Proof.
    intros c c' l R. induction l as [|[q m] l IH]; intros H; auto. cbn [map lfirst_alias lpair fst snd].
    rewrite (l_alias_lmap c) by (auto; eapply H; now left). destruct (l_alias c q); auto.
    apply IH. intros q' m' Hin. eapply H. right. exact Hin.
  Qed.

  Lemma fold_lmerge_shift : forall ps c c' q m c1, fold_left (fun mc q => lmerge (fst mc) q (snd mc)) ps (q, c) = (m, c1) ->
    ok c q -> (forall p, In p ps -> ok c p) -> rc c c' ->
    (length c <= length c1)%nat /\ ok c1 m /\ exists c1',
      fold_left (fun mc q => lmerge (fst mc) q (snd mc)) (map lmap ps) (lmap q, c') = (lmap m, c1') /\ rc c1 c1'.
  Proof.
    induction ps as [|p ps IH]; intros c c' q m c1 E Hq Hp R; cbn [fold_left map] in *.
    - injection E as <- <-. eauto.
    - cbn [fst snd] in *. destruct (lmerge q p c) as [m2 c2] eqn:Em. assert (L := lmerge_longer _ _ _ _ _ Em).
      destruct (lmerge_shift _ _ _ _ _ _ Em Hq (Hp p (or_introl eq_refl)) R) as [A [c2' [B C]]]. rewrite B.
      destruct (IH _ c2' _ _ _ E A) as [L2 X]; auto.
      + intros p' Hin. eapply ok_more; [exact L|]. apply Hp. now right.
      + split; [lia|auto].
  Qed.

  Definition rdesc (r : res (option lpmod * option pystr)) :=
    match r with Ok (pm, al) => Ok (option_map lmap pm, al) | Raise e => Raise e end.

  Lemma ldescend_shift : forall p k c c' c1 r, ldesc p k c = (c1, r) -> ok c p -> rc c c' ->
    (length c <= length c1)%nat
    /\ (forall q al, r = Ok (Some q, al) -> ok c1 q)
    /\ exists c1', ldesc (lmap p) k c' = (c1', rdesc r) /\ rc c1 c1'.
  Proof.
    intros p k c c' c1 r E Hp R. unfold ldescend in *. rewrite match_shift, l_steps_lmap, lm_dget.
    set (rx := lmatch_regxs M fullmatch p k) in *.
    assert (Hr : forall q m, In (q, m) rx -> ok c q) by (intros q m; now apply match_ok).
    set (cp := dget str_eqb k (l_steps p)) in *.
    assert (Hc : forall q, cp = Some q -> ok c q).
    { intros q Hq. destruct p as [l s rr]. apply (proj1 (ok_inv _ _ _ _)) in Hp. destruct Hp as [_ [Hp _]].
      exact (oks_dget _ _ _ _ Hp Hq). }
    rewrite <- map_rev, (first_alias_shift c) by (auto; intros q m Hin; apply in_rev in Hin; eauto).
    replace (match option_map lmap cp with Some q => l_alias c' q | None => None end)
      with (match cp with Some q => l_alias c q | None => None end).
    2:{ destruct cp as [q|]; auto. cbn. symmetry. apply l_alias_lmap; auto. }
    destruct (match match cp with Some q => l_alias c q | None => None end with Some a => Ok (Some a) | None => _ end) as [al|e].
    2:{ injection E as <- <-. split; auto. split; [discriminate|]. exists c'. auto. }
    replace (map fst (map lpair rx) ++ match option_map lmap cp with Some q => [q] | None => [] end)
      with (map lmap (map fst rx ++ match cp with Some q => [q] | None => [] end)).
    2:{ rewrite map_app, !map_map. cbn [lpair fst]. f_equal. destruct cp; reflexivity. }
    assert (Hall : forall q, In q (map fst rx ++ match cp with Some q => [q] | None => [] end) -> ok c q).
    { intros q Hin. apply in_app_or in Hin. destruct Hin as [Hin|Hin].
      - apply in_map_iff in Hin. destruct Hin as [[q' m] [<- Hin]]. eauto.
      - destruct cp as [q'|]; [|destruct Hin]. destruct Hin as [<-|[]]. auto. }
    destruct (map fst rx ++ match cp with Some q => [q] | None => [] end) as [|q qs]; cbn [map].
    { injection E as <- <-. split; auto. split; [discriminate|]. exists c'. auto. }
    destruct (fold_left (fun mc q => lmerge (fst mc) q (snd mc)) qs (q, c)) as [m c2] eqn:Ef. injection E as <- <-.
    destruct (fold_lmerge_shift _ _ c' _ _ _ Ef (Hall q (or_introl eq_refl)) (fun x Hx => Hall x (or_intror Hx)) R)
      as [L [A [c1' [B C]]]].
    split; auto. split; [intros q' al' [= <- _]; exact A|].
    exists c1'. split; auto.
    match goal with |- (let (_, _) := ?x in _) = _ => replace x with (lmap m, c1') by (symmetry; exact B) end.
    reflexivity.
  Qed.

  Definition alshifts (p : pmod) : Prop := forall c x c1 c', alloc_pmod p c = (x, c1) -> rc c c' ->
    (length c <= length c1)%nat /\ ok c1 x /\ exists c1', alloc_pmod p c' = (lmap x, c1') /\ rc c1 c1'.

  Lemma falloc_shift : forall s, (forall k p, In (k, p) s -> alshifts p) ->
    forall d c d1 c1 c', fold_left falloc s (d, c) = (d1, c1) -> oks c d -> rc c c' ->
    (length c <= length c1)%nat /\ oks c1 d1 /\ exists c1', fold_left falloc s (lm d, c') = (lm d1, c1') /\ rc c1 c1'.
  Proof.
    induction s as [|[k p] s IH]; intros H d c d1 c1 c' E Hd R; cbn [fold_left] in *.
    - injection E as <- <-. eauto.
    - unfold falloc at 2 in E. unfold falloc at 2. cbn [fst snd] in *.
      destruct (alloc_pmod p c) as [x c2] eqn:Ep.
      destruct (H k p (or_introl eq_refl) _ _ _ _ Ep R) as [L [A [c2' [B C]]]]. rewrite B.
      replace (lm d ++ [(k, lmap x)]) with (lm (d ++ [(k, x)])) by (now rewrite lm_app).
      destruct (IH (fun k2 p2 Hin => H k2 p2 (or_intror Hin)) _ _ _ _ c2' E) as [L2 X]; auto; [|split; [lia|auto]].
      intros k2 p2 Hin. apply in_app_or in Hin. destruct Hin as [Hin|[E2|[]]].
      + eapply ok_more; [exact L|eauto].
      + now injection E2 as _ <-.
  Qed.

  Lemma alloc_shift : forall p, alshifts p.
  Proof.
    induction p as [a s r IHs IHr] using pmod_ind2. intros c x c2 c' E R. rewrite alloc_eq in *.
    destruct (fold_left falloc s ([], c ++ [a])) as [s' c1] eqn:E1.
    destruct (fold_left falloc r ([], c1)) as [r' c3] eqn:E2. injection E as <- <-.
    destruct (falloc_shift s IHs _ _ _ _ _ E1 (fun k p (H : In _ []) => match H with end) (rc_snoc _ _ a R)) as [L1 [A1 [c1' [B1 C1]]]].
    destruct (falloc_shift r IHr _ _ _ _ _ E2 (fun k p (H : In _ []) => match H with end) C1) as [L2 [A2 [c2' [B2 C2]]]].
    rewrite app_length in L1. cbn in L1.
    split; [lia|]. split.
    - apply ok_inv. split; [split; [right; apply R|lia]|]. split; auto. eapply oks_more; eauto.
    - exists c2'.
      match goal with |- (let (_, _) := ?x in _) = _ /\ _ => replace x with (lm s', c1') by (symmetry; exact B1) end.
      match goal with |- (let (_, _) := ?x in _) = _ /\ _ => replace x with (lm r', c2') by (symmetry; exact B2) end.
      rewrite (rc_length _ _ R). auto.
  Qed.

  (** ** Heaps *)
  Definition rl {A B} (n n' : nat) (g : A -> B) (l : list A) (l' : list B) : Prop :=
    (n <= length l)%nat /\ length l' = (length l - n + n')%nat
    /\ forall i, (n <= i)%nat -> nth_error l' (i - n + n') = option_map g (nth_error l i).

  Lemma rl_snoc : forall A B n n' (g : A -> B) l l' x, rl n n' g l l' -> rl n n' g (l ++ [x]) (l' ++ [g x]).
  Proof.
    intros A B n n' g l l' x [H1 [H2 H3]]. split; [rewrite app_length; lia|].
    split; [rewrite !app_length; cbn; lia|]. intros i Hi.
    destruct (Nat.lt_trichotomy i (length l)) as [L|[->|L]].
    - rewrite !nth_error_app1 by lia. auto.
    - rewrite <- H2, !nth_error_snoc_new. reflexivity.
    - rewrite (proj2 (nth_error_None (l ++ [x]) i)) by (rewrite app_length; cbn; lia).
      apply nth_error_None. rewrite app_length. cbn. lia.
  Qed.
  Lemma rl_update : forall A B n n' (g : A -> B) l l' j x, rl n n' g l l' -> (n <= j)%nat ->
    rl n n' g (list_update l j x) (list_update l' (j - n + n') (g x)).
  Proof.
    intros A B n n' g l l' j x [H1 [H2 H3]] Hj. split; [now rewrite list_update_length|].
    split; [now rewrite !list_update_length|]. intros i Hi. destruct (Nat.eq_dec j i) as [->|N].
    - destruct (Nat.lt_ge_cases i (length l)) as [L|L].
      + rewrite !nth_error_update_eq by lia. reflexivity.
      + rewrite !(proj2 (nth_error_None _ _)); auto; rewrite list_update_length; lia.
    - rewrite !nth_error_update_neq by lia. auto.
  Qed.

  Definition smap (s : pstep) : pstep :=
    mkStep (s_text s) (s_orig s) (option_map lmap (s_pmod s)) (option_map fd (s_csteps s)) (s_locked s) (s_tags s).
  Definition dmap := map (fun kc : pystr * nat => (fst kc, fs (snd kc))).

  Definition ok_step (c : cells) (s : pstep) : Prop :=
    (forall d, s_csteps s = Some d -> (nd <= d)%nat) /\ (forall p, s_pmod s = Some p -> ok c p).
  Definition ok_dict (ds : list (pystr * nat)) : Prop := forall a c, In (a, c) ds -> (ns <= c)%nat.

  Record rh (h h' : heap) : Prop := mkRh {
    rh_cells : rc (h_cells h) (h_cells h');
    rh_steps : rl ns ns' smap (h_steps h) (h_steps h');
    rh_dicts : rl nd nd' dmap (h_dicts h) (h_dicts h');
    rh_ok_s : forall i s, (ns <= i)%nat -> nth_error (h_steps h) i = Some s -> ok_step (h_cells h) s;
    rh_ok_d : forall d ds, (nd <= d)%nat -> nth_error (h_dicts h) d = Some ds -> ok_dict ds }.

  Lemma ok_step_more : forall c c1 s, (length c <= length c1)%nat -> ok_step c s -> ok_step c1 s.
  Proof. intros c c1 s L [H1 H2]. split; auto. intros p Hp. eapply ok_more; eauto. Qed.

  Lemma rh_cells_set : forall h h' c c', rh h h' -> rc c c' -> (length (h_cells h) <= length c)%nat ->
    rh (set_cells h c) (set_cells h' c').
  Proof.
    intros h h' c c' [R1 R2 R3 R4 R5] R L. constructor; auto. cbn. intros i s Hi Hs. eapply ok_step_more; eauto.
  Qed.
  Lemma rh_new_step : forall h h' s, rh h h' -> ok_step (h_cells h) s ->
    rh (set_steps h (h_steps h ++ [s])) (set_steps h' (h_steps h' ++ [smap s])).
  Proof.
    intros h h' s [R1 R2 R3 R4 R5] K. constructor; auto; cbn; [now apply rl_snoc|].
    intros i s' Hi Hs. apply nth_error_snoc in Hs. destruct Hs as [Hs|[_ ->]]; eauto.
  Qed.
  Lemma rh_upd_step : forall h h' i s, rh h h' -> (ns <= i)%nat -> ok_step (h_cells h) s ->
    rh (set_steps h (list_update (h_steps h) i s)) (set_steps h' (list_update (h_steps h') (fs i) (smap s))).
  Proof.
    intros h h' i s [R1 R2 R3 R4 R5] Hi K. constructor; auto; cbn; [now apply rl_update|].
    intros j s' Hj Hs. apply nth_error_update in Hs. destruct Hs as [[_ Hs]|[_ [-> _]]]; eauto.
  Qed.
  Lemma rh_new_dict : forall h h' ds, rh h h' -> ok_dict ds ->
    rh (set_dicts h (h_dicts h ++ [ds])) (set_dicts h' (h_dicts h' ++ [dmap ds])).
  Proof.
    intros h h' ds [R1 R2 R3 R4 R5] K. constructor; auto; cbn; [now apply rl_snoc|].
    intros i s' Hi Hs. apply nth_error_snoc in Hs. destruct Hs as [Hs|[_ ->]]; eauto.
  Qed.
  Lemma rh_upd_dict : forall h h' d ds, rh h h' -> (nd <= d)%nat -> ok_dict ds ->
    rh (set_dicts h (list_update (h_dicts h) d ds)) (set_dicts h' (list_update (h_dicts h') (fd d) (dmap ds))).
  Proof.
    intros h h' i s [R1 R2 R3 R4 R5] Hi K. constructor; auto; cbn; [now apply rl_update|].
    intros j s' Hj Hs. apply nth_error_update in Hs. destruct Hs as [[_ Hs]|[_ [-> _]]]; eauto.
  Qed.

  Lemma rh_at : forall h h' i, rh h h' -> (ns <= i)%nat ->
    nth_error (h_steps h') (fs i) = option_map smap (nth_error (h_steps h) i).
  Proof. intros h h' i R Hi. now apply (rh_steps _ _ R). Qed.
  Lemma rh_len_s : forall h h', rh h h' -> length (h_steps h') = fs (length (h_steps h)) /\ (ns <= length (h_steps h))%nat.
  Proof. intros h h' R. destruct (rh_steps _ _ R) as [H1 [H2 _]]. auto. Qed.
  Lemma rh_len_d : forall h h', rh h h' -> length (h_dicts h') = fd (length (h_dicts h)) /\ (nd <= length (h_dicts h))%nat.
  Proof. intros h h' R. destruct (rh_dicts _ _ R) as [H1 [H2 _]]. auto. Qed.
  Lemma rh_dict : forall h h' d, rh h h' -> (forall x, d = Some x -> (nd <= x)%nat) ->
    dict_of h' (option_map fd d) = dmap (dict_of h d) /\ ok_dict (dict_of h d).
  Proof.
    intros h h' [d|] R Hd; cbn [dict_of option_map]; [|split; [auto|intros a c []]].
    specialize (Hd d eq_refl). assert (E := proj2 (proj2 (rh_dicts _ _ R)) d Hd). fold (fd d) in E.
    destruct (nth_error (h_dicts h) d) as [ds|] eqn:Ed; cbn in E.
    - rewrite (nth_error_nth _ _ _ Ed), (nth_error_nth _ _ _ E). split; auto. eapply rh_ok_d; eauto.
    - apply nth_error_None in Ed, E. rewrite !nth_overflow by auto. split; auto. intros a c [].
  Qed.
  Lemma dm_dget : forall k d, dget str_eqb k (dmap d) = option_map fs (dget str_eqb k d).
  Proof. induction d as [|[k' p] d IH]; cbn; auto. destruct (str_eqb k k'); auto. Qed.
  Lemma dm_dset : forall k p d, dmap (dset str_eqb k p d) = dset str_eqb k (fs p) (dmap d).
  Proof. induction d as [|[k' p'] d IH]; cbn; auto. destruct (str_eqb k k'); cbn; auto. f_equal. exact IH. Qed.

  Lemma text_shift : forall h h' i, rh h h' -> (ns <= i)%nat -> text_of h' (fs i) = text_of h i.
  Proof. intros h h' i R Hi. unfold text_of. rewrite (rh_at h) by auto. destruct (nth_error (h_steps h) i); reflexivity. Qed.
  Lemma texted_shift : forall h h' i, rh h h' -> (ns <= i)%nat -> texted h' (fs i) = texted h i.
  Proof. intros h h' i R Hi. unfold texted. rewrite (rh_at h) by auto. destruct (nth_error (h_steps h) i); reflexivity. Qed.

  (** ** Operations *)
  Notation new := (new_step M fullmatch expand compiles).
  Notation make := (make_cstep M fullmatch expand compiles).
  Notation get := (getattr M fullmatch expand compiles class_attr).
  Notation set := (setattr M fullmatch expand compiles).

  Definition rmaps (m : maps) : maps :=
    match m with MPmod p => MPmod (lmap p) | MStep i => MStep (fs i) | m => m end.
  Definition ok_maps (c : cells) (m : maps) : Prop :=
    match m with MPmod p => ok c p | MStep i => (ns <= i)%nat | _ => True end.
  Lemma ok_maps_more : forall c c1 m, (length c <= length c1)%nat -> ok_maps c m -> ok_maps c1 m.
  Proof. intros c c1 [| | | |] L; cbn; auto. intros H. eapply ok_more; eauto. Qed.
  Definition rres (r : res nat) := match r with Ok i => Ok (fs i) | Raise e => Raise e end.

  (** The outcome with both heaps *)
  Definition both (h : heap) (x : heap * res nat) (x' : heap * res nat) : Prop :=
    (forall i, snd x = Ok i -> (ns <= i)%nat) /\ (length (h_cells h) <= length (h_cells (fst x)))%nat
    /\ snd x' = rres (snd x) /\ rh (fst x) (fst x').

  Lemma alloc_step_shift : forall h h' s, rh h h' -> ok_step (h_cells h) s ->
    both h (alloc_step h s) (alloc_step h' (smap s)).
  Proof.
    intros h h' s R K. destruct (rh_len_s _ _ R) as [L1 L2]. unfold alloc_step, both. cbn [fst snd rres].
    split; [intros i [= <-]; auto|]. split; auto. split; [now rewrite L1|]. now apply rh_new_step.
  Qed.

  Lemma fresh_shift : forall h h' n pm al ts, rh h h' -> (forall p, pm = Some p -> ok (h_cells h) p) ->
    both h (fresh_step h n pm al ts) (fresh_step h' n (option_map lmap pm) al ts).
  Proof.
    intros h h' n pm al ts R K.
    apply (alloc_step_shift h h' (mkStep (match al with Some a => a | None => n end) n pm None CAN_RELOCATE (add_tags [] ts))); auto.
    split; cbn; auto. discriminate.
  Qed.

  Lemma both_cells : forall h c x x', (length (h_cells h) <= length c)%nat -> both (set_cells h c) x x' -> both h x x'.
  Proof. intros h c x x' L [H1 [H2 H3]]. cbn in H2. split; auto. split; auto. lia. Qed.

  Lemma by_pmod_shift : forall h h' n p al ts, rh h h' -> ok (h_cells h) p ->
    both h (step_by_pmod M fullmatch expand h n p al ts) (step_by_pmod M fullmatch expand h' n (lmap p) al ts).
  Proof.
    intros h h' n p al ts R K. unfold step_by_pmod. destruct (ldesc p n (h_cells h)) as [c r] eqn:E.
    destruct (ldescend_shift _ _ _ _ _ _ E K (rh_cells _ _ R)) as [L [A [c' [B C]]]]. rewrite B.
    assert (R1 := rh_cells_set _ _ _ _ R C L).
    destruct r as [[pm ma]|e]; cbn [rdesc].
    - apply (both_cells h c); auto. apply fresh_shift; auto. intros q ->. cbn. eauto.
    - split; [discriminate|]. cbn. auto.
  Qed.

  Lemma new_shift : forall h h' n m al ts, rh h h' -> ok_maps (h_cells h) m ->
    both h (new h n m al ts) (new h' n (rmaps m) al ts).
  Proof.
    intros h h' n m al ts R K. destruct m as [|p|i|l|]; cbn [new_step rmaps].
    - apply fresh_shift; auto. discriminate.
    - apply by_pmod_shift; auto.
    - cbn in K. rewrite (rh_at h) by auto. destruct (nth_error (h_steps h) i) as [s|] eqn:Es; cbn [option_map].
      2:{ split; [discriminate|]. cbn. auto. }
      cbn [smap s_text]. destruct (s_text s) eqn:Et; [apply fresh_shift; auto; discriminate|].
      destruct (rh_ok_s _ _ R i s K Es) as [K1 K2].
      destruct (rh_dict h h' (s_csteps s) R K1) as [D1 D2].
      unfold clone_csteps. cbn [smap s_csteps]. rewrite D1.
      destruct (dict_of h (s_csteps s)) as [|y ys] eqn:Ed; cbn [dmap map].
      + apply (alloc_step_shift h h' (mkStep (match al with Some a => a | None => name_of n end)
                 (s_orig s) (s_pmod s) (s_csteps s) (s_locked s) (s_tags s))); auto. split; auto.
      + assert (R1 := rh_new_dict _ _ (y :: ys) R D2).
        assert (B := alloc_step_shift _ _ (mkStep (match al with Some a => a | None => name_of n end)
                 (s_orig s) (s_pmod s) (Some (length (h_dicts h))) (s_locked s) (s_tags s)) R1).
        cbn [h_cells set_dicts] in B. destruct (rh_len_d _ _ R) as [L1 L2].
        unfold smap in B. cbn [option_map s_text s_orig s_pmod s_csteps s_locked s_tags] in B.
        rewrite <- L1 in B. apply B. split; cbn; auto. intros d [= <-]. auto.
    - destruct l as [|t l]; [apply fresh_shift; auto; discriminate|].
      destruct (pmods_from_tuples compiles (t :: l)) as [p|e].
      2:{ split; [discriminate|]. cbn. auto. }
      destruct (alloc_pmod p (h_cells h)) as [x c] eqn:Ea.
      destruct (alloc_shift p _ _ _ _ Ea (rh_cells _ _ R)) as [L [A [c' [B C]]]]. rewrite B.
      apply (both_cells h c); auto. apply by_pmod_shift; auto. now apply rh_cells_set.
    - split; [discriminate|]. cbn. auto.
  Qed.

  Lemma update_pmod_shift : forall h h' i s al, rh h h' -> (ns <= i)%nat -> nth_error (h_steps h) i = Some s ->
    rh (update_pmod h i s al) (update_pmod h' (fs i) (smap s) al)
    /\ (length (h_cells h) <= length (h_cells (update_pmod h i s al)))%nat.
  Proof.
    intros h h' i s al R Hi Hs. unfold update_pmod. destruct al as [a|]; auto.
    cbn [smap s_pmod]. destruct (rh_ok_s _ _ R i s Hi Hs) as [K1 K2].
    destruct (s_pmod s) as [p|] eqn:Ep; cbn [option_map].
    - specialize (K2 p eq_refl). rewrite l_label_lmap. destruct (ok_label _ _ K2) as [D L]. split; [|cbn; now rewrite list_update_length].
      apply rh_cells_set; auto; [|now rewrite list_update_length].
      apply rc_update; auto. apply R.
    - assert (Rc := rc_snoc _ _ (Some a) (rh_cells _ _ R)).
      assert (L : (length (h_cells h) <= length (h_cells h ++ [Some a]))%nat) by (rewrite app_length; lia).
      split; [|exact L].
      assert (R1 := rh_cells_set _ _ _ _ R Rc L).
      assert (R2 := rh_upd_step _ _ i (with_pmod s (Some (LP (length (h_cells h)) [] []))) R1 Hi).
      cbn [h_cells set_cells h_steps] in R2. unfold smap in R2. cbn [s_text s_orig s_pmod s_csteps s_locked s_tags with_pmod option_map lmap map] in R2.
      rewrite <- (rc_length _ _ (rh_cells _ _ R)) in R2. apply R2.
      split; cbn; auto. intros p [= <-]. apply ok_inv. split; [split; [right; apply (rh_cells _ _ R)|rewrite app_length; cbn; lia]|].
      split; intros k q [].
  Qed.

  Definition rex (e : option nat) := option_map fs e.
  Definition ok_ex (e : option nat) := forall j, e = Some j -> (ns <= j)%nat.

  Lemma prepare_shift : forall h h' i s k al e h1 d e1, rh h h' -> (ns <= i)%nat -> nth_error (h_steps h) i = Some s -> ok_ex e ->
    prepare h i s k al e = (h1, d, e1) ->
    ok_ex e1 /\ (nd <= d)%nat /\ (length (h_cells h) <= length (h_cells h1))%nat
    /\ exists h1', prepare h' (fs i) (smap s) k al (rex e) = (h1', fd d, rex e1) /\ rh h1 h1'.
  Proof.
    intros h h' i s k al e h1 d e1 R Hi Hs He E. unfold prepare in *. cbn [smap s_csteps].
    destruct (rh_ok_s _ _ R i s Hi Hs) as [K1 K2].
    destruct (rh_dict h h' (s_csteps s) R K1) as [D1 D2]. cbn [smap s_csteps] in *. rewrite D1.
    assert (X : forall h1 d e1, (set_steps (set_dicts h (h_dicts h ++ [[]]))
                   (list_update (h_steps h) i (with_csteps s (Some (length (h_dicts h))))), length (h_dicts h), e) = (h1, d, e1) ->
      ok_ex e1 /\ (nd <= d)%nat /\ (length (h_cells h) <= length (h_cells h1))%nat
      /\ exists h1', (set_steps (set_dicts h' (h_dicts h' ++ [[]]))
                   (list_update (h_steps h') (fs i) (with_csteps (smap s) (Some (length (h_dicts h'))))), length (h_dicts h'), rex e)
           = (h1', fd d, rex e1) /\ rh h1 h1').
    { clear E h1 d e1. intros h1 d e1 E. injection E as <- <- <-. destruct (rh_len_d _ _ R) as [L1 L2].
      split; auto. split; auto. split; auto. rewrite L1. eexists. split; [reflexivity|].
      assert (R1 := rh_new_dict _ _ [] R (fun a c (H : In _ []) => match H with end)). cbn [dmap map] in R1.
      assert (R2 := rh_upd_step _ _ i (with_csteps s (Some (length (h_dicts h)))) R1 Hi).
      apply R2. split; cbn; auto. intros x [= <-]. auto. }
    destruct (dict_of h (s_csteps s)) as [|y ys] eqn:Ed; cbn [dmap map].
    - destruct (s_csteps s) as [d0|]; cbn [option_map]; apply X; exact E.
    - destruct (s_csteps s) as [d0|] eqn:Ec; cbn [option_map]; [|discriminate].
      destruct e as [e|]; cbn [rex option_map].
      + injection E as <- <- <-. split; auto. split; [auto|]. split; auto. eexists. split; [reflexivity|auto].
      + injection E as <- <- <-. destruct (update_pmod_shift h h' i s al R Hi Hs) as [U1 U2].
        split; [|split; [auto|split; auto]].
        * intros j Hj. apply (dget_In _ k (y :: ys)) in Hj. eapply D2; eauto.
        * assert (Es : smap s = mkStep (s_text s) (s_orig s) (option_map lmap (s_pmod s)) (Some (fd d0)) (s_locked s) (s_tags s))
            by (unfold smap; now rewrite Ec).
          rewrite Es in U1. eexists. split; [|exact U1]. rewrite Es. f_equal.
          exact (dm_dget k (y :: ys)).
  Qed.

  Lemma own_maps_shift : forall h h' i, rh h h' -> (ns <= i)%nat ->
    own_maps h' (fs i) = rmaps (own_maps h i) /\ ok_maps (h_cells h) (own_maps h i).
  Proof.
    intros h h' i R Hi. unfold own_maps. rewrite (rh_at h) by auto.
    destruct (nth_error (h_steps h) i) as [s|] eqn:Es; cbn; auto.
    destruct (rh_ok_s _ _ R i s Hi Es) as [K1 K2].
    destruct (s_pmod s) as [p|]; cbn; auto.
  Qed.

  Lemma make_shift : forall h h' i k al e, rh h h' -> (ns <= i)%nat -> ok_ex e ->
    both h (make h i k al e) (make h' (fs i) k al (rex e)).
  Proof.
    intros h h' i k al e R Hi He. unfold make_cstep. rewrite (rh_at h) by auto.
    destruct (nth_error (h_steps h) i) as [s|] eqn:Es; cbn [option_map].
    2:{ split; [discriminate|]. cbn. auto. }
    destruct (prepare h i s k al e) as [[h1 d] e1] eqn:Ep.
    destruct (prepare_shift _ _ _ _ _ _ _ _ _ _ R Hi Es He Ep) as [K1 [K2 [K3 [h1' [Ep' R1]]]]]. rewrite Ep'.
    destruct (own_maps_shift h1 h1' i R1 Hi) as [O1 O2].
    set (m := match e1 with Some e => if texted h1 e then MStep e else own_maps h1 i | None => own_maps h1 i end).
    replace (match rex e1 with Some e0 => if texted h1' e0 then MStep e0 else own_maps h1' (fs i)
             | None => own_maps h1' (fs i) end) with (rmaps m).
    2:{ unfold m. destruct e1 as [e1|]; cbn [rex option_map]; auto. rewrite (texted_shift h1) by auto.
        destruct (texted h1 e1); auto. }
    assert (Km : ok_maps (h_cells h1) m).
    { unfold m. destruct e1 as [e1|]; auto. destruct (texted h1 e1); auto. cbn. auto. }
    destruct (new_shift h1 h1' (Some k) m al [] R1 Km) as [B1 [B2 [B3 B4]]].
    destruct (new h1 (Some k) m al []) as [h2 r]. destruct (new h1' (Some k) (rmaps m) al []) as [h2' r'].
    cbn [fst snd] in *. subst r'. destruct r as [j|e0]; cbn [rres].
    - split; [exact B1|]. cbn [fst snd]. split; [cbn; lia|]. split; auto.
      destruct (rh_dict h2 h2' (Some d) B4) as [D1 D2]; [intros x [= <-]; auto|].
      assert (X := rh_upd_dict h2 h2' d (dset str_eqb k j (dict_of h2 (Some d))) B4 K2).
      cbn [option_map] in D1. rewrite dm_dset, <- D1 in X. apply X.
      intros a c Hin. apply In_dset in Hin. destruct Hin as [E|Hin]; [injection E as _ <-; auto|]. eapply D2; eauto.
    - split; [discriminate|]. cbn [fst snd]. split; [lia|]. auto.
  Qed.

  Definition rval (r : res value) : res value :=
    match r with Ok (VStep c) => Ok (VStep (fs c)) | r => r end.

  Lemma get_shift : forall h h' i a, rh h h' -> (ns <= i)%nat ->
    (forall c, snd (get h i a) = Ok (VStep c) -> (ns <= c)%nat)
    /\ (length (h_cells h) <= length (h_cells (fst (get h i a))))%nat
    /\ snd (get h' (fs i) a) = rval (snd (get h i a)) /\ rh (fst (get h i a)) (fst (get h' (fs i) a)).
  Proof.
    intros h h' i a R Hi. unfold getattr. destruct (class_attr a); [cbn; split; [discriminate|auto]|].
    destruct (starts_with (lit "_") a || forbidden a); [cbn; split; [discriminate|auto]|].
    rewrite (rh_at h) by auto. destruct (nth_error (h_steps h) i) as [s|] eqn:Es; cbn [option_map].
    2:{ cbn. split; [discriminate|auto]. }
    destruct (rh_ok_s _ _ R i s Hi Es) as [K1 K2].
    destruct (rh_dict h h' (s_csteps s) R K1) as [D1 D2]. cbn [smap s_csteps]. rewrite D1, dm_dget.
    assert (X := make_shift h h' i a None None R Hi (fun j (E : None = Some j) => False_ind _ ltac:(discriminate E))).
    cbn [rex option_map] in X. destruct X as [X1 [X2 [X3 X4]]].
    destruct (make h i a None None) as [h1 r]. destruct (make h' (fs i) a None None) as [h1' r']. cbn [fst snd] in *. subst r'.
    assert (Y : (forall c, snd (h1, match r with Ok i => Ok (VStep i) | Raise e => Raise e end) = Ok (VStep c) -> (ns <= c)%nat)
      /\ (length (h_cells h) <= length (h_cells h1))%nat
      /\ match rres r with Ok i => Ok (VStep i) | Raise e => Raise e end = rval (match r with Ok i => Ok (VStep i) | Raise e => Raise e end)
      /\ rh h1 h1').
    { split; [|split; auto; split; auto; destruct r; reflexivity]. cbn. intros c. destruct r; [|discriminate]. intros [= ->]. auto. }
    destruct (dget str_eqb a (dict_of h (s_csteps s))) as [c|] eqn:Eg; cbn [option_map]; [|exact Y].
    assert (Hc : (ns <= c)%nat) by (apply dget_In in Eg; eapply D2; eauto).
    rewrite (texted_shift h) by auto. destruct (texted h c); [|exact Y].
    cbn. split; [intros c' [= <-]; auto|]. auto.
  Qed.

  Definition rassigned (v : assigned) := match v with AStep i => AStep (fs i) | v => v end.
  Definition same (h : heap) (x x' : heap * res unit) : Prop :=
    (length (h_cells h) <= length (h_cells (fst x)))%nat /\ snd x' = snd x /\ rh (fst x) (fst x').

  Lemma set_shift : forall h h' i a v, rh h h' -> (ns <= i)%nat -> (forall j, v = AStep j -> (ns <= j)%nat) ->
    same h (set h i a v) (set h' (fs i) a (rassigned v)).
  Proof.
    intros h h' i a v R Hi Hv. unfold setattr. destruct (starts_with (lit "_") a); [split; cbn; auto|].
    destruct v as [j|x|]; cbn [rassigned]; [| |split; cbn; auto].
    - assert (X := make_shift h h' i a None (Some j) R Hi (fun j' E => match E with eq_refl => Hv _ eq_refl end)).
      cbn [rex option_map] in X. destruct X as [X1 [X2 [X3 X4]]].
      destruct (make h i a None (Some j)) as [h1 r]. destruct (make h' (fs i) a None (Some (fs j))) as [h1' r'].
      cbn [fst snd] in *. subst r'. split; cbn; auto. split; auto. destruct r; reflexivity.
    - assert (X := make_shift h h' i a (Some x) None R Hi (fun j (E : None = Some j) => False_ind _ ltac:(discriminate E))).
      cbn [rex option_map] in X. destruct X as [X1 [X2 [X3 X4]]].
      destruct (make h i a (Some x) None) as [h1 r]. destruct (make h' (fs i) a (Some x) None) as [h1' r'].
      cbn [fst snd] in *. subst r'. split; cbn; auto. split; auto. destruct r; reflexivity.
  Qed.

  Lemma locked_shift : forall h h' i z, rh h h' -> (ns <= i)%nat -> same h (set_locked h i z) (set_locked h' (fs i) z).
  Proof.
    intros h h' i z R Hi. unfold set_locked. rewrite (rh_at h) by auto.
    destruct (nth_error (h_steps h) i) as [s|] eqn:Es; cbn [option_map]; [|split; cbn; auto].
    cbn [smap s_text s_orig]. destruct (_ && _); [split; cbn; auto|]. split; [cbn; auto|]. split; auto. cbn [fst].
    apply (rh_upd_step h h' i (with_locked s z)); auto. exact (rh_ok_s _ _ R i s Hi Es).
  Qed.
  Lemma tag_shift : forall h h' i ts, rh h h' -> (ns <= i)%nat -> rh (tag h i ts) (tag h' (fs i) ts)
    /\ h_cells (tag h i ts) = h_cells h.
  Proof.
    intros h h' i ts R Hi. unfold tag. rewrite (rh_at h) by auto.
    destruct (nth_error (h_steps h) i) as [s|] eqn:Es; cbn [option_map]; auto. split; auto.
    apply (rh_upd_step h h' i (with_tags s (add_tags (s_tags s) ts))); auto. exact (rh_ok_s _ _ R i s Hi Es).
  Qed.
  Lemma untag_shift : forall h h' i t, rh h h' -> (ns <= i)%nat -> rh (tag_remove h i t) (tag_remove h' (fs i) t)
    /\ h_cells (tag_remove h i t) = h_cells h.
  Proof.
    intros h h' i ts R Hi. unfold tag_remove. rewrite (rh_at h) by auto.
    destruct (nth_error (h_steps h) i) as [s|] eqn:Es; cbn [option_map]; auto. split; auto.
    apply (rh_upd_step h h' i (with_tags s (filter (fun t' => negb (str_eqb ts t')) (s_tags s)))); auto.
    exact (rh_ok_s _ _ R i s Hi Es).
  Qed.

  (** ** Paths *)
  Lemma children_shift : forall h h' i, rh h h' -> (ns <= i)%nat ->
    children h' (fs i) = dmap (children h i) /\ ok_dict (children h i).
  Proof.
    intros h h' i R Hi. unfold children. rewrite (rh_at h) by auto.
    destruct (nth_error (h_steps h) i) as [s|] eqn:Es; cbn [option_map]; [|split; [auto|intros a c []]].
    destruct (rh_ok_s _ _ R i s Hi Es) as [K1 K2]. exact (rh_dict h h' (s_csteps s) R K1).
  Qed.
  Definition rways (r : res (list (list nat))) :=
    match r with Ok l => Ok (map (map fs) l) | Raise e => Raise e end.

  Lemma iter_shift : forall h h', rh h h' -> forall n pre i, (ns <= i)%nat -> Forall (le ns) pre ->
    iter_hierarchy n h' (map fs pre) (fs i) = rways (iter_hierarchy n h pre i)
    /\ forall l p, iter_hierarchy n h pre i = Ok l -> In p l -> Forall (le ns) p /\ p <> [].
  Proof.
    intros h h' R. induction n as [|n IH]; intros pre i Hi Hp; [split; [auto|discriminate]|].
    cbn [iter_hierarchy]. destruct (children_shift h h' i R Hi) as [C1 C2]. rewrite C1.
    assert (Hp' : Forall (le ns) (pre ++ [i])) by (apply Forall_app; auto).
    replace (map fs pre ++ [fs i]) with (map fs (pre ++ [i])) by (now rewrite map_app).
    assert (X : forall cs, ok_dict cs ->
      rmap (iter_hierarchy n h' (map fs (pre ++ [i]))) (map snd (dmap cs))
      = match rmap (iter_hierarchy n h (pre ++ [i])) (map snd cs) with
        | Ok l => Ok (map (map (map fs)) l) | Raise e => Raise e end
      /\ forall l q p, rmap (iter_hierarchy n h (pre ++ [i])) (map snd cs) = Ok l -> In q l -> In p q ->
          Forall (le ns) p /\ p <> []).
    { induction cs as [|[a c] cs IHc]; intros K; [split; [reflexivity|cbn; intros l q p [= <-] []]|].
      change (map snd (dmap ((a, c) :: cs))) with (fs c :: map snd (dmap cs)). cbn [map snd rmap].
      destruct (IH (pre ++ [i]) c (K a c (or_introl eq_refl)) Hp') as [A B]. rewrite A.
      destruct (IHc (fun a' c' Hin => K a' c' (or_intror Hin))) as [A2 B2]. 
      destruct (iter_hierarchy n h (pre ++ [i]) c) as [l1|e]; cbn [rways rbind]; [|split; [auto|discriminate]].
      rewrite A2. destruct (rmap (iter_hierarchy n h (pre ++ [i])) (map snd cs)) as [l2|e]; cbn [rbind].
      - split; auto. intros l q p [= <-] [<-|Hq] Hpq; eauto.
      - split; [auto|discriminate]. }
    destruct (X (children h i) C2) as [A B]. rewrite A.
    destruct (rmap (iter_hierarchy n h (pre ++ [i])) (map snd (children h i))) as [l|e]; cbn [rbind rways].
    - split; [cbn [map]; now rewrite concat_map|].
      intros l' p [= <-] [<-|Hin]; [split; auto; destruct pre; discriminate|].
      apply in_concat in Hin. destruct Hin as [q [Hq Hin]]. eauto.
    - split; [auto|discriminate].
  Qed.

  Lemma last_shift : forall p, p <> [] -> last (map fs p) 0%nat = fs (last p 0%nat).
  Proof.
    induction p as [|x p IH]; [congruence|]. intros _. destruct p as [|y p]; auto.
    change (last (map fs (y :: p)) 0%nat = fs (last (y :: p) 0%nat)). apply IH. discriminate.
  Qed.
  Lemma last_in_le : forall p, Forall (le ns) p -> p <> [] -> (ns <= last p 0%nat)%nat.
  Proof.
    intros p H N. rewrite Forall_forall in H. apply H.
    destruct (exists_last N) as [p' [x ->]]. rewrite last_last. apply in_or_app. right. now left.
  Qed.

  Lemma paths_shift : forall h h' n i wo t, rh h h' -> (ns <= i)%nat -> paths n h' (fs i) wo t = paths n h i wo t.
  Proof.
    intros h h' n i wo t R Hi. unfold paths. destruct (iter_shift h h' R n [] i Hi (Forall_nil _)) as [A B].
    cbn [map] in A. rewrite A. destruct (iter_hierarchy n h [] i) as [l|e]; cbn [rways rbind]; auto.
    do 3 f_equal. specialize (B l).
    assert (B' : forall p, In p l -> Forall (le ns) p /\ p <> []) by (intros p; apply B; auto). clear B A.
    induction l as [|p l IH]; auto. cbn [map filter].
    destruct (B' p (or_introl eq_refl)) as [F N].
    assert (Hl : (ns <= last p 0%nat)%nat) by (now apply last_in_le).
    rewrite last_shift by auto.
    assert (El : listed h' t (fs (last p 0%nat)) = listed h t (last p 0%nat)).
    { unfold listed. destruct (children_shift h h' _ R Hl) as [C1 _]. rewrite C1.
      unfold tags_of. rewrite (rh_at h) by auto. destruct t.
      - destruct (children h (last p 0%nat)); reflexivity.
      - destruct (nth_error (h_steps h) (last p 0%nat)); reflexivity. }
    rewrite El. specialize (IH (fun q Hq => B' q (or_intror Hq))).
    assert (Ep : map (if wo then append_orig h' else text_of h') (map fs p) = map (if wo then append_orig h else text_of h) p).
    { rewrite map_map. rewrite Forall_forall in F. apply map_ext_in. intros x Hx. specialize (F x Hx).
      destruct wo; [|now apply text_shift]. unfold append_orig. rewrite (text_shift h) by auto.
      unfold orig_of. rewrite (rh_at h) by auto. destruct (nth_error (h_steps h) x); reflexivity. }
    destruct (listed h t (last p 0%nat)); cbn [map]; [rewrite Ep; f_equal; exact IH|exact IH].
  Qed.
  End Regex.
End Shift.
