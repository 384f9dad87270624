(** * Mapping objects: merging and descending are those of the values *)
From Coq Require Import String Lia.
From Verif Require Import PyBase PyBase_Proofs Json JsonPointer_Model Paths_Model Pmod_Model Pmod_Spec
  Pmod_Proofs Pstep_Model Pstep_Spec.

Lemma lpmod_ind' : forall P : lpmod -> Prop,
  (forall l s r, (forall k p, In (k, p) s -> P p) -> (forall k p, In (k, p) r -> P p) -> P (LP l s r)) ->
  forall p, P p.
Proof.
  intros P H. fix IH 1. intros [l s r]. apply H.
  - induction s as [|[k q] s IHs]; intros k' p' Hin; [destruct Hin|].
    destruct Hin as [E|Hin]; [injection E as _ <-; apply IH|exact (IHs _ _ Hin)].
  - induction r as [|[k q] r IHr]; intros k' p' Hin; [destruct Hin|].
    destruct Hin as [E|Hin]; [injection E as _ <-; apply IH|exact (IHr _ _ Hin)].
Qed.

Definition ev (c : cells) (d : list (pystr * lpmod)) : list (pystr * pmod) :=
  map (fun kp => (fst kp, erase c (snd kp))) d.
Definition all_allocated (c : cells) (d : list (pystr * lpmod)) : Prop :=
  forall k p, In (k, p) d -> allocated c p.

Lemma allocated_inv : forall c l s r, allocated c (LP l s r) <->
  (l < length c)%nat /\ all_allocated c s /\ all_allocated c r.
Proof.
  intros c l s r. split.
  - intros H. split; [|split].
    + apply H. constructor.
    + intros k p Hin x Hx. apply H. eapply Hl_step; eauto.
    + intros k p Hin x Hx. apply H. eapply Hl_regx; eauto.
  - intros [H1 [H2 H3]] x Hx. inversion Hx; subst; auto; [eapply H2|eapply H3]; eauto.
Qed.

Lemma allocated_app : forall c cx p, allocated c p -> allocated (c ++ cx) p.
Proof. intros c cx p H x Hx. rewrite app_length. specialize (H x Hx). lia. Qed.
Lemma all_allocated_app : forall c cx d, all_allocated c d -> all_allocated (c ++ cx) d.
Proof. intros c cx d H k p Hin. apply allocated_app. eauto. Qed.

Lemma erase_app : forall p c cx, allocated c p -> erase (c ++ cx) p = erase c p.
Proof.
  induction p as [l s r IHs IHr] using lpmod_ind'. intros c cx H.
  apply allocated_inv in H. destruct H as [Hl [Hs Hr]]. cbn [erase]. f_equal.
  - now apply app_nth1.
  - apply map_ext_in. intros [k p] Hin. cbn. f_equal. eapply IHs; eauto.
  - apply map_ext_in. intros [k p] Hin. cbn. f_equal. eapply IHr; eauto.
Qed.
Lemma ev_app : forall c cx d, all_allocated c d -> ev (c ++ cx) d = ev c d.
Proof. intros c cx d H. apply map_ext_in. intros [k p] Hin. cbn. f_equal. apply erase_app. eauto. Qed.

(** A cell outside the mappings does not matter. *)
Lemma erase_update : forall p c l v, ~ has_label p l -> erase (list_update c l v) p = erase c p.
Proof.
  induction p as [l s r IHs IHr] using lpmod_ind'. intros c x v H. cbn [erase]. f_equal.
  - assert (l <> x) by (intros ->; apply H; constructor).
    revert x v H H0. revert l. clear. intros l x v _ N.
    revert l x N. induction c as [|y c IH]; intros l x N; [destruct x; reflexivity|].
    destruct l, x; cbn; auto; try congruence.
  - apply map_ext_in. intros [k p] Hin. cbn. f_equal. eapply IHs; eauto.
    intros Hp. apply H. eapply Hl_step; eauto.
  - apply map_ext_in. intros [k p] Hin. cbn. f_equal. eapply IHr; eauto.
    intros Hp. apply H. eapply Hl_regx; eauto.
Qed.

Lemma ev_dget : forall c k d, dget str_eqb k (ev c d) = option_map (erase c) (dget str_eqb k d).
Proof. induction d as [|[k' p] d IH]; cbn; auto. destruct (str_eqb k k'); auto. Qed.
Lemma ev_dset : forall c k p d, ev c (dset str_eqb k p d) = dset str_eqb k (erase c p) (ev c d).
Proof.
  induction d as [|[k' p'] d IH]; cbn; auto. destruct (str_eqb k k'); cbn; auto.
  f_equal. exact IH.
Qed.
Lemma ev_dmem : forall c k d, dmem str_eqb k (ev c d) = dmem str_eqb k d.
Proof. intros. unfold dmem. rewrite ev_dget. destruct (dget str_eqb k d); auto. Qed.
Lemma ev_filter : forall c (f : pystr -> bool) d,
  ev c (filter (fun x => f (fst x)) d) = filter (fun x => f (fst x)) (ev c d).
Proof. induction d as [|[k p] d IH]; cbn; auto. destruct (f k); cbn; f_equal; auto. Qed.
Lemma dget_allocated : forall c k d p, all_allocated c d -> dget str_eqb k d = Some p -> allocated c p.
Proof.
  intros c k d p H. induction d as [|[k' p'] d IH]; cbn; [discriminate|].
  destruct (str_eqb k k').
  - intros [= <-]. eapply H. left. reflexivity.
  - apply IH. intros k2 p2 Hin. eapply H. right. exact Hin.
Qed.
Lemma dset_allocated : forall c k d p, all_allocated c d -> allocated c p ->
  all_allocated c (dset str_eqb k p d).
Proof.
  intros c k d p H Hp. induction d as [|[k' p'] d IH]; cbn.
  - intros k2 p2 [E|[]]. now injection E as <- <-.
  - destruct (str_eqb k k'); intros k2 p2 [E|Hin].
    + now injection E as _ <-.
    + eapply H. right. exact Hin.
    + eapply H. left. exact E.
    + eapply IH; eauto. intros k3 p3 H3. eapply H. right. exact H3.
Qed.

Definition fsteps (c : cells) dc no :=
  let (d, c) := dc : list (pystr * lpmod) * cells in
  match dget str_eqb (fst no) d with
  | Some spmod => let (m, c) := lmerge spmod (snd no) c in (dset str_eqb (fst no) m d, c)
  | None => (dset str_eqb (fst no) (snd no) d, c)
  end.

Definition fregxs (srpmods : list (pystr * lpmod)) dc no :=
  let (d, c) := dc : list (pystr * lpmod) * cells in
  match dget str_eqb (fst no) srpmods with
  | Some spmod => let (m, c) := lmerge spmod (snd no) c in (d ++ [(fst no, m)], c)
  | None => (d ++ [no], c)
  end.

Lemma lmerge_eq : forall self ol osteps oregxs c0, lmerge self (LP ol osteps oregxs) c0 =
  let c := c0 ++ [match nth ol c0 None with Some a => Some a | None => l_alias c0 self end] in
  let (steps, c) := match osteps with
                    | [] => (l_steps self, c)
                    | _ => match l_steps self with [] => (osteps, c)
                           | _ => fold_left (fsteps c0) osteps (l_steps self, c) end end in
  let (regxs, c) := match oregxs with
                    | [] => (l_regxs self, c)
                    | _ => match l_regxs self with [] => (oregxs, c)
                           | _ => let (opairs, c) := fold_left (fregxs (l_regxs self)) oregxs ([], c) in
                                  (filter (fun ns => negb (dmem str_eqb (fst ns) oregxs)) (l_regxs self)
                                   ++ opairs, c) end end in
  (LP (length c0) steps regxs, c).
Proof. reflexivity. Qed.

(** The cells are only extended. *)
Lemma fsteps_ext : forall c0 os, (forall k o, In (k, o) os -> forall self c, exists cx, snd (lmerge self o c) = c ++ cx) ->
  forall d c, exists cx, snd (fold_left (fsteps c0) os (d, c)) = c ++ cx.
Proof.
  intros c0 os. induction os as [|[k o] os IH]; intros H d c; cbn [fold_left].
  - exists []. now rewrite app_nil_r.
  - unfold fsteps at 2. cbn [fst snd]. destruct (dget str_eqb k d) as [sp|].
    + destruct (H k o (or_introl eq_refl) sp c) as [cx E]. destruct (lmerge sp o c) as [m c1].
      cbn in E. subst c1. destruct (IH (fun k2 o2 Hin => H k2 o2 (or_intror Hin)) (dset str_eqb k m d) (c ++ cx)) as [cy E].
      exists (cx ++ cy). now rewrite E, app_assoc.
    + apply IH. intros k2 o2 Hin. apply (H k2 o2). now right.
Qed.
Lemma fregxs_ext : forall sr os, (forall k o, In (k, o) os -> forall self c, exists cx, snd (lmerge self o c) = c ++ cx) ->
  forall d c, exists cx, snd (fold_left (fregxs sr) os (d, c)) = c ++ cx.
Proof.
  intros sr os. induction os as [|[k o] os IH]; intros H d c; cbn [fold_left].
  - exists []. now rewrite app_nil_r.
  - unfold fregxs at 2. cbn [fst snd]. destruct (dget str_eqb k sr) as [sp|].
    + destruct (H k o (or_introl eq_refl) sp c) as [cx E]. destruct (lmerge sp o c) as [m c1].
      cbn in E. subst c1. destruct (IH (fun k2 o2 Hin => H k2 o2 (or_intror Hin)) (d ++ [(k, m)]) (c ++ cx)) as [cy E].
      exists (cx ++ cy). now rewrite E, app_assoc.
    + apply IH. intros k2 o2 Hin. apply (H k2 o2). now right.
Qed.

Lemma lmerge_ext : forall o self c, exists cx, snd (lmerge self o c) = c ++ cx.
Proof.
  induction o as [ol os or IHs IHr] using lpmod_ind'. intros self c0. rewrite lmerge_eq. cbv zeta.
  set (c := c0 ++ _).
  assert (H1 : exists cx, snd (match os with
                    | [] => (l_steps self, c)
                    | _ => match l_steps self with [] => (os, c)
                           | _ => fold_left (fsteps c0) os (l_steps self, c) end end) = c ++ cx).
  { destruct os; [exists []; cbn; now rewrite app_nil_r|].
    destruct (l_steps self); [exists []; cbn; now rewrite app_nil_r|]. apply fsteps_ext. exact IHs. }
  destruct (match os with [] => _ | _ => _ end) as [steps c1]. cbn in H1. destruct H1 as [cx E1].
  assert (H2 : exists cx, snd (match or with
                    | [] => (l_regxs self, c1)
                    | _ => match l_regxs self with [] => (or, c1)
                           | _ => let (opairs, c) := fold_left (fregxs (l_regxs self)) or ([], c1) in
                                  (filter (fun ns => negb (dmem str_eqb (fst ns) or)) (l_regxs self)
                                   ++ opairs, c) end end) = c1 ++ cx).
  { destruct or; [exists []; cbn; now rewrite app_nil_r|].
    destruct (l_regxs self) as [|r0 sr]; [exists []; cbn; now rewrite app_nil_r|].
    destruct (fregxs_ext (r0 :: sr) (p :: or) IHr [] c1) as [cy E].
    destruct (fold_left _ (p :: or) _). cbn in *. eauto. }
  destruct (match or with [] => _ | _ => _ end) as [regxs c2]. cbn in H2. destruct H2 as [cy E2].
  cbn. exists ([match nth ol c0 None with Some a => Some a | None => l_alias c0 self end] ++ cx ++ cy).
  rewrite E2, E1. unfold c. now rewrite <- !app_assoc.
Qed.

Definition merges (o : lpmod) : Prop := forall self c m c', lmerge self o c = (m, c') ->
  allocated c self -> allocated c o ->
  allocated c' m /\ erase c' m = merge (erase c self) (erase c o).

Definition gsteps (d : list (pystr * pmod)) (no : pystr * pmod) :=
  dset str_eqb (fst no) (match dget str_eqb (fst no) d with
                         | Some spmod => merge spmod (snd no) | None => snd no end) d.

Lemma fsteps_erase : forall c0 os, (forall k o, In (k, o) os -> merges o) ->
  forall d c d' c', fold_left (fsteps c0) os (d, c) = (d', c') ->
  all_allocated c d -> all_allocated c os ->
  all_allocated c' d' /\ ev c' d' = fold_left gsteps (ev c os) (ev c d).
Proof.
  intros c0 os. induction os as [|[k o] os IH]; intros H d c d' c' E Hd Ho.
  - cbn in E. injection E as <- <-. auto.
  - cbn [fold_left] in E. cbn [ev map fold_left fst snd]. unfold fsteps at 2 in E. cbn [fst snd] in E.
    assert (Hos : all_allocated c os) by (intros k2 o2 Hin; eapply Ho; right; exact Hin).
    assert (Hok : allocated c o) by (eapply Ho; left; reflexivity).
    unfold gsteps at 2. cbn [fst snd]. fold (ev c d). rewrite ev_dget.
    destruct (dget str_eqb k d) as [sp|] eqn:Eg; cbn [option_map].
    + destruct (lmerge sp o c) as [m c1] eqn:Em.
      assert (Hsp := dget_allocated _ _ _ _ Hd Eg).
      destruct (H k o (or_introl eq_refl) _ _ _ _ Em Hsp Hok) as [Hm1 Hm2].
      destruct (lmerge_ext o sp c) as [cx Ex]. rewrite Em in Ex. cbn in Ex. subst c1.
      destruct (IH (fun k2 o2 Hin => H k2 o2 (or_intror Hin)) _ _ _ _ E) as [A B].
      * apply dset_allocated; auto. now apply all_allocated_app.
      * now apply all_allocated_app.
      * split; auto. rewrite B. rewrite ev_dset, Hm2, !ev_app; auto.
    + destruct (IH (fun k2 o2 Hin => H k2 o2 (or_intror Hin)) _ _ _ _ E) as [A B]; auto.
      * apply dset_allocated; auto.
      * split; auto. rewrite B. now rewrite ev_dset.
Qed.

Definition gregxs (sr : list (pystr * pmod)) (no : pystr * pmod) :=
  (fst no, match dget str_eqb (fst no) sr with Some spmod => merge spmod (snd no) | None => snd no end).

Lemma fregxs_erase : forall sr os, (forall k o, In (k, o) os -> merges o) ->
  forall d c d' c', fold_left (fregxs sr) os (d, c) = (d', c') ->
  all_allocated c sr -> all_allocated c d -> all_allocated c os ->
  all_allocated c' d' /\ ev c' d' = ev c d ++ map (gregxs (ev c sr)) (ev c os).
Proof.
  intros sr os. induction os as [|[k o] os IH]; intros H d c d' c' E Hsr Hd Ho.
  - cbn in E. injection E as <- <-. split; auto. cbn. now rewrite app_nil_r.
  - cbn [fold_left] in E. cbn [ev map fst snd]. unfold fregxs at 2 in E. cbn [fst snd] in E.
    assert (Hos : all_allocated c os) by (intros k2 o2 Hin; eapply Ho; right; exact Hin).
    assert (Hok : allocated c o) by (eapply Ho; left; reflexivity).
    unfold gregxs at 1. cbn [fst snd]. rewrite (ev_dget c k sr : dget str_eqb k (ev c sr) = _).
    destruct (dget str_eqb k sr) as [sp|] eqn:Eg; cbn [option_map].
    + destruct (lmerge sp o c) as [m c1] eqn:Em.
      assert (Hsp := dget_allocated _ _ _ _ Hsr Eg).
      destruct (H k o (or_introl eq_refl) _ _ _ _ Em Hsp Hok) as [Hm1 Hm2].
      destruct (lmerge_ext o sp c) as [cx Ex]. rewrite Em in Ex. cbn in Ex. subst c1.
      destruct (IH (fun k2 o2 Hin => H k2 o2 (or_intror Hin)) _ _ _ _ E) as [A B].
      * now apply all_allocated_app.
      * intros k2 p2 Hin. apply in_app_iff in Hin. destruct Hin as [Hin|[E2|[]]].
        -- apply allocated_app. eauto.
        -- now injection E2 as _ <-.
      * now apply all_allocated_app.
      * split; auto. rewrite B. unfold ev at 1. rewrite map_app. fold (ev (c ++ cx) d).
        cbn [map fst snd]. rewrite Hm2. rewrite !ev_app by auto. now rewrite <- app_assoc.
    + destruct (IH (fun k2 o2 Hin => H k2 o2 (or_intror Hin)) _ _ _ _ E) as [A B]; auto.
      * intros k2 p2 Hin. apply in_app_iff in Hin. destruct Hin as [Hin|[E2|[]]]; eauto.
        injection E2 as _ <-. exact Hok.
      * split; auto. rewrite B. unfold ev at 1. rewrite map_app. cbn [map fst snd].
        now rewrite <- app_assoc.
Qed.

Lemma merge_eq : forall self oa os or, merge self (Pmod oa os or) =
  Pmod (match oa with Some a => Some a | None => p_alias self end)
    (match os with [] => p_steps self
     | _ => match p_steps self with [] => os | _ => fold_left gsteps os (p_steps self) end end)
    (match or with [] => p_regxs self
     | _ => match p_regxs self with [] => or
            | _ => filter (fun ns => negb (dmem str_eqb (fst ns) or)) (p_regxs self)
                   ++ map (gregxs (p_regxs self)) or end end).
Proof. reflexivity. Qed.

Lemma lmerge_erase : forall o, merges o.
Proof.
  induction o as [ol os or IHs IHr] using lpmod_ind'. intros [sl ss sr] c0 m c' E Hself Ho.
  apply allocated_inv in Hself. destruct Hself as [Hsl [Hss Hsr]].
  apply allocated_inv in Ho. destruct Ho as [Hol [Hos Hor]].
  rewrite lmerge_eq in E. cbv zeta in E. cbn [l_steps l_regxs] in E.
  unfold l_alias in E. cbn [l_label] in E.
  set (v := match nth ol c0 None with Some a => Some a | None => nth sl c0 None end) in E.
  set (c := c0 ++ [v]) in E.
  assert (Hss' := all_allocated_app _ [v] _ Hss). assert (Hsr' := all_allocated_app _ [v] _ Hsr).
  assert (Hos' := all_allocated_app _ [v] _ Hos). assert (Hor' := all_allocated_app _ [v] _ Hor).
  fold c in Hss', Hsr', Hos', Hor'.
  assert (Ess : ev c ss = ev c0 ss) by (now apply ev_app).
  assert (Esr : ev c sr = ev c0 sr) by (now apply ev_app).
  assert (Eos : ev c os = ev c0 os) by (now apply ev_app).
  assert (Eor : ev c or = ev c0 or) by (now apply ev_app).
  assert (H1 : exists steps c1, (match os with
                    | [] => (ss, c)
                    | _ => match ss with [] => (os, c)
                           | _ => fold_left (fsteps c0) os (ss, c) end end) = (steps, c1)
     /\ (exists cx, c1 = c ++ cx) /\ all_allocated c1 steps
     /\ ev c1 steps = match ev c0 os with [] => ev c0 ss
     | _ => match ev c0 ss with [] => ev c0 os | _ => fold_left gsteps (ev c0 os) (ev c0 ss) end end).
  { destruct os as [|o1 os]; [exists ss, c; repeat split; auto; exists []; now rewrite app_nil_r|].
    destruct ss as [|s1 ss]; [exists (o1 :: os), c; repeat split; auto; exists []; now rewrite app_nil_r|].
    destruct (fold_left (fsteps c0) (o1 :: os) (s1 :: ss, c)) as [steps c1] eqn:Ef.
    exists steps, c1. split; auto. split.
    { destruct (fsteps_ext c0 (o1 :: os) (fun k o _ => lmerge_ext o) (s1 :: ss) c) as [cx Ex].
      exists cx. etransitivity; [symmetry; exact (f_equal snd Ef)|exact Ex]. }
    destruct (fsteps_erase c0 (o1 :: os) IHs _ _ _ _ Ef Hss' Hos') as [A B]. split; auto.
    rewrite B, Ess, Eos. reflexivity. }
  destruct H1 as [steps [c1 [E1 [[cx ->] [A1 B1]]]]]. rewrite E1 in E.
  assert (H2 : exists regxs c2, (match or with
                    | [] => (sr, c ++ cx)
                    | _ => match sr with [] => (or, c ++ cx)
                           | _ => let (opairs, c) := fold_left (fregxs sr) or ([], c ++ cx) in
                                  (filter (fun ns => negb (dmem str_eqb (fst ns) or)) sr
                                   ++ opairs, c) end end) = (regxs, c2)
     /\ (exists cy, c2 = c ++ cx ++ cy) /\ all_allocated c2 regxs
     /\ ev c2 regxs = match ev c0 or with [] => ev c0 sr
     | _ => match ev c0 sr with [] => ev c0 or
            | _ => filter (fun ns => negb (dmem str_eqb (fst ns) (ev c0 or))) (ev c0 sr)
                   ++ map (gregxs (ev c0 sr)) (ev c0 or) end end).
  { assert (Hsr2 := all_allocated_app _ cx _ Hsr'). assert (Hor2 := all_allocated_app _ cx _ Hor').
    assert (Esr2 : ev (c ++ cx) sr = ev c0 sr) by (rewrite ev_app; auto).
    assert (Eor2 : ev (c ++ cx) or = ev c0 or) by (rewrite ev_app; auto).
    destruct or as [|o1 or]; [exists sr, (c ++ cx); repeat split; auto; exists []; now rewrite app_nil_r|].
    destruct sr as [|s1 sr]; [exists (o1 :: or), (c ++ cx); repeat split; auto; exists []; now rewrite app_nil_r|].
    destruct (fold_left (fregxs (s1 :: sr)) (o1 :: or) ([], c ++ cx)) as [opairs c2] eqn:Ef.
    exists (filter (fun ns => negb (dmem str_eqb (fst ns) (o1 :: or))) (s1 :: sr) ++ opairs), c2.
    split; auto.
    destruct (fregxs_ext (s1 :: sr) (o1 :: or) (fun k o _ => lmerge_ext o) [] (c ++ cx)) as [cy Ey].
    assert (Ec : c2 = (c ++ cx) ++ cy) by (etransitivity; [symmetry; exact (f_equal snd Ef)|exact Ey]).
    subst c2.
    split; [exists cy; now rewrite app_assoc|].
    destruct (fregxs_erase (s1 :: sr) (o1 :: or) IHr _ _ _ _ Ef Hsr2 (fun k p (H : In _ []) => match H with end) Hor2) as [A B].
    split.
    - intros k p Hin. apply in_app_iff in Hin. destruct Hin as [Hin|Hin]; [|eauto].
      apply filter_In in Hin. destruct Hin as [Hin _]. apply allocated_app. eauto.
    - unfold ev at 1. rewrite map_app. fold (ev ((c ++ cx) ++ cy) opairs). rewrite B.
      rewrite Esr2, Eor2. cbn [ev map app]. 
      change (fst o1, erase c0 (snd o1)) with (fst o1, erase c0 (snd o1)).
      assert (F : map (fun kp => (fst kp, erase ((c ++ cx) ++ cy) (snd kp)))
                    (filter (fun ns => negb (dmem str_eqb (fst ns) (o1 :: or))) (s1 :: sr))
                = filter (fun ns => negb (dmem str_eqb (fst ns) (ev c0 (o1 :: or)))) (ev c0 (s1 :: sr))).
      { change (ev ((c ++ cx) ++ cy) (filter (fun ns => negb (dmem str_eqb (fst ns) (o1 :: or))) (s1 :: sr))
          = filter (fun ns => negb (dmem str_eqb (fst ns) (ev c0 (o1 :: or)))) (ev c0 (s1 :: sr))).
        rewrite (ev_filter _ (fun k => negb (dmem str_eqb k (o1 :: or)))).
        rewrite (ev_app (c ++ cx) cy (s1 :: sr)) by auto. rewrite Esr2.
        apply filter_ext. intros [k p]. cbn [fst]. now rewrite ev_dmem. }
      rewrite F. reflexivity. }
  destruct H2 as [regxs [c2 [E2 [[cy ->] [A2 B2]]]]]. rewrite E2 in E. injection E as <- <-.
  split.
  - apply allocated_inv. split; [|split]; auto.
    + unfold c. rewrite !app_length. cbn. lia.
    + rewrite app_assoc. now apply all_allocated_app.
  - cbn [erase]. rewrite merge_eq. cbn [p_alias p_steps p_regxs]. f_equal.
    + unfold c. rewrite <- app_assoc. rewrite app_nth2 by lia.
      rewrite Nat.sub_diag. cbn. reflexivity.
    + change (ev (c ++ cx ++ cy) steps = match ev c0 os with [] => ev c0 ss
        | _ => match ev c0 ss with [] => ev c0 os | _ => fold_left gsteps (ev c0 os) (ev c0 ss) end end).
      rewrite app_assoc, ev_app by auto. exact B1.
    + exact B2.
Qed.

(** Creating mapping objects. *)
Definition falloc dc kp :=
  let (d, c) := dc : list (pystr * lpmod) * cells in
  let (x, c) := alloc_pmod (snd kp) c in (d ++ [(fst kp, x)], c).
Lemma alloc_eq : forall a s r c, alloc_pmod (Pmod a s r) c =
  let (s, c1) := fold_left falloc s ([], c ++ [a]) in
  let (r, c2) := fold_left falloc r ([], c1) in (LP (length c) s r, c2).
Proof. reflexivity. Qed.

Definition allocs (p : pmod) : Prop := forall c lp c', alloc_pmod p c = (lp, c') ->
  (exists cx, c' = c ++ cx) /\ allocated c' lp /\ erase c' lp = p.

Lemma falloc_spec : forall s, (forall k p, In (k, p) s -> allocs p) ->
  forall d c d' c', fold_left falloc s (d, c) = (d', c') -> all_allocated c d ->
  (exists cx, c' = c ++ cx) /\ all_allocated c' d' /\ ev c' d' = ev c d ++ s.
Proof.
  induction s as [|[k p] s IH]; intros H d c d' c' E Hd; cbn [fold_left] in E.
  - injection E as <- <-. split; [exists []; now rewrite app_nil_r|]. split; auto. now rewrite app_nil_r.
  - unfold falloc at 2 in E. cbn [fst snd] in E. destruct (alloc_pmod p c) as [x c1] eqn:Ep.
    destruct (H k p (or_introl eq_refl) _ _ _ Ep) as [[cx ->] [Hx1 Hx2]].
    destruct (IH (fun k2 p2 Hin => H k2 p2 (or_intror Hin)) _ _ _ _ E) as [[cy ->] [A B]].
    { intros k2 p2 Hin. apply in_app_iff in Hin. destruct Hin as [Hin|[E2|[]]].
      - apply allocated_app. eauto.
      - now injection E2 as _ <-. }
    split; [exists (cx ++ cy); now rewrite app_assoc|]. split; auto.
    rewrite B. unfold ev at 1. rewrite map_app. fold (ev (c ++ cx) d). cbn [map fst snd].
    rewrite Hx2, ev_app by auto. now rewrite <- app_assoc.
Qed.

Lemma pmod_ind2 : forall P : pmod -> Prop,
  (forall a s r, (forall k p, In (k, p) s -> P p) -> (forall k p, In (k, p) r -> P p) -> P (Pmod a s r)) ->
  forall p, P p.
Proof.
  intros P H. fix IH 1. intros [l s r]. apply H.
  - induction s as [|[k q] s IHs]; intros k' p' Hin; [destruct Hin|].
    destruct Hin as [E|Hin]; [injection E as _ <-; apply IH|exact (IHs _ _ Hin)].
  - induction r as [|[k q] r IHr]; intros k' p' Hin; [destruct Hin|].
    destruct Hin as [E|Hin]; [injection E as _ <-; apply IH|exact (IHr _ _ Hin)].
Qed.

Lemma alloc_spec : forall p, allocs p.
Proof.
  induction p as [a s r IHs IHr] using pmod_ind2. intros c lp c' E. rewrite alloc_eq in E.
  destruct (fold_left falloc s ([], c ++ [a])) as [s' c1] eqn:E1.
  destruct (fold_left falloc r ([], c1)) as [r' c2] eqn:E2. injection E as <- <-.
  destruct (falloc_spec s IHs _ _ _ _ E1 (fun k p (H : In _ []) => match H with end)) as [[cx ->] [A1 B1]].
  destruct (falloc_spec r IHr _ _ _ _ E2 (fun k p (H : In _ []) => match H with end)) as [[cy ->] [A2 B2]].
  split; [exists ([a] ++ cx ++ cy); now rewrite <- !app_assoc|]. split.
  - apply allocated_inv. split; [rewrite !app_length; cbn; lia|]. split; auto.
    now apply all_allocated_app.
  - cbn [erase]. f_equal.
    + rewrite <- !app_assoc. rewrite app_nth2 by lia. now rewrite Nat.sub_diag.
    + change (ev (((c ++ [a]) ++ cx) ++ cy) s' = s). rewrite ev_app by auto. exact B1.
    + exact B2.
Qed.

Section Regex.
  Variable M : Type.
  Variable fullmatch : pystr -> pystr -> option M.
  Variable expand : M -> pystr -> res pystr.
  Notation ldesc := (ldescend M fullmatch expand).
  Notation lmatch := (lmatch_regxs M fullmatch).
  Notation lfirst := (lfirst_alias M expand).

  Lemma fold_lmerge_ext : forall ps p c, exists cx,
    snd (fold_left (fun mc q => lmerge (fst mc) q (snd mc)) ps (p, c)) = c ++ cx.
  Proof.
    induction ps as [|q ps IH]; intros p c; cbn [fold_left].
    - exists []. now rewrite app_nil_r.
    - cbn [fst snd]. destruct (lmerge_ext q p c) as [cx Ex]. destruct (lmerge p q c) as [m c1].
      cbn in Ex. subst c1. destruct (IH m (c ++ cx)) as [cy Ey]. exists (cx ++ cy).
      now rewrite Ey, app_assoc.
  Qed.

  Lemma ldescend_ext : forall p a c, exists cx, fst (ldesc p a c) = c ++ cx.
  Proof.
    intros p a c. unfold ldescend. destruct (match _ with Some _ => _ | None => lfirst _ _ end) as [al|e].
    - destruct (map fst _ ++ _) as [|q ps]; [exists []; now rewrite app_nil_r|].
      destruct (fold_lmerge_ext ps q c) as [cx Ex]. destruct (fold_left _ ps _). cbn in *. eauto.
    - exists []. now rewrite app_nil_r.
  Qed.

  Lemma fold_lmerge_erase : forall ps p c m c',
    fold_left (fun mc q => lmerge (fst mc) q (snd mc)) ps (p, c) = (m, c') ->
    allocated c p -> (forall q, In q ps -> allocated c q) ->
    allocated c' m /\ erase c' m = fold_left merge (map (erase c) ps) (erase c p).
  Proof.
    induction ps as [|q ps IH]; intros p c m c' E Hp Hps; cbn [fold_left map] in *.
    - injection E as <- <-. auto.
    - cbn [fst snd] in E. destruct (lmerge p q c) as [m1 c1] eqn:Em.
      destruct (lmerge_erase q _ _ _ _ Em Hp (Hps q (or_introl eq_refl))) as [A B].
      destruct (lmerge_ext q p c) as [cx Ex]. rewrite Em in Ex. cbn in Ex. subst c1.
      destruct (IH _ _ _ _ E A) as [A' B'].
      { intros x Hx. apply allocated_app, Hps. now right. }
      split; auto. rewrite B', B. f_equal. apply map_ext_in. intros x Hx. apply erase_app, Hps. now right.
  Qed.

  Lemma lmatch_erase : forall c p a,
    match_regxs M fullmatch (erase c p) a = map (fun qm => (erase c (fst qm), snd qm)) (lmatch p a).
  Proof.
    intros c [l s r] a. unfold match_regxs, lmatch_regxs. cbn [erase p_regxs l_regxs].
    induction r as [|[k q] r IH]; auto. cbn [flat_map map fst snd]. rewrite IH.
    rewrite map_app. destruct (fullmatch k a); auto.
  Qed.

  Lemma lfirst_erase : forall c l,
    first_alias M expand (map (fun qm => (erase c (fst qm), snd qm)) l) = lfirst c l.
  Proof.
    intros c l. induction l as [|[[x s r] m] l IH]; auto.
    cbn [map first_alias lfirst_alias fst snd]. unfold l_alias. cbn [erase p_alias l_label].
    destruct (nth x c None); auto.
  Qed.

  Lemma lmatch_allocated : forall c p a q m, allocated c p -> In (q, m) (lmatch p a) -> allocated c q.
  Proof.
    intros c [l s r] a q m H Hin. apply allocated_inv in H. destruct H as [_ [_ H]].
    unfold lmatch_regxs in Hin. apply in_flat_map in Hin. destruct Hin as [[k x] [H1 H2]].
    cbn [fst snd] in H2. destruct (fullmatch k a); [|destruct H2]. destruct H2 as [E|[]].
    injection E as <- _. eapply H. exact H1.
  Qed.

  (** Descending on objects is that on their values. *)
  Lemma ldescend_erase : forall p a c c' r, ldesc p a c = (c', r) -> allocated c p ->
    match r with
    | Raise e => descend M fullmatch expand (erase c p) a = Raise e
    | Ok (None, al) => descend M fullmatch expand (erase c p) a = Ok (None, al)
    | Ok (Some q, al) => allocated c' q
        /\ descend M fullmatch expand (erase c p) a = Ok (Some (erase c' q), al)
    end.
  Proof.
    intros p a c c' r E Hp. unfold ldescend in E. unfold descend.
    rewrite lmatch_erase. destruct p as [l s r0] eqn:Ep. cbn [erase p_steps]. cbn [l_steps] in E.
    rewrite (ev_dget c a s : dget str_eqb a (map _ s) = _).
    assert (Al : match option_map (erase c) (dget str_eqb a s) with
                 | Some (Pmod (Some x) _ _) => Ok (Some x)
                 | _ => first_alias M expand (rev (map (fun qm => (erase c (fst qm), snd qm)) (lmatch (LP l s r0) a)))
                 end
               = match match dget str_eqb a s with Some q => l_alias c q | None => None end with
                 | Some x => Ok (Some x)
                 | None => lfirst c (rev (lmatch (LP l s r0) a)) end).
    { rewrite <- map_rev, lfirst_erase. destruct (dget str_eqb a s) as [[x sx rx]|]; auto. }
    rewrite Al. destruct (match _ with Some x => Ok (Some x) | None => lfirst _ _ end) as [al|e].
    2:{ injection E as <- <-. reflexivity. }
    cbn [rbind]. rewrite map_map. cbn [fst].
    assert (L : map (fun x : lpmod * M => erase c (fst x)) (lmatch (LP l s r0) a)
        ++ match option_map (erase c) (dget str_eqb a s) with Some q => [q] | None => [] end
      = map (erase c) (map fst (lmatch (LP l s r0) a)
         ++ match dget str_eqb a s with Some q => [q] | None => [] end)).
    { rewrite map_app, map_map. f_equal. destruct (dget str_eqb a s); auto. }
    rewrite L.
    assert (All : forall q, In q (map fst (lmatch (LP l s r0) a)
         ++ match dget str_eqb a s with Some q => [q] | None => [] end) -> allocated c q).
    { intros q Hq. apply in_app_iff in Hq. destruct Hq as [Hq|Hq].
      - apply in_map_iff in Hq. destruct Hq as [[q' m] [<- Hq]]. eapply lmatch_allocated; eauto.
      - apply allocated_inv in Hp. destruct Hp as [_ [Hp _]].
        destruct (dget str_eqb a s) eqn:Eg; [|destruct Hq]. destruct Hq as [<-|[]].
        eapply dget_allocated; eauto. }
    destruct (map fst _ ++ _) as [|q ps]; cbn [map].
    - injection E as <- <-. reflexivity.
    - destruct (fold_left _ ps (q, c)) as [m c1] eqn:Ef. injection E as <- <-.
      destruct (fold_lmerge_erase _ _ _ _ _ Ef (All q (or_introl eq_refl))
                  (fun x Hx => All x (or_intror Hx))) as [A B].
      split; auto. now rewrite B.
  Qed.
End Regex.
