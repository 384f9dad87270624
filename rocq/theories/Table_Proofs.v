(** * Proofs about steps from tables *)
From Coq Require Import String Lia.
From Verif Require Import PyBase PyBase_Proofs Json JsonPointer_Model JsonPointer_Spec JsonPointer_Proofs
  Paths_Model Pmod_Model Pmod_Spec Pmod_Proofs PmodMap_Proofs Pstep_Model Pstep_Spec PstepPmod_Proofs
  Pstep_Proofs PstepTree_Proofs PstepHist_Proofs PstepPaths_Proofs Table_Model Table_Spec.

Lemma akey_eqb_spec : forall a b, reflect (a = b) (akey_eqb a b).
Proof.
  intros [i a] [j b]. unfold akey_eqb. cbn [fst snd]. destruct (Nat.eqb_spec i j) as [ -> |N]; cbn [andb].
  - destruct (str_eqb_spec a b) as [ -> |N]; constructor; congruence.
  - constructor. congruence.
Qed.

Lemma akey_eqb_eq : forall a b, akey_eqb a b = true <-> a = b.
Proof. intros a b. destruct (akey_eqb_spec a b); intuition congruence. Qed.

Lemma unescapes_nil : forall a, unescapes a [] -> a = [].
Proof. intros a H. inversion H; auto. Qed.

Lemma text_for_nonempty : forall n al t, n <> [] -> text_for n al t -> t <> [].
Proof. intros n al t Hn H. destruct H as [| |a t Ha Hu]; auto. intros ->. apply Ha. now apply unescapes_nil. Qed.


Lemma unescapes_self : forall n, ~ In 126%N n -> unescapes n n.
Proof.
  induction n as [|c n IH]; intros H; [constructor|]. constructor.
  - apply IH. intro Hin. apply H. now right.
  - intros ->. exfalso. apply H. now left.
Qed.

Lemma rel_path : forall n, ~ In 47%N n -> ~ In 126%N n -> iter_parts_relaxed (47%N :: n) = [[]; n].
Proof.
  intros n H1 H2. apply steps_of_iter. exists [[]; n]. split; [discriminate|]. split.
  - intros r [<-|[<-|[]]]; auto.
  - split; [reflexivity|]. constructor; [constructor|]. constructor; [now apply unescapes_self|constructor].
Qed.

(** ** The mappings of a flat table *)
Definition leaf (nt : pystr * pystr) : pystr * pmod := (fst nt, Pmod (Some (snd nt)) [] []).
Definition top (l : list (pystr * pystr)) : pmod := Pmod None (map leaf l) [].
Definition tree (l : list (pystr * pystr)) : pmod :=
  match l with [] => empty_pmod | _ => Pmod None [([], top l)] [] end.

Lemma leaf_keys : forall l, map fst (map leaf l) = map fst l.
Proof. intros l. rewrite map_map. reflexivity. Qed.

Lemma add_leaf : forall compiles l n t, ~ In n (map fst l) -> ~ In 126%N n ->
  add_path compiles (tree l) [[]; n] t = Some (tree (l ++ [(n, t)])).
Proof.
  intros compiles l n t Hn Ht.
  assert (Es : starts_with (lit "~") n = false).
  { destruct (starts_with (lit "~") n) eqn:E; auto. exfalso. apply Ht. unfold starts_with in E.
    apply str_eqb_eq in E. destruct n as [|c n]; [discriminate|]. cbn in E. injection E as <-. now left. }
  assert (Eg : dget str_eqb [] (p_steps (tree l)) = match l with [] => None | _ => Some (top l) end)
    by (destruct l; reflexivity).
  cbn [add_path]. rewrite Es.
  change (starts_with (lit "~") []) with false. cbn match. rewrite Eg.
  assert (El : p_steps (match match l with [] => None | _ => Some (top l) end with Some c => c | None => empty_pmod end)
               = map leaf l) by (destruct l; reflexivity).
  rewrite El.
  assert (En : dget str_eqb n (map leaf l) = None).
  { apply (dget_None_notin str_eqb str_eqb_eq). now rewrite leaf_keys. }
  rewrite En. rewrite (dkeys_dset_notin str_eqb str_eqb_eq n) by now rewrite leaf_keys.
  destruct l as [|x l]; [reflexivity|].
  unfold tree at 4. cbn [app]. unfold top at 3. change (x :: l ++ [(n, t)]) with ((x :: l) ++ [(n, t)]).
  rewrite map_app. reflexivity.
Qed.

Section Table.
  Variable M : Type.
  Variable fullmatch : pystr -> pystr -> option M.
  Variable expand : M -> pystr -> res pystr.
  Variable compiles : pystr -> bool.
  Variable class_attr : pystr -> bool.
  Variable V : Type.
  Notation new := (new_step M fullmatch expand compiles).
  Notation make := (make_cstep M fullmatch expand compiles).
  Notation get := (getattr M fullmatch expand compiles class_attr).
  Notation ex := (exec M fullmatch expand compiles class_attr).
  Notation go := (run M fullmatch expand compiles class_attr).
  Notation cname := (child_name class_attr).

  Definition nt (r : row V) : pystr * pystr := (skipn 1 (r_path r), r_name r).
  Definition flat_rows (rows : list (row V)) : Prop :=
    forall r, In r rows -> exists n, r_path r = 47%N :: n /\ cname n.

  Lemma flat_name : forall rows r, flat_rows rows -> In r rows ->
    r_path r = 47%N :: fst (nt r) /\ cname (fst (nt r)).
  Proof. intros rows r H Hr. destruct (H r Hr) as [n [E Hn]]. unfold nt. rewrite E. cbn. auto. Qed.

  Lemma flat_nodup : forall rows, flat_rows rows -> NoDup (map r_path rows) -> NoDup (map fst (map nt rows)).
  Proof.
    induction rows as [|r rows IH]; intros H N; [constructor|]. cbn [map] in *. inversion N as [|? ? N1 N2]; subst.
    constructor.
    - intros Hin. apply N1. rewrite map_map in Hin. apply in_map_iff in Hin. destruct Hin as [r' [E Hr']].
      apply in_map_iff. exists r'. split; auto.
      destruct (flat_name _ r' H (or_intror Hr')) as [-> _]. destruct (flat_name _ r H (or_introl eq_refl)) as [-> _].
      now rewrite E.
    - apply IH; auto. intros x Hx. apply H. now right.
  Qed.

  Lemma table_tree : forall rows l, flat_rows rows -> NoDup (map fst (l ++ map nt rows)) ->
    add_tuples compiles (tree l) (map (fun r => (Some (r_path r), Some (r_name r))) rows) = Ok (tree (l ++ map nt rows)).
  Proof.
    induction rows as [|r rows IH]; intros l H N; cbn [map add_tuples].
    - now rewrite app_nil_r.
    - destruct (flat_name _ r H (or_introl eq_refl)) as [E [C1 [C2 [C3 _]]]].
      rewrite E. cbn [str_eqb andb]. rewrite rel_path by auto.
      replace (fst (nt r), r_name r) with (nt r) in * by reflexivity.
      rewrite add_leaf; auto.
      + change (fst (nt r), r_name r) with (nt r). rewrite IH.
        * now rewrite <- app_assoc.
        * intros x Hx. apply H. now right.
        * now rewrite <- app_assoc.
      + rewrite map_app in N. cbn [map] in N. apply NoDup_remove_2 in N. intros Hin. apply N. apply in_or_app. now left.
  Qed.

  (** ** One reference *)
  Lemma forbidden_not : forall n, cname n -> class_attr n = false /\ starts_with (lit "_") n || forbidden n = false.
  Proof.
    intros n [_ [_ [_ [C4 [C5 [C6 C7]]]]]]. split; auto.
    unfold forbidden. apply str_eqb_neq in C6, C7. rewrite C6, C7, Bool.orb_false_r.
    unfold starts_with. destruct (str_eqb_spec (lit "_") (firstn (length (lit "_")) n)) as [E|E]; auto.
    destruct n as [|y n]; [discriminate|]. cbn in E. injection E as <-. destruct (C5 n). reflexivity.
  Qed.

  Lemma get_new : forall h p s q l n t, good h -> pmods_exist h -> step_at h p s -> s_pmod s = Some q ->
    erase (h_cells h) q = top l -> NoDup (map fst l) -> In (n, t) l -> cname n ->
    (forall c, ~ child_at h p n c) ->
    exists h' sn s', get h p n = (h', Ok (VStep (length (h_steps h))))
      /\ step_at h' (length (h_steps h)) sn /\ text_for n (Some t) (s_text sn) /\ s_orig sn = n /\ s_csteps sn = None
      /\ step_at h' p s' /\ s_text s' = s_text s /\ s_pmod s' = Some q /\ erase (h_cells h') q = top l
      /\ (forall i si, i <> p -> step_at h i si -> step_at h' i si)
      /\ (forall i a c, child_at h' i a c <-> child_at h i a c \/ i = p /\ a = n /\ c = length (h_steps h))
      /\ good h' /\ pmods_exist h'.
  Proof.
    intros h p s q l n t G K Hs Hq He Nd Hin Hn Hc.
    destruct (forbidden_not n Hn) as [Ha Hf].
    assert (Eg : get h p n = let (h', r) := make h p n None None in
                             (h', match r with Ok n => Ok (VStep n) | Raise e => Raise e end)).
    { unfold getattr. rewrite Ha, Hf, Hs. destruct (dget str_eqb n (dict_of h (s_csteps s))) as [c|] eqn:Ed; auto.
      exfalso. apply (Hc c). apply children_child. unfold children. rewrite Hs. now apply dget_In. }
    assert (Gn : good (fst (get h p n))).
    { apply (good_run M fullmatch expand compiles class_attr [OGet p n] h G).
      constructor; [|constructor]. intros i a j E. discriminate. }
    assert (Kn : pmods_exist (fst (get h p n))).
    { apply (run_exist M fullmatch expand compiles class_attr [OGet p n] h K).
      constructor; [|constructor]. intros i a j ts E. discriminate. }
    destruct (make h p n None None) as [h' r] eqn:Em. rewrite Eg in Gn, Kn. cbn [fst] in Gn, Kn.
    destruct (K _ _ _ Hs Hq) as [Aq Wq].
    assert (X := make_ref M fullmatch expand compiles h p n h' r s Hs Em
                   (fun c Hc' => False_ind _ (Hc c Hc')) (fun p' Hp => proj1 (K p s p' Hs Hp))).
    rewrite Hq, He in X.
    assert (Ed : descend M fullmatch expand (top l) n = Ok (Some (Pmod (Some t) [] []), Some t)).
    { unfold descend, match_regxs. cbn [top p_steps p_regxs flat_map].
      assert (Eg' : dget str_eqb n (map leaf l) = Some (Pmod (Some t) [] [])).
      { apply (dget_In_NoDup str_eqb str_eqb_eq); [now rewrite leaf_keys|].
        apply in_map_iff. exists (n, t). auto. }
      rewrite Eg'. reflexivity. }
    rewrite Ed in X. destruct X as [ -> [tx [q' [X1 [X2 _]]]]].
    destruct (make_steps M fullmatch expand compiles h p n None None h' _ s Hs Em) as [s' [extra [E1 [[I1 _] [_ E3]]]]].
    assert (Lp : (p < length (h_steps h))%nat) by (eapply step_lt; eauto).
    destruct (make_cells M fullmatch expand compiles h p n None None h' _ s q Hs Em Aq) as [_ E4]; [discriminate|].
    exists h', (mkStep tx n q' None CAN_RELOCATE []), s'. repeat match goal with |- _ /\ _ => split end; auto.
    - unfold step_at. rewrite E1. apply nth_error_app_l. now apply nth_error_update_eq.
    - now rewrite E4.
    - intros i si Hi Hsi. unfold step_at. rewrite E1. apply nth_error_app_l. rewrite nth_error_update_neq; auto.
    - destruct G as [S [U _]]. intros i a c. split.
      + intros Hch. destruct (make_child M fullmatch expand compiles class_attr h p n None None h' _ s Hs Em S U (sole_none h p) i a c Hch)
          as [H|[[_ [ -> [ -> -> ]]]|[_ [_ [j [_ [_ [Hj|[_ Hj]]]]]]]]]; auto; [discriminate|].
        exfalso. exact (Hc _ Hj).
      + intros [H|[ -> [ -> -> ]]].
        * apply (make_child_kept M fullmatch expand compiles class_attr h p n None None h' _ s Hs Em S U _ _ _ H).
          intros Ei Ea. rewrite Ei, Ea in H. exact (Hc _ H).
        * exact (proj1 (make_new_child M fullmatch expand compiles _ _ _ _ _ _ _ _ Hs Em)).
  Qed.

  (** ** The values of one row *)
  Lemma free_set : forall a c col x, free_column col ->
    set_private V a (VStep c) (lit "_" ++ col) x = Ok (dset akey_eqb (c, lit "_" ++ col) x a).
  Proof.
    intros a c col x [H1 H2]. unfold set_private.
    assert (R : read_only (lit "_" ++ col) = false).
    { destruct (read_only (lit "_" ++ col)) eqn:E; auto. exfalso. unfold read_only in E. apply existsb_exists in E.
      destruct E as [y [Hy E]]. apply str_eqb_eq in E. apply H2.
      destruct Hy as [<-|[<-|[<-|[]]]]; injection E as ->; cbn; tauto. }
    assert (I : internal (lit "_" ++ col) = false).
    { unfold internal. apply orb_false_iff. split.
      - destruct (existsb (str_eqb (lit "_" ++ col)) _) eqn:E; auto. exfalso. apply existsb_exists in E.
        destruct E as [y [Hy E]]. apply str_eqb_eq in E. apply H2.
        destruct Hy as [<-|[<-|[<-|[<-|[<-|[]]]]]]; injection E as ->; cbn; tauto.
      - unfold starts_with. destruct (str_eqb_spec (lit "__") (firstn (length (lit "__")) (lit "_" ++ col))) as [E|E]; auto.
        destruct col as [|y col]; [discriminate|]. cbn in E. injection E as <-. destruct (H1 col). reflexivity. }
    now rewrite R, I.
  Qed.

  Lemma set_values_spec : forall c cols vals a, Forall free_column cols -> NoDup cols ->
    length vals = length cols ->
    exists a', set_values V a (VStep c) cols vals = Ok a'
      /\ (forall k col x, nth_error cols k = Some col -> nth_error vals k = Some x ->
            private a' c (lit "_" ++ col) = Some x)
      /\ (forall i attr, i <> c \/ (forall col, In col cols -> attr <> lit "_" ++ col) ->
            private a' i attr = private a i attr).
  Proof.
    intros c. induction cols as [|col cols IH]; intros vals a F N L; cbn [set_values].
    - exists a. split; auto. split; auto. intros [|k]; discriminate.
    - destruct vals as [|x vals]; [discriminate|]. inversion F as [|? ? F1 F2]; subst. inversion N as [|? ? N1 N2]; subst.
      rewrite free_set by auto. cbn [rbind].
      destruct (IH vals (dset akey_eqb (c, lit "_" ++ col) x a) F2 N2) as [a' [E [A B]]]; [now injection L|].
      exists a'. split; auto. split.
      + intros [|k] col' x' Hc Hx; [|eauto]. injection Hc as <-. injection Hx as <-.
        rewrite B; [apply dget_dset_eq; apply akey_eqb_eq|]. right. intros col' Hin E'.
        apply app_inv_head in E'. now subst col'.
      + intros i attr Hd. rewrite B.
        * apply dget_dset_neq; [apply akey_eqb_eq|]. intros E'. injection E' as E1 E2.
          destruct Hd as [Hd|Hd]; [now subst|]. apply (Hd col); [now left|]. now rewrite <- E2.
        * destruct Hd as [Hd|Hd]; auto. right. intros col' Hin. apply Hd. now right.
  Qed.

  (** ** All rows *)
  Definition row_done (h : heap) (a : attrs V) (p : nat) (cols : list pystr) (r : row V) (n : pystr) : Prop :=
    exists c sn, child_at h p n c /\ step_at h c sn /\ c <> p /\ text_for n (Some (r_name r)) (s_text sn)
      /\ s_orig sn = n /\ leaf_at h c
      /\ forall k col x, nth_error cols k = Some col -> nth_error (r_values r) k = Some x ->
           private a c (lit "_" ++ col) = Some x.

  Definition only_rows (h : heap) (a : attrs V) (p : nat) (cols : list pystr) (rows : list (row V)) : Prop :=
    (forall n c, child_at h p n c -> exists r, In r rows /\ r_path r = 47%N :: n)
    /\ (forall c attr x, private a c attr = Some x -> exists r n k col, In r rows /\ r_path r = 47%N :: n
          /\ child_at h p n c /\ attr = lit "_" ++ col /\ nth_error cols k = Some col /\ nth_error (r_values r) k = Some x).

  Lemma only_more : forall h a p cols rows r, only_rows h a p cols rows -> only_rows h a p cols (rows ++ [r]).
  Proof.
    intros h a p cols rows r [H1 H2]. split.
    - intros n c Hc. destruct (H1 n c Hc) as [r' [Hr E]]. exists r'. split; auto. apply in_or_app. now left.
    - intros c attr x Hp. destruct (H2 c attr x Hp) as [r' [n [k [col [Hr E]]]]]. exists r', n, k, col.
      split; auto. apply in_or_app. now left.
  Qed.

  Lemma set_rows_spec : forall p q l cols, Forall free_column cols -> NoDup cols -> NoDup (map fst l) ->
    forall todo done h a s,
    flat_rows (done ++ todo) -> (forall r, In r (done ++ todo) -> length (r_values r) = length cols) ->
    NoDup (map r_path (done ++ todo)) -> (forall r, In r (done ++ todo) -> In (nt r) l) ->
    good h -> pmods_exist h -> step_at h p s -> (todo <> [] -> s_pmod s = Some q /\ erase (h_cells h) q = top l) ->
    only_rows h a p cols done -> (forall r n, In r done -> r_path r = 47%N :: n -> row_done h a p cols r n) ->
    exists h' a' s', set_rows M fullmatch expand compiles class_attr V h a p cols todo = (h', Ok a')
      /\ good h' /\ pmods_exist h' /\ step_at h' p s' /\ s_text s' = s_text s
      /\ (forall i si, i <> p -> step_at h i si -> step_at h' i si)
      /\ only_rows h' a' p cols (done ++ todo)
      /\ (forall r n, In r (done ++ todo) -> r_path r = 47%N :: n -> row_done h' a' p cols r n).
  Proof.
    intros p q l cols Fc Nc Nl. induction todo as [|r todo IH]; intros done h a s Fl Ln Np Hl G K Hs Hq Ho Hd; cbn [set_rows].
    - exists h, a, s. rewrite app_nil_r. auto 10.
    - destruct (Hq ltac:(discriminate)) as [Hq1 Hq2]. clear Hq.
      assert (Hr : In r (done ++ r :: todo)) by (apply in_or_app; right; now left).
      destruct (flat_name _ r Fl Hr) as [Ep Hn]. set (n := fst (nt r)) in *.
      assert (En : skipn 1 (r_path r) = n) by reflexivity. rewrite En.
      assert (Hin : In (n, r_name r) l) by exact (Hl r Hr).
      assert (Fresh : forall c, ~ child_at h p n c).
      { intros c Hc. destruct Ho as [Ho _]. destruct (Ho n c Hc) as [r' [Hr' E']].
        rewrite map_app in Np. cbn [map] in Np. apply NoDup_remove_2 in Np. apply Np. apply in_or_app. left.
        apply in_map_iff. exists r'. split; [congruence|auto]. }
      destruct (get_new h p s q l n (r_name r) G K Hs Hq1 Hq2 Nl Hin Hn Fresh)
        as [h1 [sn [s1 [Eg [A1 [A2 [A3 [A4 [B1 [B2 [B3 [B4 [C1 [C2 [G1 K1]]]]]]]]]]]]]]].
      rewrite Eg. set (c := length (h_steps h)) in *.
      destruct (set_values_spec c cols (r_values r) a Fc Nc (Ln r Hr)) as [a1 [Es [V1 V2]]]. rewrite Es.
      assert (Old : forall i si, step_at h i si -> i <> c).
      { intros i si Hi ->. apply step_lt in Hi. unfold c in Hi. lia. }
      assert (Oc : forall i b c', child_at h i b c' -> i <> c /\ c' <> c).
      { intros i b c' Hc. destruct (child_lt h i b c' (proj1 G) Hc) as [Y1 Y2].
        unfold c. lia. }
      assert (Pc : p <> c) by exact (Old _ _ Hs).
      assert (Eapp : done ++ r :: todo = (done ++ [r]) ++ todo) by now rewrite <- app_assoc.
      destruct (IH (done ++ [r]) h1 a1 s1) as [h' [a' [s' [Er [G' [K' [Hs' [Ht' [Ho' [Hn' Hd']]]]]]]]]];
        try (rewrite <- Eapp; assumption); auto.
      + (* nothing else *)
        destruct Ho as [Ho1 Ho2]. split.
        * intros b c' Hc. apply C2 in Hc. destruct Hc as [Hc|[_ [ -> -> ]]].
          -- destruct (Ho1 _ _ Hc) as [r' [Hr' E']]. exists r'. split; auto. apply in_or_app. now left.
          -- exists r. split; auto. apply in_or_app. right. now left.
        * intros c' attr x Hp. destruct (Nat.eq_dec c' c) as [ -> |Nc'].
          -- destruct (in_dec (list_eq_dec N.eq_dec) attr (map (fun col => lit "_" ++ col) cols)) as [Hi|Hi].
             ++ apply in_map_iff in Hi. destruct Hi as [col [<- Hi]].
                destruct (In_nth_error _ _ Hi) as [k Hk].
                assert (Hx : exists y, nth_error (r_values r) k = Some y).
                { destruct (nth_error (r_values r) k) as [y|] eqn:Ey; eauto. exfalso.
                  apply nth_error_None in Ey. rewrite (Ln r Hr) in Ey.
                  assert (k < length cols)%nat by (apply nth_error_Some; congruence). lia. }
                destruct Hx as [y Hy]. rewrite (V1 _ _ _ Hk Hy) in Hp. injection Hp as ->.
                exists r, n, k, col. split; [apply in_or_app; right; now left|]. split; auto. split; auto.
                apply C2. now right.
             ++ rewrite V2 in Hp.
                ** destruct (Ho2 _ _ _ Hp) as [r' [n' [k [col [_ [_ [Hc _]]]]]]]. destruct (Oc _ _ _ Hc). contradiction.
                ** right. intros col Hcol ->. apply Hi. apply in_map_iff. eauto.
          -- rewrite V2 in Hp by auto. destruct (Ho2 _ _ _ Hp) as [r' [n' [k [col [Hr' [E' [Hc Hx]]]]]]].
             exists r', n', k, col. split; [apply in_or_app; now left|]. split; auto. split; auto. apply C2. now left.
      + (* each row *)
        intros r' n' Hr' E'. apply in_app_iff in Hr'. destruct Hr' as [Hr'|[<-|[]]].
        * destruct (Hd r' n' Hr' E') as [c' [sn' [D1 [D2 [D3 [D4 [D5 [D6 D7]]]]]]]].
          exists c', sn'. split; [apply C2; now left|]. split; [now apply C1|]. split; auto. split; auto. split; auto. split.
          -- intros b x Hx. apply C2 in Hx. destruct Hx as [Hx|[ -> _]]; [exact (D6 _ _ Hx)|contradiction].
          -- intros k col x Hk Hx. rewrite V2 by (left; exact (Old _ _ D2)). eauto.
        * assert (n' = n) as -> by congruence.
          exists c, sn. split; [apply C2; now right|]. split; auto. split; auto. split; auto. split; auto. split; auto.
          intros b x Hx. apply C2 in Hx. destruct Hx as [Hx|[Hx _]]; [destruct (Oc _ _ _ Hx); contradiction|auto].
      + exists h', a', s'. split; auto. split; auto. split; auto. split; auto. split; [congruence|].
        split; [|split; [rewrite Eapp; auto|rewrite Eapp; auto]].
        intros i si Hi Hsi. apply Ho'; auto.
  Qed.

  Lemma wf_tree : forall l, NoDup (map fst l) -> wf (tree l).
  Proof.
    intros l N.
    assert (W : wf (top l)).
    { constructor; [now rewrite leaf_keys|constructor| |intros k c []].
      intros k c Hin. apply in_map_iff in Hin. destruct Hin as [x [E _]]. injection E as _ <-.
      constructor; try constructor; intros ? ? []. }
    destruct l as [|x l]; [constructor; try constructor; intros ? ? []|].
    constructor; cbn [map fst]; [constructor; [tauto|constructor]|constructor| |intros k c []].
    intros k c [E|[]]. injection E as _ <-. exact W.
  Qed.

  Lemma descend_tree : forall l, descend M fullmatch expand (tree l) [] =
    Ok (match l with [] => None | _ => Some (top l) end, None).
  Proof. intros [|x l]; reflexivity. Qed.

  Lemma from_df : forall h cols rows, good h -> pmods_exist h -> flat_table class_attr V cols rows ->
    exists h' p a, pstep_from_df M fullmatch expand compiles class_attr V h cols rows = (h', Ok (p, a))
      /\ good h' /\ pmods_exist h' /\ text_of h' p = [] /\ p = length (h_steps h)
      /\ (forall i si, step_at h i si -> step_at h' i si)
      /\ only_rows h' a p cols rows
      /\ (forall r n, In r rows -> r_path r = 47%N :: n -> row_done h' a p cols r n).
  Proof.
    intros h cols rows G K [Nc [Fc [Np Hr]]].
    assert (Fl : flat_rows rows) by (intros r I; exact (proj2 (Hr r I))).
    assert (Nn := flat_nodup rows Fl Np). set (l := map nt rows) in *.
    unfold pstep_from_df, pmods_from_tuples.
    assert (Et := table_tree rows [] Fl Nn). cbn [tree app] in Et. fold l in Et. rewrite Et.
    assert (G1 := good_run M fullmatch expand compiles class_attr
                    [OPmods (map (fun r => (Some (r_path r), Some (r_name r))) rows)] h G).
    assert (K1 := run_exist M fullmatch expand compiles class_attr
                    [OPmods (map (fun r => (Some (r_path r), Some (r_name r))) rows)] h K).
    cbn [run fold_left exec] in G1, K1. unfold pmods_from_tuples in G1, K1. rewrite Et in G1, K1.
    destruct (alloc_pmod (tree l) (h_cells h)) as [lp c] eqn:Ea. cbn [snd] in G1, K1.
    specialize (G1 ltac:(constructor; [intros ? ? ? ?; discriminate|constructor])).
    specialize (K1 ltac:(constructor; [intros ? ? ? ? ?; discriminate|constructor])).
    destruct (alloc_spec (tree l) _ _ _ Ea) as [[cx Ec] [Al Er]].
    assert (Ei : exists_in c lp) by (split; [auto|rewrite Er; now apply wf_tree]).
    assert (Hs1 : h_steps (set_cells h c) = h_steps h) by reflexivity.
    set (h1 := set_cells h c) in *.
    assert (Hc1 : h_cells h1 = c) by reflexivity. clearbody h1.
    assert (G2 := good_run M fullmatch expand compiles class_attr [ONew (Some []) (MPmod lp) None []] h1 G1).
    assert (K2 := run_exist M fullmatch expand compiles class_attr [ONew (Some []) (MPmod lp) None []] h1 K1).
    cbn [run fold_left exec] in G2, K2.
    specialize (G2 ltac:(constructor; [intros ? ? ? ?; discriminate|constructor])).
    assert (X : always ex existing h1 [ONew (Some []) (MPmod lp) None []]).
    { constructor; [|constructor]. intros n p al ts E. injection E as _ <- _ _. now rewrite Hc1. }
    specialize (K2 X). clear X.
    cbn [new_step] in *. unfold step_by_pmod in *. rewrite Hc1 in *.
    destruct (ldescend M fullmatch expand lp [] c) as [c2 r] eqn:El.
    assert (D := ldescend_erase M fullmatch expand lp [] c c2 r El Al). rewrite Er, descend_tree in D.
    assert (exists q, r = Ok (q, None) /\ (l <> [] -> exists q', q = Some q' /\ erase c2 q' = top l)) as [q [ -> Hq]].
    { destruct r as [[[q'|] al]|e].
      - destruct D as [_ D]. injection D as D1 <-. exists (Some q'). split; auto. intros Hl.
        exists q'. split; auto. destruct l; [contradiction|congruence].
      - injection D as D1 <-. exists None. split; auto. intros Hl. destruct l; [contradiction|discriminate].
      - discriminate. }
    cbn [fresh_step alloc_step fst snd] in *.
    unfold fresh_step, alloc_step in *. cbn [fst] in *.
    set (s0 := mkStep [] [] q None CAN_RELOCATE (add_tags [] [])) in *.
    set (h2 := set_steps (set_cells h1 c2) (h_steps (set_cells h1 c2) ++ [s0])) in *.
    assert (Hp : step_at h2 (length (h_steps h)) s0).
    { unfold step_at, h2. cbn [set_steps set_cells h_steps]. rewrite Hs1. rewrite nth_error_app2 by lia.
      now rewrite Nat.sub_diag. }
    replace (length (h_steps (set_cells h1 c2))) with (length (h_steps h)) by (cbn; now rewrite Hs1).
    assert (Lf : leaf_at h2 (length (h_steps h))).
    { intros b x [s [d [ds [H1 [H2 _]]]]]. unfold step_at in H1, Hp. rewrite Hp in H1. injection H1 as <-. discriminate. }
    assert (Q : exists q', rows <> [] -> s_pmod s0 = Some q' /\ erase (h_cells h2) q' = top l).
    { destruct rows as [|r rows]; [exists lp; congruence|].
      destruct Hq as [q' [ -> Eq]]; [discriminate|]. exists q'. auto. }
    destruct Q as [q' Q].
    destruct (set_rows_spec (length (h_steps h)) q' l cols Fc Nc Nn rows [] h2 [] s0)
      as [h' [a' [s' [Es [G' [K' [Hs' [Ht' [Ho' [Hn' Hd']]]]]]]]]]; auto.
    - intros r I. exact (proj1 (Hr r I)).
    - intros r I. unfold l. now apply in_map.
    - split; [intros n x Hx; destruct (Lf _ _ Hx)|discriminate].
    - intros r n [].
    - rewrite Es. exists h', (length (h_steps h)), a'. split; auto. split; auto. split; auto.
      split; [now rewrite (text_at _ _ _ Hs'), Ht'|]. split; auto. split; auto.
      intros i si Hi. apply Ho'.
      + apply step_lt in Hi. lia.
      + unfold step_at, h2. cbn [set_steps set_cells h_steps]. rewrite Hs1. now apply nth_error_app_l.
  Qed.
End Table.
