(** Lemmas for C96 and C97. *)
From Coq Require Import String.
From Verif Require Import PyBase PyBase_Proofs OsPath_Model Utils_Model Utils_Spec Utils_Proofs Vba_Model Vba_Spec.

Lemma last_step : forall f, exists folder, f = folder ++ last (split_on (chr "/") f) [] /\
  (folder = [] \/ exists d, folder = d ++ lit "/") /\ ~ In (chr "/") (last (split_on (chr "/") f) []).
Proof.
  induction f as [|c f (folder & E & H1 & H2)]; [exists []; cbn; auto|].
  cbn [split_on]. destruct (split_on (chr "/") f) as [|p ps] eqn:Es.
  { exfalso. revert Es. clear. destruct f; cbn [split_on]; [discriminate|].
    destruct (_ =? _)%N; [discriminate|]. destruct (split_on (chr "/") f); discriminate. }
  destruct (c =? chr "/")%N eqn:C.
  - apply N.eqb_eq in C. exists (c :: folder).
    change (last ([] :: p :: ps) []) with (last (p :: ps) []).
    split; [cbn [app]; rewrite <- E; reflexivity|]. split; [|exact H2].
    right. destruct H1 as [->|(d & ->)]; [exists []; rewrite C; reflexivity|exists (c :: d); reflexivity].
  - apply N.eqb_neq in C. destruct ps as [|q ps].
    + cbn [last] in *. destruct H1 as [->|(d & ->)].
      * exists []. cbn [app] in *. split; [rewrite E at 1; reflexivity|]. split; [auto|].
        intros [X|X]; [congruence|exact (H2 X)].
      * exfalso. assert (X : In (chr "/") f) by (rewrite E; apply in_or_app; left; apply in_or_app; right; left; reflexivity).
        assert (Y : f = p) by (rewrite <- (join_split (chr "/") f), Es; reflexivity).
        rewrite Y in X. exact (H2 X).
    + change (last ((c :: p) :: q :: ps) []) with (last (p :: q :: ps) []).
      exists (c :: folder). split; [cbn [app]; rewrite <- E; reflexivity|]. split; [|exact H2].
      right. destruct H1 as [->|(d & ->)]; [|exists (c :: d); reflexivity].
      exfalso. cbn [app] in E. apply H2. rewrite <- E. rewrite <- (join_split (chr "/") f), Es.
      cbn [join]. apply in_or_app. right. left. reflexivity.
Qed.

Lemma basename_stem : forall f, stem f (basename f).
Proof.
  intros f. destruct (last_step f) as (folder & E & H1 & H2). unfold basename.
  destruct (splitext (last (split_on (chr "/") f) [])) as [b e] eqn:S. cbn [fst].
  apply splitext_spec in S. exists folder, (last (split_on (chr "/") f) []), e. intuition.
Qed.

Lemma split_last_unique : forall (s : pychar) d1 n1 d2 n2, ~ In s n1 -> ~ In s n2 ->
  (d1 = [] \/ exists d, d1 = d ++ [s]) -> (d2 = [] \/ exists d, d2 = d ++ [s]) ->
  d1 ++ n1 = d2 ++ n2 -> n1 = n2.
Proof.
  assert (K : forall (s : pychar) n1 n2 d1 d2, ~ In s n1 -> ~ In s n2 ->
    (d1 = [] \/ exists d, d1 = s :: d) -> (d2 = [] \/ exists d, d2 = s :: d) ->
    n1 ++ d1 = n2 ++ d2 -> n1 = n2).
  { intros s. induction n1 as [|c n1 IH]; intros n2 d1 d2 H1 H2 F1 F2 E.
    - destruct n2 as [|x n2]; [reflexivity|]. exfalso. cbn [app] in E.
      destruct F1 as [->|(d & ->)]; [discriminate|]. injection E as -> _. apply H2. left. reflexivity.
    - destruct n2 as [|x n2].
      + exfalso. cbn [app] in E. destruct F2 as [->|(d & ->)]; [discriminate|].
        injection E as -> _. apply H1. left. reflexivity.
      + cbn [app] in E. injection E as -> E. f_equal. apply (IH n2 d1 d2); auto.
        * intros I. apply H1. right. exact I.
        * intros I. apply H2. right. exact I. }
  intros s d1 n1 d2 n2 H1 H2 F1 F2 E. apply (f_equal (@rev pychar)) in E.
  rewrite !rev_app_distr in E. rewrite <- (rev_involutive n1), <- (rev_involutive n2). f_equal.
  apply (K s _ _ (rev d1) (rev d2)); try (rewrite <- in_rev; assumption); [| |exact E].
  - destruct F1 as [->|(d & ->)]; [left; reflexivity|right; rewrite rev_app_distr; eexists; reflexivity].
  - destruct F2 as [->|(d & ->)]; [left; reflexivity|right; rewrite rev_app_distr; eexists; reflexivity].
Qed.

Lemma stem_fun : forall f a b, stem f a -> stem f b -> a = b.
Proof.
  intros f a b (d1 & n1 & e1 & E1 & F1 & S1 & X1) (d2 & n2 & e2 & E2 & F2 & S2 & X2).
  assert (n1 = n2) by (apply (split_last_unique (chr "/") d1 n1 d2 n2); auto; congruence).
  subst n2. destruct (extension_fun _ _ _ _ _ X1 X2) as [-> _]. reflexivity.
Qed.
Lemma stem_iff : forall f b, stem f b <-> basename f = b.
Proof.
  intros f b. split; [|intros <-; apply basename_stem].
  intros H. apply (stem_fun f); [apply basename_stem|exact H].
Qed.

(** ** Gathering *)

Definition gathered (files : list pystr) (d : list (pystr * pystr)) : Prop :=
  NoDup (map fst d) /\
  forall n f, In (n, f) d <-> exists pre post, files = pre ++ f :: post /\ stem f n /\ forall g, In g post -> ~ stem g n.

Lemma dset_keys : forall n (f : pystr) d, NoDup (map fst d) ->
  NoDup (map fst (dset str_eqb n f d)) /\
  forall k g, In (k, g) (dset str_eqb n f d) <-> (k = n /\ g = f) \/ (k <> n /\ In (k, g) d).
Proof.
  intros n f. induction d as [|[k0 g0] d IH]; intros Hd; cbn [dset].
  - split; [constructor; [intros []|constructor]|]. intros k g. cbn. intuition congruence.
  - inversion Hd as [|? ? Hk Hr]; subst. destruct (str_eqb n k0) eqn:E.
    + apply str_eqb_eq in E. subst k0. split; [constructor; assumption|].
      intros k g. split.
      * intros [X|X]; [injection X as <- <-; auto|]. right. split.
        -- intros ->. apply Hk. apply (in_map fst) in X. exact X.
        -- right. exact X.
      * intros [(-> & ->)|(Hne & [X|X])]; [left; reflexivity|congruence|right; exact X].
    + assert (Hne : n <> k0) by (intros ->; rewrite str_eqb_refl in E; discriminate).
      destruct (IH Hr) as [H1 H2]. split.
      * cbn [map]. constructor; [|exact H1]. intros I. apply in_map_iff in I.
        destruct I as ([k g] & Ek & I). cbn [fst] in Ek. subst k. apply H2 in I.
        destruct I as [(-> & _)|(_ & I)]; [congruence|]. apply Hk. apply (in_map fst) in I. exact I.
      * intros k g. split.
        -- intros [X|X]; [injection X as <- <-; right; split; [congruence|left; reflexivity]|].
           apply H2 in X. destruct X as [X|(Hk' & X)]; [left; exact X|right; split; [exact Hk'|right; exact X]].
        -- intros [X|(Hk' & [X|X])]; [right; apply H2; left; exact X|left; exact X|].
           right. apply H2. right. auto.
Qed.

Lemma gather_spec : forall files, gathered files (gather_files files).
Proof.
  intros files. unfold gather_files.
  assert (K : forall fs pre d, gathered pre d ->
    gathered (pre ++ fs) (fold_left (fun d f => dset str_eqb (basename f) f d) fs d)).
  { induction fs as [|f fs IH]; intros pre d H; cbn [fold_left]; [rewrite app_nil_r; exact H|].
    replace (pre ++ f :: fs) with ((pre ++ [f]) ++ fs) by (rewrite <- app_assoc; reflexivity).
    apply IH. destruct H as [Hd H]. destruct (dset_keys (basename f) f d Hd) as [H1 H2].
    split; [exact H1|]. intros n g. rewrite H2. split.
    - intros [(-> & ->)|(Hne & I)].
      + exists pre, []. split; [reflexivity|]. split; [apply basename_stem|]. intros x [].
      + apply H in I. destruct I as (p & q & -> & Hs & Hq). exists p, (q ++ [f]).
        split; [rewrite <- app_assoc; reflexivity|]. split; [exact Hs|].
        intros x Ix Sx. apply in_app_or in Ix. destruct Ix as [Ix|[<-|[]]]; [exact (Hq x Ix Sx)|].
        apply Hne. symmetry. apply stem_iff. exact Sx.
    - intros (p & q & E & Hs & Hq).
      destruct q as [|x q] using rev_ind.
      + apply app_inj_tail in E. destruct E as [-> ->]. left. split; [|reflexivity].
        symmetry. apply stem_iff. exact Hs.
      + clear IHq. rewrite app_comm_cons, app_assoc in E. apply app_inj_tail in E. destruct E as [-> <-].
        right. split.
        * intros ->. apply (Hq f); [apply in_or_app; right; left; reflexivity|apply basename_stem].
        * apply H. exists p, q. split; [reflexivity|]. split; [exact Hs|].
          intros x Ix. apply Hq. apply in_or_app. left. exact Ix. }
  apply (K files [] []). split; [constructor|]. intros n f. split; [intros []|].
  intros (p & q & E & _). destruct p; discriminate.
Qed.

(** ** Removing *)

Lemma in_iterator_sound : forall x it, fst (in_iterator x it) = true -> In x it.
Proof.
  intros x. induction it as [|y it IH]; cbn [in_iterator]; [discriminate|].
  destruct (str_eqb y x) eqn:E; [intros _; left; apply str_eqb_eq; exact E|right; auto].
Qed.
Lemma in_iterator_rest : forall x it y, In y (snd (in_iterator x it)) -> In y it.
Proof.
  intros x. induction it as [|z it IH]; intros y; cbn [in_iterator]; [auto|].
  destruct (str_eqb z x); cbn [snd]; [right; assumption|right; auto].
Qed.

Lemma remove_kept : forall comps it c, In c comps ->
  (c_type c <> 1%N \/ (it <> None /\ forall its, it = Some its -> ~ In (lower (c_name c)) its)) ->
  In c (remove_loop it comps).
Proof.
  induction comps as [|c0 comps IH]; intros it c I H; [destruct I|]. cbn [remove_loop].
  destruct (c_type c0 =? 1)%N eqn:T.
  - destruct it as [its|].
    + destruct (in_iterator (lower (c_name c0)) its) as [found its'] eqn:E.
      pose proof (in_iterator_sound (lower (c_name c0)) its) as Hs.
      pose proof (in_iterator_rest (lower (c_name c0)) its) as Hr.
      rewrite E in Hs, Hr. cbn [fst snd] in Hs, Hr.
      assert (Rest : In c comps -> In c (remove_loop (Some its') comps)).
      { intros Ic. apply IH; [exact Ic|]. destruct H as [H|(_ & H)]; [left; exact H|].
        right. split; [discriminate|]. intros its0 X Y. injection X as <-. exact (H its eq_refl (Hr _ Y)). }
      destruct I as [->|I].
      * destruct found; [|left; reflexivity]. exfalso. destruct H as [H|(_ & H)].
        -- apply H. apply N.eqb_eq. exact T.
        -- exact (H its eq_refl (Hs eq_refl)).
      * destruct found; [exact (Rest I)|right; exact (Rest I)].
    + destruct I as [->|I].
      * exfalso. destruct H as [H|(H & _)]; [apply H; apply N.eqb_eq; exact T|congruence].
      * apply IH; [exact I|exact H].
  - destruct I as [->|I]; [left; reflexivity|right; apply IH; assumption].
Qed.
Lemma remove_sub : forall comps it c, In c (remove_loop it comps) -> In c comps.
Proof.
  induction comps as [|c0 comps IH]; intros it c I; cbn [remove_loop] in I; [exact I|].
  destruct (c_type c0 =? 1)%N.
  - destruct it as [its|]; [|right; exact (IH _ _ I)].
    destruct (in_iterator (lower (c_name c0)) its) as [[|] its'].
    + right. exact (IH _ _ I).
    + destruct I as [<-|I]; [left; reflexivity|right; exact (IH _ _ I)].
  - destruct I as [<-|I]; [left; reflexivity|right; exact (IH _ _ I)].
Qed.
Lemma remove_none : forall comps, remove_loop (Some []) comps = comps.
Proof.
  induction comps as [|c comps IH]; cbn [remove_loop in_iterator]; [reflexivity|].
  rewrite IH. destruct (c_type c =? 1)%N; reflexivity.
Qed.
Lemma remove_first : forall firsts rest, (forall c, In c firsts -> c_type c = 1%N) ->
  remove_loop (Some (map (fun c => lower (c_name c)) firsts)) (firsts ++ rest) = rest.
Proof.
  induction firsts as [|c firsts IH]; intros rest H; [apply remove_none|].
  cbn [map app remove_loop in_iterator]. rewrite (H c (or_introl eq_refl)). cbn [N.eqb Pos.eqb].
  rewrite str_eqb_refl. apply IH. intros x I. apply H. right. exact I.
Qed.

(** ** Importing *)

Lemma named_iff : forall n c, named n c = true <-> has_name n c.
Proof. intros n c. unfold named, has_name, same_nocase. apply str_eqb_eq. Qed.

Section Import.
  Variable load : pystr -> option comp.
  Variable free_name : list comp -> pystr -> pystr.
  Variable cwd : pystr.

  Definition fresh_of (n : pystr) (f : pystr) (c : comp) : Prop :=
    exists c0, load (osp_join cwd f) = Some c0 /\ c = Comp (c_type c0) n (c_code c0).

  Lemma remove_named_filter : forall n comps,
    (forall c, In c comps -> has_name n c -> c_type c <> 100%N) ->
    remove_named n comps = filter (fun c => negb (named n c)) comps.
  Proof.
    intros n comps H. unfold remove_named. destruct (find (named n) comps) as [c|] eqn:F.
    - apply find_some in F. destruct F as [I E]. apply named_iff in E.
      destruct (c_type c =? 100)%N eqn:T; [|reflexivity]. exfalso. apply (H c I E). apply N.eqb_eq. exact T.
    - clear H. induction comps as [|c comps IH]; [reflexivity|]. cbn [find filter] in *.
      destruct (named n c); [discriminate|]. cbn [negb]. rewrite <- IH by exact F. reflexivity.
  Qed.

  Lemma import_done : forall files comps,
    (forall n f, In (n, f) files -> load (osp_join cwd f) <> None) ->
    (forall n f c, In (n, f) files -> In c comps -> has_name n c -> c_type c <> 100%N) ->
    NoDup (map (fun x => lower (fst x)) files) ->
    exists news, Forall2 (fun x c => fresh_of (fst x) (snd x) c) files news /\
    import_vba_files load free_name cwd files comps =
    (filter (fun c => negb (existsb (fun x => named (fst x) c) files)) comps ++ news, true).
  Proof.
    induction files as [|[n f] files IH]; intros comps Hl Ht Hd.
    - exists []. split; [constructor|]. cbn [import_vba_files existsb negb]. f_equal.
      rewrite app_nil_r. clear. induction comps as [|c comps IH]; [reflexivity|]. cbn [filter]. congruence.
    - cbn [map fst] in Hd. inversion Hd as [|? ? Hn Hd']; subst. cbn [import_vba_files].
      rewrite remove_named_filter by (intros c Ic Hc; exact (Ht n f c (or_introl eq_refl) Ic Hc)).
      destruct (load (osp_join cwd f)) as [new|] eqn:L;
        [|exfalso; exact (Hl n f (or_introl eq_refl) L)].
      replace (existsb (named n) (filter (fun c => negb (named n c)) comps)) with false.
      2:{ clear. induction comps as [|c comps IH]; [reflexivity|]. cbn [filter].
          destruct (named n c) eqn:E; cbn [negb]; [exact IH|]. cbn [existsb]. rewrite E. exact IH. }
      set (c1 := Comp (c_type new) n (c_code new)).
      assert (Off : forall x, In x files -> named (fst x) c1 = false).
      { intros x Ix. destruct (named (fst x) c1) eqn:E; [|reflexivity]. exfalso. apply Hn.
        apply in_map_iff. exists x. split; [|exact Ix]. apply named_iff in E. symmetry. exact E. }
      destruct (IH (filter (fun c => negb (named n c)) comps ++ [c1])) as (news & Hf & E).
      { intros n' f' I. apply (Hl n' f'). right. exact I. }
      { intros n' f' c I Ic Hc. apply in_app_or in Ic. destruct Ic as [Ic|[<-|[]]].
        - apply filter_In in Ic. apply (Ht n' f' c); [right; exact I|apply Ic|exact Hc].
        - exfalso. apply named_iff in Hc. change n' with (fst (n', f')) in Hc. rewrite (Off _ I) in Hc. discriminate. }
      { exact Hd'. }
      exists (c1 :: news). split.
      + constructor; [|exact Hf]. exists new. split; [exact L|reflexivity].
      + rewrite E. f_equal. rewrite filter_app. cbn [filter].
        replace (existsb (fun x => named (fst x) c1) files) with false.
        2:{ symmetry. clear -Off. induction files as [|x files IH]; [reflexivity|]. cbn [existsb].
            rewrite (Off x (or_introl eq_refl)). apply IH. intros y Iy. apply Off. right. exact Iy. }
        cbn [negb]. rewrite <- app_assoc. cbn [app]. f_equal.
        clear. induction comps as [|c comps IH]; [reflexivity|]. cbn [filter existsb fst].
        destruct (named n c); cbn [negb orb]; [exact IH|]. cbn [filter].
        destruct (existsb _ files); cbn [negb]; [exact IH|]. f_equal. exact IH.
  Qed.
End Import.
