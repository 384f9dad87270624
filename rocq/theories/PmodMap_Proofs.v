From Coq Require Import String.
From Verif Require Import PyBase PyBase_Proofs Json JsonPointer_Model JsonPointer_Spec
  JsonPointer_Proofs Paths_Model Paths_Spec Paths_Proofs Pmod_Model Pmod_Spec Pmod_Proofs.

(** ** Texts and steps *)

Lemma Forall2_unescape : forall raws ss, Forall2 unescapes raws ss <-> map unescape_part raws = ss.
Proof.
  induction raws as [|r raws IH]; intros ss; split; intro H.
  - inversion H; reflexivity.
  - subst; constructor.
  - inversion H as [|? t ? ts H1 H2]; subst. apply unescape_spec in H1. apply IH in H2. simpl. congruence.
  - simpl in H. subst. constructor; [apply unescape_spec; reflexivity|]. apply IH. reflexivity.
Qed.

Lemma steps_of_iter : forall s ss, steps_of s ss <-> iter_parts_relaxed s = ss.
Proof.
  intros s ss. unfold steps_of, iter_parts_relaxed. split.
  - intros (raws & Hne & Hs & -> & Hu). unfold slash. rewrite split_join by assumption.
    apply Forall2_unescape. exact Hu.
  - intro H. exists (split_on slash s). split; [apply split_on_not_nil|].
    split; [intros r Hr; apply (split_on_no_sep slash s); exact Hr|].
    split; [symmetry; apply join_split|]. apply Forall2_unescape. exact H.
Qed.

Lemma ends_with_slash : forall s, ends_with (lit "/") s = true <-> exists x, s = x ++ [47%N].
Proof.
  intro s. unfold ends_with. destruct s as [|c s _] using rev_ind.
  - simpl. split; [discriminate|]. intros (x & E). destruct x; discriminate.
  - rewrite app_length. cbn [length lit map list_ascii_of_string].
    replace (1 <=? length s + 1)%nat with true by (symmetry; apply Nat.leb_le; lia).
    replace (length s + 1 - 1)%nat with (length s) by lia.
    rewrite skipn_app, skipn_all, Nat.sub_diag. cbn [skipn app].
    rewrite andb_true_l. rewrite str_eqb_eq. split.
    + intro E. exists s. f_equal. symmetry. exact E.
    + intros (x & E). apply app_inj_tail in E. destruct E as [_ ->]. reflexivity.
Qed.

Lemma chop_cases : forall s,
  (exists x, x <> [] /\ s = x ++ [47%N] /\ chop s = x)
  \/ ((forall x, x <> [] -> s <> x ++ [47%N]) /\ chop s = s).
Proof.
  intro s. unfold chop.
  destruct (ends_with (lit "/") s) eqn:E.
  - apply ends_with_slash in E. destruct E as (x & ->). destruct x as [|c x].
    + right. split; [|reflexivity]. intros y Hy E. destruct y as [|d y]; [congruence|].
      apply (f_equal (@length _)) in E. rewrite !app_length in E. simpl in E. lia.
    + left. exists (c :: x). split; [discriminate|]. split; [reflexivity|].
      replace (1 <? length ((c :: x) ++ [47%N]))%nat with true
        by (symmetry; apply Nat.ltb_lt; rewrite app_length; simpl; lia).
      cbn [andb]. apply removelast_last.
  - right. rewrite andb_false_r. split; [|reflexivity]. intros x _ ->.
    assert (F : ends_with (lit "/") (x ++ [47%N]) = true) by (apply ends_with_slash; exists x; reflexivity).
    congruence.
Qed.

Lemma written_steps_iter : forall s ss, written_steps s ss <-> iter_parts_relaxed (chop s) = ss.
Proof.
  intros s ss. split.
  - intro H. destruct H as [s ss Hne Hs|s ss Hn Hs].
    + destruct (chop_cases (s ++ [47%N])) as [(x & _ & E & ->)|[Hno _]].
      * apply app_inj_tail in E. destruct E as [<- _]. apply steps_of_iter. exact Hs.
      * exfalso. apply (Hno s Hne). reflexivity.
    + destruct (chop_cases s) as [(x & Hx & E & _)|[_ ->]].
      * exfalso. apply (Hn x Hx E).
      * apply steps_of_iter. exact Hs.
  - intro H. destruct (chop_cases s) as [(x & Hx & -> & E)|[Hno E]]; rewrite E in H;
      apply steps_of_iter in H; constructor; assumption.
Qed.

Lemma starts_with_dot : forall a, starts_with (lit ".") a = true <-> exists a', a = 46%N :: a'.
Proof.
  intros [|c a]; unfold starts_with; rewrite str_eqb_eq; cbn [lit length firstn].
  - split; [discriminate|]. intros (a' & E). discriminate.
  - change (map Ascii.N_of_ascii (list_ascii_of_string ".")) with [46%N]. split.
    + intro E. inversion E; subst. exists a. reflexivity.
    + intros (a' & E). inversion E; subst. reflexivity.
Qed.

Lemma replaced_new_steps : forall a step ss, replaced a step ss <-> new_steps a step = ss.
Proof.
  intros a step ss. split.
  - intro H. destruct H as [step ss H|a step ss Hd H|a a' step ss -> H]; cbn [new_steps];
      apply written_steps_iter in H.
    + exact H.
    + destruct (starts_with (lit ".") a) eqn:E; [|exact H].
      apply starts_with_dot in E. destruct E as (a' & E). exfalso. apply (Hd a' E).
    + replace (starts_with (lit ".") (46%N :: a')) with true
        by (symmetry; apply starts_with_dot; eauto). cbn [app]. congruence.
  - intros <-. destruct a as [a|]; cbn [new_steps].
    + destruct (starts_with (lit ".") a) eqn:E.
      * apply starts_with_dot in E. destruct E as (a' & E). cbn [app].
        apply (Rp_dotted a a'); [exact E|]. apply written_steps_iter. reflexivity.
      * apply Rp_alias; [|apply written_steps_iter; reflexivity].
        intros a' ->. assert (F : starts_with (lit ".") (46%N :: a') = true) by (apply starts_with_dot; eauto).
        congruence.
    + apply Rp_kept. apply written_steps_iter. reflexivity.
Qed.

Section Regex.
  Variable M : Type.
  Variable fullmatch : pystr -> pystr -> option M.
  Variable expand : M -> pystr -> res pystr.

  Notation match_regxs := (match_regxs M fullmatch).
  Notation descend := (descend M fullmatch expand).
  Notation alias_ := (alias_ M fullmatch expand).
  Notation first_alias := (first_alias M expand).
  Notation map_path := (map_path M fullmatch expand).
  Notation map_steps := (map_steps M fullmatch expand).

  (** ** The alias *)

  Lemma first_alias_app : forall a b,
    (forall p m, In (p, m) a -> p_alias p = None) -> first_alias (a ++ b) = first_alias b.
  Proof.
    induction a as [|[p m] a IH]; intros b H; [reflexivity|]. cbn.
    rewrite (H p m) by (left; reflexivity). apply IH. intros p' m' Hin. apply (H p' m'). right; exact Hin.
  Qed.

  Lemma in_match_regxs : forall l step q m,
    In (q, m) (flat_map (fun rp : pystr * pmod => match fullmatch (fst rp) step with
                        | Some m => [(snd rp, m)] | None => [] end) l) <->
    exists r, In (r, q) l /\ fullmatch r step = Some m.
  Proof.
    intros l step q m. rewrite in_flat_map. split.
    - intros ([r rp] & Hin & H). cbn in H. destruct (fullmatch r step) as [m'|] eqn:E; [|destruct H].
      destruct H as [H|[]]. inversion H; subst. exists r. auto.
    - intros (r & Hin & E). exists (r, q). split; [exact Hin|]. cbn. rewrite E. left; reflexivity.
  Qed.

  Lemma last_aliased : forall l,
    (forall q (m : M), In (q, m) l -> p_alias q = None)
    \/ exists l1 q m t l2, l = l1 ++ (q, m) :: l2 /\ p_alias q = Some t
       /\ forall q' m', In (q', m') l2 -> p_alias q' = None.
  Proof.
    induction l as [|[q m] l IH]; [left; intros ? ? []|].
    destruct IH as [H|(l1 & q1 & m1 & t & l2 & -> & Ha & Hl)].
    - destruct (p_alias q) as [t|] eqn:E.
      + right. exists [], q, m, t, l. auto.
      + left. intros q' m' [Hin|Hin]; [inversion Hin; subst; exact E|exact (H q' m' Hin)].
    - right. exists ((q, m) :: l1), q1, m1, t, l2. auto.
  Qed.

  Lemma match_regxs_split : forall l step l1 q m l2,
    flat_map (fun rp : pystr * pmod => match fullmatch (fst rp) step with
                        | Some m => [(snd rp, m)] | None => [] end) l = l1 ++ (q, m) :: l2 ->
    exists k1 r k2, l = k1 ++ (r, q) :: k2 /\ fullmatch r step = Some m
      /\ flat_map (fun rp : pystr * pmod => match fullmatch (fst rp) step with
                        | Some m => [(snd rp, m)] | None => [] end) k2 = l2.
  Proof.
    induction l as [|[r rp] l IH]; intros step l1 q m l2 E; cbn in E; [destruct l1; discriminate|].
    destruct (fullmatch r step) as [m'|] eqn:Em; cbn in E.
    - destruct l1 as [|x l1]; inversion E; subst.
      + exists [], r, l. auto.
      + destruct (IH _ _ _ _ _ H1) as (k1 & r' & k2 & -> & Hm & <-).
        exists ((r, rp) :: k1), r', k2. auto.
    - destruct (IH _ _ _ _ _ E) as (k1 & r' & k2 & -> & Hm & <-).
      exists ((r, rp) :: k1), r', k2. auto.
  Qed.

  Lemma alias_child : forall p step c a, wf p -> child p step c -> p_alias c = Some a ->
    alias_ p step = Ok (Some a).
  Proof.
    intros p step c a Hw Hc Ha. apply child_get in Hc; [|exact Hw]. unfold Pmod_Model.alias_.
    rewrite Hc. destruct c as [x s r]. cbn in Ha. subst. reflexivity.
  Qed.

  Lemma alias_no_child : forall p step, wf p -> (forall c, child p step c -> p_alias c = None) ->
    alias_ p step = first_alias (rev (match_regxs p step)).
  Proof.
    intros p step Hw Hc. unfold Pmod_Model.alias_.
    destruct (pget step (p_steps p)) as [[[a|] s r]|] eqn:E; try reflexivity.
    exfalso. apply child_get in E; [|exact Hw]. apply Hc in E. discriminate.
  Qed.

  Lemma aliased_alias : forall p step x, wf p -> aliased M fullmatch expand p step x -> alias_ p step = x.
  Proof.
    intros p step x Hw H. destruct H as [c a Hc Ha|l1 r rp l2 m t Hc El Em Ht Hl|Hc Hr].
    - eapply alias_child; eassumption.
    - rewrite alias_no_child by assumption. unfold Pmod_Model.match_regxs. rewrite El.
      rewrite flat_map_app, rev_app_distr. cbn [flat_map fst snd]. rewrite Em. cbn [app rev].
      rewrite <- app_assoc. rewrite first_alias_app.
      + cbn. rewrite Ht. destruct (expand m t); reflexivity.
      + intros q m' Hin. apply in_rev in Hin. apply in_match_regxs in Hin.
        destruct Hin as (r' & Hin & E). apply (Hl r' q Hin). exists m'. exact E.
    - rewrite alias_no_child by assumption.
      rewrite <- (app_nil_r (rev _)). rewrite first_alias_app; [reflexivity|].
      intros q m Hin. apply in_rev in Hin. apply in_match_regxs in Hin.
      destruct Hin as (r' & Hin & E). apply (Hr r' q Hin). exists m. exact E.
  Qed.

  Lemma alias_aliased : forall p step, wf p -> aliased M fullmatch expand p step (alias_ p step).
  Proof.
    intros p step Hw.
    destruct (pget step (p_steps p)) as [[[a|] s r]|] eqn:Ec.
    - assert (Hc : child p step (Pmod (Some a) s r)) by (apply child_get; assumption).
      rewrite (alias_child p step _ a Hw Hc eq_refl). eapply A_child; [exact Hc|reflexivity].
    - assert (Hn : forall c, child p step c -> p_alias c = None).
      { intros c Hc. apply child_get in Hc; [|exact Hw]. rewrite Hc in Ec. inversion Ec; subst. reflexivity. }
      destruct (last_aliased (match_regxs p step)) as [H|(l1 & q & m & t & l2 & E & Ht & Hl)].
      + assert (A : aliased M fullmatch expand p step (Ok None)).
        { apply A_none; [exact Hn|]. intros r0 rp Hr (m & Em). apply (H rp m).
          apply in_match_regxs. exists r0. auto. }
        rewrite (aliased_alias _ _ _ Hw A). exact A.
      + apply match_regxs_split in E. destruct E as (k1 & r0 & k2 & E & Em & E2).
        assert (A : aliased M fullmatch expand p step (match expand m t with Ok x => Ok (Some x) | Raise e => Raise e end)).
        { eapply A_regex; try eassumption. intros r' rp' Hin (m' & Em'). apply (Hl rp' m').
          rewrite <- E2. apply in_match_regxs. exists r'. auto. }
        rewrite (aliased_alias _ _ _ Hw A). exact A.
    - assert (Hn : forall c, child p step c -> p_alias c = None).
      { intros c Hc. apply child_get in Hc; [|exact Hw]. rewrite Hc in Ec. discriminate. }
      destruct (last_aliased (match_regxs p step)) as [H|(l1 & q & m & t & l2 & E & Ht & Hl)].
      + assert (A : aliased M fullmatch expand p step (Ok None)).
        { apply A_none; [exact Hn|]. intros r0 rp Hr (m & Em). apply (H rp m).
          apply in_match_regxs. exists r0. auto. }
        rewrite (aliased_alias _ _ _ Hw A). exact A.
      + apply match_regxs_split in E. destruct E as (k1 & r0 & k2 & E & Em & E2).
        assert (A : aliased M fullmatch expand p step (match expand m t with Ok x => Ok (Some x) | Raise e => Raise e end)).
        { eapply A_regex; try eassumption. intros r' rp' Hin (m' & Em'). apply (Hl rp' m').
          rewrite <- E2. apply in_match_regxs. exists r'. auto. }
        rewrite (aliased_alias _ _ _ Hw A). exact A.
  Qed.

  Lemma aliased_iff : forall p step x, wf p ->
    (alias_ p step = x <-> aliased M fullmatch expand p step x).
  Proof.
    intros p step x Hw. split; [intros <-; apply alias_aliased; exact Hw|apply aliased_alias; exact Hw].
  Qed.

  (** ** Descending *)

  Definition below_of (p : pmod) (step : pystr) : option pmod :=
    match map fst (match_regxs p step)
          ++ match pget step (p_steps p) with Some c => [c] | None => [] end with
    | [] => None
    | q :: qs => Some (fold_left merge qs q)
    end.

  Lemma descend_split : forall p step,
    descend p step = (do a <- alias_ p step; Ok (below_of p step, a)).
  Proof.
    intros p step. unfold Pmod_Model.descend, Pmod_Model.alias_, below_of.
    destruct (pget step (p_steps p)) as [[[a|] s r]|] eqn:Ec; cbn [rbind].
    - destruct (map fst (match_regxs p step)); reflexivity.
    - destruct (first_alias (rev (match_regxs p step))) as [x|e] eqn:E; cbn [rbind]; [|reflexivity].
      destruct (map fst (match_regxs p step)) eqn:Em; reflexivity.
    - destruct (match_regxs p step) as [|[q m] qs] eqn:Em; [reflexivity|].
      destruct (first_alias (rev ((q, m) :: qs))) as [x|e]; reflexivity.
  Qed.

  Lemma match_regxs_matching : forall l step,
    matching M fullmatch step l
      (map fst (flat_map (fun rp : pystr * pmod => match fullmatch (fst rp) step with
                        | Some m => [(snd rp, m)] | None => [] end) l)).
  Proof.
    induction l as [|[r rp] l IH]; intro step; [constructor|]. cbn.
    destruct (fullmatch r step) as [m|] eqn:E; cbn.
    - apply Mt_yes; [exists m; exact E|apply IH].
    - apply Mt_no; [intros (m & Em); congruence|apply IH].
  Qed.

  Lemma matching_In : forall step l ps, matching M fullmatch step l ps ->
    forall q, In q ps -> exists r, In (r, q) l /\ matches M fullmatch r step.
  Proof.
    intros step l ps H. induction H as [|r rp l ps Hm H IH|r rp l ps Hm H IH]; intros q Hq; [destruct Hq| |].
    - destruct Hq as [<-|Hq]; [exists r; split; [left; reflexivity|exact Hm]|].
      destruct (IH q Hq) as (r' & Hin & Hr). exists r'. split; [right; exact Hin|exact Hr].
    - destruct (IH q Hq) as (r' & Hin & Hr). exists r'. split; [right; exact Hin|exact Hr].
  Qed.

  Lemma matching_nil : forall step l, matching M fullmatch step l [] ->
    forall r rp, In (r, rp) l -> ~ matches M fullmatch r step.
  Proof.
    intros step l H. remember (@nil pmod) as ps eqn:E.
    induction H as [|r rp l ps Hm H IH|r rp l ps Hm H IH]; intros r' rp' Hin; [destruct Hin|discriminate|].
    destruct Hin as [Hin|Hin]; [inversion Hin; subst; exact Hm|apply (IH E r' rp' Hin)].
  Qed.

  Lemma fold_merge_overridden : forall qs q, wf q -> (forall x, In x qs -> wf x) ->
    overridden q qs (fold_left merge qs q) /\ wf (fold_left merge qs q).
  Proof.
    induction qs as [|x qs IH]; intros q Hq Hqs; cbn [fold_left]; [split; [constructor|exact Hq]|].
    assert (Hx : wf x) by (apply Hqs; left; reflexivity).
    destruct (IH (merge q x)) as [H1 H2]; [apply wf_merge; assumption|intros; apply Hqs; right; assumption|].
    split; [|exact H2]. econstructor; [apply merge_overrides; assumption|exact H1].
  Qed.

  Lemma below_of_below : forall p step, wf p ->
    below M fullmatch p step (below_of p step) /\ (forall q, below_of p step = Some q -> wf q).
  Proof.
    intros p step Hw. unfold below_of.
    pose proof (match_regxs_matching (p_regxs p) step) as Hm. fold (match_regxs p step) in Hm.
    set (ps := map fst (match_regxs p step)) in *.
    set (cs := match pget step (p_steps p) with Some c => [c] | None => [] end).
    assert (Hcs : (exists c, child p step c /\ cs = [c]) \/ ((forall c, ~ child p step c) /\ cs = [])).
    { unfold cs. destruct (pget step (p_steps p)) as [c|] eqn:E.
      - left. exists c. split; [apply child_get; assumption|reflexivity].
      - right. split; [|reflexivity]. intros c Hc. apply child_get in Hc; [|exact Hw]. congruence. }
    assert (Hall : forall x, In x (ps ++ cs) -> wf x).
    { intros x Hx. apply wf_inv in Hw. destruct Hw as (_ & _ & H3 & H4). apply in_app_or in Hx.
      destruct Hx as [Hx|Hx].
      - destruct (matching_In _ _ _ Hm x Hx) as (r & Hin & _). apply (H4 r x Hin).
      - destruct Hcs as [(c & Hc & E)|[_ E]]; rewrite E in Hx; [|destruct Hx].
        destruct Hx as [<-|[]]. apply (H3 step c Hc). }
    destruct (ps ++ cs) as [|q qs] eqn:E.
    - split; [|discriminate]. apply app_eq_nil in E. destruct E as [E1 E2]. apply Be_none.
      intros [(c & Hc)|(r & rp & Hr & Hmm)].
      + destruct Hcs as [(c' & _ & E)|[Hno _]]; [congruence|]. apply (Hno c Hc).
      + rewrite E1 in Hm. apply (matching_nil _ _ Hm r rp Hr Hmm).
    - destruct (fold_merge_overridden qs q) as [H1 H2];
        [apply Hall; left; reflexivity|intros; apply Hall; right; assumption|].
      split; [|intros q' E'; inversion E'; subst; exact H2].
      eapply Be_some; [exact Hm|exact Hcs|exact E|exact H1].
  Qed.

  Lemma below_of_hits : forall p step, wf p -> (below_of p step <> None <-> hits M fullmatch p step).
  Proof.
    intros p step Hw. destruct (below_of_below p step Hw) as [H _]. inversion H as [Hn E|ps cs q qs m Hm Hc Ha Ho E].
    - split; [congruence|]. intro; contradiction.
    - split; [intros _|discriminate].
      destruct ps as [|q' ps].
      + destruct Hc as [(c & Hc & _)|[_ ->]]; [left; exists c; exact Hc|discriminate].
      + right. destruct (matching_In _ _ _ Hm q') as (r & Hin & Hr); [left; reflexivity|].
        exists r, q'. auto.
  Qed.

  Lemma descend_alias : forall p step, wf p ->
    descend p step = match alias_ p step with
                     | Ok a => Ok (below_of p step, a)
                     | Raise e => Raise e
                     end.
  Proof. intros. rewrite descend_split. destruct (alias_ p step); reflexivity. Qed.

  Lemma no_hits_no_alias : forall p step, wf p -> below_of p step = None -> alias_ p step = Ok None.
  Proof.
    intros p step Hw Hb. apply aliased_iff; [exact Hw|].
    assert (Hn : ~ hits M fullmatch p step) by (rewrite <- below_of_hits by exact Hw; congruence).
    apply A_none.
    - intros c Hc. exfalso. apply Hn. left. exists c. exact Hc.
    - intros r rp Hr Hm. exfalso. apply Hn. right. exists r, rp. auto.
  Qed.

  (** ** Mapping paths *)

  Definition owf (pm : option pmod) : Prop := forall p, pm = Some p -> wf p.

  Lemma map_steps_mapped : forall steps pm news, owf pm -> map_steps pm steps = Ok news ->
    mapped M fullmatch expand pm steps news.
  Proof.
    induction steps as [|step steps IH]; intros pm news Hw H.
    - cbn in H. inversion H; subst. constructor.
    - destruct pm as [p|].
      + assert (Hp : wf p) by (apply Hw; reflexivity).
        destruct (below_of_below p step Hp) as [Hb Hbw].
        destruct steps as [|step2 steps].
        * cbn in H. destruct (alias_ p step) as [a|e] eqn:Ea; cbn in H; [|discriminate].
          inversion H; subst. rewrite <- (app_nil_r (new_steps a step)).
          eapply Ma_some; [apply aliased_iff; eassumption|exact Hb|apply replaced_new_steps; reflexivity|constructor].
        * change (map_steps (Some p) (step :: step2 :: steps)) with
            (do (pm', a) <- descend p step; do rest <- map_steps pm' (step2 :: steps);
             Ok (new_steps a step ++ rest)) in H.
          rewrite descend_alias in H by exact Hp.
          destruct (alias_ p step) as [a|e] eqn:Ea; cbn [rbind] in H; [|discriminate].
          destruct (map_steps (below_of p step) (step2 :: steps)) as [rest|e] eqn:Er; cbn [rbind] in H; [|discriminate].
          inversion H; subst.
          eapply Ma_some; [apply aliased_iff; eassumption|exact Hb|apply replaced_new_steps; reflexivity|].
          apply IH; [intros q Eq; apply Hbw; exact Eq|exact Er].
      + destruct steps as [|step2 steps].
        * cbn in H. inversion H; subst. rewrite <- (app_nil_r (iter_parts_relaxed _)).
          eapply Ma_none; [apply replaced_new_steps; reflexivity|constructor].
        * change (map_steps None (step :: step2 :: steps)) with
            (do rest <- map_steps None (step2 :: steps); Ok (new_steps None step ++ rest)) in H.
          destruct (map_steps None (step2 :: steps)) as [rest|e] eqn:Er; cbn [rbind] in H; [|discriminate].
          inversion H; subst.
          eapply Ma_none; [apply replaced_new_steps; reflexivity|].
          apply IH; [discriminate|exact Er].
  Qed.

  Lemma first_alias_raise : forall l e, first_alias l = Raise e -> exists m t, expand m t = Raise e.
  Proof.
    induction l as [|[p m] l IH]; intros e H; cbn in H; [discriminate|].
    destruct (p_alias p) as [t|]; [|apply IH; exact H].
    destruct (expand m t) eqn:E; cbn in H; [discriminate|]. inversion H; subst. exists m, t. exact E.
  Qed.

  Lemma alias_raise : forall p step e, alias_ p step = Raise e -> exists m t, expand m t = Raise e.
  Proof.
    intros p step e H. unfold Pmod_Model.alias_ in H.
    destruct (pget step (p_steps p)) as [[[a|] s r]|]; try discriminate; eapply first_alias_raise; exact H.
  Qed.

  Lemma map_steps_raise : forall steps pm e, map_steps pm steps = Raise e ->
    exists m t, expand m t = Raise e.
  Proof.
    induction steps as [|step steps IH]; intros pm e H; [discriminate|].
    destruct steps as [|step2 steps].
    - cbn in H. destruct pm as [p|]; [|discriminate].
      destruct (alias_ p step) as [a|e'] eqn:E; cbn in H; inversion H; subst.
      eapply alias_raise; exact E.
    - change (map_steps pm (step :: step2 :: steps)) with
        (do (pm', a) <- match pm with Some p => descend p step | None => Ok (None, None) end;
         do rest <- map_steps pm' (step2 :: steps); Ok (new_steps a step ++ rest)) in H.
      destruct (match pm with Some p => descend p step | None => Ok (None, None) end) as [[pm' a]|e'] eqn:E;
        cbn [rbind] in H.
      + destruct (map_steps pm' (step2 :: steps)) as [rest|e'] eqn:Er; cbn [rbind] in H; inversion H; subst.
        apply (IH _ _ Er).
      + inversion H; subst. destruct pm as [p|]; [|discriminate]. rewrite descend_split in E.
        destruct (alias_ p step) as [a|e'] eqn:Ea; cbn in E; inversion E; subst. eapply alias_raise; exact Ea.
  Qed.

  Lemma map_path_mapped : forall p path r, wf p -> map_path p path = Ok r ->
    exists steps pre news,
      written_steps path steps
      /\ (match p_alias p with Some a => steps_of a pre | None => pre = [] end)
      /\ mapped M fullmatch expand (Some p) steps news
      /\ r = join_paths (pre ++ news).
  Proof.
    intros p path r Hw H. unfold Pmod_Model.map_path in H.
    destruct (map_steps (Some p) (iter_parts_relaxed (chop path))) as [more|e] eqn:E; cbn [rbind] in H;
      [|discriminate]. inversion H; subst.
    exists (iter_parts_relaxed (chop path)).
    exists (match p_alias p with None => [] | Some a => iter_parts_relaxed a end), more.
    split; [apply written_steps_iter; reflexivity|]. split.
    - destruct (p_alias p); [apply steps_of_iter|]; reflexivity.
    - split; [|reflexivity]. apply map_steps_mapped; [|exact E]. intros q Eq. inversion Eq; subst. exact Hw.
  Qed.

  Lemma map_path_raise : forall p path e, map_path p path = Raise e -> exists m t, expand m t = Raise e.
  Proof.
    intros p path e H. unfold Pmod_Model.map_path in H.
    destruct (map_steps (Some p) (iter_parts_relaxed (chop path))) as [more|e'] eqn:E; cbn [rbind] in H;
      inversion H; subst. eapply map_steps_raise; exact E.
  Qed.

  (** ** Nothing applies *)

  Notation unmapped := (unmapped M fullmatch expand).

  Lemma map_steps_unmapped : forall steps pm, owf pm -> unmapped pm steps ->
    map_steps pm steps = Ok (flat_map (new_steps None) steps).
  Proof.
    induction steps as [|step steps IH]; intros pm Hw Hu; [reflexivity|].
    destruct steps as [|step2 steps].
    - cbn. rewrite app_nil_r. destruct pm as [p|]; [|reflexivity].
      inversion Hu as [| |? ? ? Ha]; subst.
      rewrite (proj2 (aliased_iff p step (Ok None) (Hw p eq_refl)) Ha). reflexivity.
    - change (map_steps pm (step :: step2 :: steps)) with
        (do (pm', a) <- match pm with Some p => descend p step | None => Ok (None, None) end;
         do rest <- map_steps pm' (step2 :: steps); Ok (new_steps a step ++ rest)).
      destruct pm as [p|].
      + inversion Hu as [| |? ? ? Ha Hr]; subst. rewrite descend_split.
        rewrite (proj2 (aliased_iff p step (Ok None) (Hw p eq_refl)) Ha). cbn [rbind].
        rewrite IH; [reflexivity| |apply Hr; apply below_of_below; apply Hw; reflexivity]. intros q Eq.
        apply (proj2 (below_of_below p step (Hw p eq_refl))). exact Eq.
      + cbn [rbind]. rewrite IH; [reflexivity|discriminate|constructor].
  Qed.

  Lemma plain_new_steps : forall n, ~ In 47%N n -> unescapes n n -> new_steps None n = [n].
  Proof.
    intros n Hs Hu. apply replaced_new_steps. apply Rp_kept. apply Ws_other.
    - intros x _ ->. apply Hs. apply in_or_app. right; left; reflexivity.
    - exists [n]. split; [discriminate|]. split; [intros r [<-|[]]; exact Hs|].
      split; [reflexivity|]. constructor; [exact Hu|constructor].
  Qed.

  Lemma map_path_identity : forall p names,
    wf p -> p_alias p = None -> names <> [] -> Forall plain names ->
    (forall n, In n names -> ~ In 47%N n /\ unescapes n n) ->
    unmapped (Some p) ([] :: names) ->
    map_path p (join [47%N] ([] :: names)) = Ok (join [47%N] ([] :: names)).
  Proof.
    intros p names Hw Ha Hne Hpl Hn Hu. unfold Pmod_Model.map_path. rewrite Ha.
    assert (Hall : forall n, In n ([] :: names) -> ~ In 47%N n).
    { intros n [<-|H]; [intros []|apply Hn; exact H]. }
    assert (Hch : chop (join [47%N] ([] :: names)) = join [47%N] ([] :: names)).
    { destruct (chop_cases (join [47%N] ([] :: names))) as [(x & Hx & E & _)|[_ E]]; [|exact E].
      exfalso. apply (f_equal (split_on 47%N)) in E.
      rewrite split_join in E by (discriminate || exact Hall).
      assert (Es : split_on 47%N (x ++ [47%N]) = split_on 47%N x ++ [[]]).
      { clear. induction x as [|c x IH]; [reflexivity|]. cbn [app split_on].
        destruct (c =? 47)%N; rewrite IH; [reflexivity|].
        destruct (split_on 47%N x) eqn:E; [destruct (split_on_not_nil _ _ E)|reflexivity]. }
      rewrite Es in E. destruct names as [|n ns _] using rev_ind; [congruence|].
      rewrite app_comm_cons in E. apply app_inj_tail in E. destruct E as [_ ->].
      apply Forall_app in Hpl. destruct Hpl as [_ Hpl]. inversion Hpl as [|? ? (H1 & _)]; subst.
      apply H1. reflexivity. }
    rewrite Hch. unfold iter_parts_relaxed. change slash with 47%N.
    rewrite split_join by (discriminate || exact Hall).
    assert (Eu : map unescape_part ([] :: names) = [] :: names).
    { cbn. f_equal. clear - Hn. induction names as [|n ns IH]; [reflexivity|]. cbn. f_equal.
      - apply unescape_spec. apply Hn. left; reflexivity.
      - apply IH. intros m Hm. apply Hn. right; exact Hm. }
    rewrite Eu. rewrite map_steps_unmapped; [|intros q Eq; inversion Eq; subst; exact Hw|exact Hu].
    cbn [rbind app]. f_equal.
    assert (Ef : flat_map (new_steps None) ([] :: names) = [] :: names).
    { cbn [flat_map]. change (new_steps None []) with [@nil N]. cbn [app]. f_equal.
      clear - Hn. induction names as [|n ns IH]; [reflexivity|]. cbn [flat_map].
      rewrite plain_new_steps by (apply Hn; left; reflexivity). cbn [app]. f_equal.
      apply IH. intros m Hm. apply Hn. right; exact Hm. }
    rewrite Ef. rewrite join_paths_text. f_equal. apply text_steps_id.
    apply (N_abs names). exact Hpl.
  Qed.
End Regex.
