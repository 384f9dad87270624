(** * Proofs about trees of steps: their edges *)
From Coq Require Import String Lia.
From Verif Require Import PyBase PyBase_Proofs Json JsonPointer_Model JsonPointer_Spec JsonPointer_Proofs
  Paths_Model Pmod_Model Pmod_Spec Pmod_Proofs Pstep_Model Pstep_Spec PstepPmod_Proofs Pstep_Proofs.

Section Regex.
  Variable M : Type.
  Variable fullmatch : pystr -> pystr -> option M.
  Variable expand : M -> pystr -> res pystr.
  Variable compiles : pystr -> bool.
  Variable class_attr : pystr -> bool.
  Notation new := (new_step M fullmatch expand compiles).
  Notation make := (make_cstep M fullmatch expand compiles).
  Notation get := (getattr M fullmatch expand compiles class_attr).
  Notation set := (setattr M fullmatch expand compiles).
  Notation ex := (exec M fullmatch expand compiles class_attr).
  Notation go := (run M fullmatch expand compiles class_attr).
  Notation ldesc := (ldescend M fullmatch expand).
  Notation effect := (effect M fullmatch expand compiles).

  (** ** Preparing *)
  Lemma prepared_dicts : forall h self s k al e h1 d e1, prepared h self s k al e h1 d e1 ->
    h_dicts h1 = h_dicts h \/ h_dicts h1 = h_dicts h ++ [[]].
  Proof. intros h self s k al e h1 d e1 P. destruct P; cbn; auto. left. apply update_pmod_dicts. Qed.

  Lemma prepared_child : forall h self s k al e h1 d e1, step_at h self s ->
    prepared h self s k al e h1 d e1 -> forall i a c, child_at h1 i a c <-> child_at h i a c.
  Proof.
    intros h self s k al e h1 d e1 Hs P i a c.
    destruct (prepared_steps _ _ _ _ _ _ _ _ _ Hs P) as [s' [A [_ [C [D _]]]]].
    assert (Dn : forall n ds, In (a, c) ds -> nth_error (h_dicts h1) n = Some ds <-> nth_error (h_dicts h) n = Some ds).
    { intros n ds Hin. destruct (prepared_dicts _ _ _ _ _ _ _ _ _ P) as [->| ->]; [tauto|].
      split; [|apply nth_error_app_l]. intros E. apply nth_error_snoc in E. destruct E as [E|[_ ->]]; auto.
      destruct Hin. }
    unfold child_at, step_at. rewrite A. split.
    - intros [si [n [ds [E1 [E2 [E3 Hin]]]]]]. rewrite Dn in E3 by exact Hin.
      apply nth_error_update in E1. destruct E1 as [[_ E1]|[<- [-> _]]]; [eauto 8|].
      destruct (dict_of h (s_csteps s)) as [|x xs] eqn:Ed.
      + exfalso. destruct P as [d x xs e0 -> Ed' Ex|d x xs -> Ed' Ex|_].
        * rewrite Ed' in Ed. cbn in Ed. erewrite nth_error_nth in Ed by eauto. discriminate.
        * rewrite Ed' in Ed. cbn in Ed. erewrite nth_error_nth in Ed by eauto. discriminate.
        * assert (n = length (h_dicts h)) by congruence. subst n.
          assert (length (h_dicts h) < length (h_dicts h))%nat; [|lia]. apply nth_error_Some. congruence.
      + exists s, n, ds. repeat split; auto. rewrite <- D; congruence.
    - intros [si [n [ds [E1 [E2 [E3 Hin]]]]]]. destruct (Nat.eq_dec self i) as [<-|N].
      + unfold step_at in Hs. assert (si = s) by congruence. subst si. exists s', n, ds.
        rewrite nth_error_update_eq by (apply nth_error_Some; congruence). repeat split; auto.
        * rewrite D; auto. rewrite E2. cbn. erewrite nth_error_nth by eauto. intros ->. destruct Hin.
        * now apply Dn.
      + exists si, n, ds. rewrite nth_error_update_neq by auto. repeat split; auto. now apply Dn.
  Qed.

  Lemma prepared_sound : forall h self s k al e h1 d e1, step_at h self s ->
    prepared h self s k al e h1 d e1 -> sound h -> sound h1 /\ (d < length (h_dicts h1))%nat.
  Proof.
    intros h self s k al e h1 d e1 Hs P [S1 [S2 S3]].
    destruct (prepared_steps _ _ _ _ _ _ _ _ _ Hs P) as [s' [A [_ [C [D _]]]]].
    assert (Hd : (d < length (h_dicts h1))%nat).
    { destruct P as [d x xs e0 -> Ed' Ex|d x xs -> Ed' Ex|_].
      - apply nth_error_Some. congruence.
      - rewrite update_pmod_dicts. apply nth_error_Some. congruence.
      - cbn. rewrite app_length. cbn. lia. }
    assert (Hl : (length (h_dicts h) <= length (h_dicts h1))%nat).
    { destruct (prepared_dicts _ _ _ _ _ _ _ _ _ P) as [->| ->]; [auto|rewrite app_length; lia]. }
    split; auto. split; [|split].
    - intros i si n Hi Hc. unfold step_at in Hi. rewrite A in Hi. apply nth_error_update in Hi.
      destruct Hi as [[_ Hi]|[_ [-> _]]].
      + specialize (S1 _ _ _ Hi Hc). lia.
      + congruence.
    - intros n ds a c Hn Hin. rewrite A, list_update_length.
      destruct (prepared_dicts _ _ _ _ _ _ _ _ _ P) as [E|E]; rewrite E in Hn; [eauto|].
      apply nth_error_snoc in Hn. destruct Hn as [Hn|[_ ->]]; [eauto|destruct Hin].
    - intros n ds Hn. destruct (prepared_dicts _ _ _ _ _ _ _ _ _ P) as [E|E]; rewrite E in Hn; [eauto|].
      apply nth_error_snoc in Hn. destruct Hn as [Hn|[_ ->]]; [eauto|constructor].
  Qed.

  (** ** New steps *)
  Lemma built_dict : forall h n m a dx s, built h n m a dx s -> forall d ds e,
    s_csteps s = Some d -> nth_error (h_dicts h ++ dx) d = Some ds -> In e ds -> sound h ->
    exists j sj, m = MStep j /\ step_at h j sj /\ s_text sj <> [] /\ dict_of h (s_csteps sj) = ds
      /\ d = length (h_dicts h).
  Proof.
    intros h n m a dx s B d ds e Hd Hn Hin [S1 _]. destruct B as [|j sj d0 dx -> Hj Ht [[E1 [-> ->]]|[[x [xs [E1 ->]]] ->]]];
      cbn in Hd; try discriminate.
    - exfalso. rewrite app_nil_r in Hn. rewrite Hd in E1. cbn in E1. erewrite nth_error_nth in E1 by eauto.
      subst ds. destruct Hin.
    - injection Hd as <-. rewrite nth_error_snoc_new in Hn. injection Hn as <-.
      exists j, sj. repeat split; auto.
  Qed.

  Lemma new_sound : forall h n m a ts h' r, new h n m a ts = (h', r) -> sound h -> sound h'.
  Proof.
    intros h n m a ts h' r E S. apply new_inv in E. destruct E as [dx [cx [A [_ C]]]].
    destruct S as [S1 [S2 S3]]. destruct r as [i|e].
    2:{ destruct C as [C ->]. rewrite app_nil_r in A. unfold sound, step_at. rewrite A, C. auto. }
    destruct C as [-> [s [Es B]]]. unfold sound, step_at. rewrite A, Es.
    assert (Dx : forall d ds, nth_error (h_dicts h ++ dx) d = Some ds -> nth_error (h_dicts h) d = Some ds
        \/ exists d0, nth_error (h_dicts h) d0 = Some ds).
    { intros d ds Hn. destruct B as [|j sj d0 dx -> Hj Ht [[E1 [-> ->]]|[[x [xs [E1 ->]]] ->]]];
        try (rewrite app_nil_r in Hn; auto; fail).
      apply nth_error_snoc in Hn. destruct Hn as [Hn|[_ ->]]; auto.
      destruct (dict_of_some _ _ _ _ E1) as [n0 [_ H]]. eauto. }
    split; [|split].
    - intros i si d Hi Hd. apply nth_error_snoc in Hi. rewrite app_length. destruct Hi as [Hi|[_ ->]].
      + specialize (S1 _ _ _ Hi Hd). lia.
      + destruct B as [|j sj d0 dx -> Hj Ht [[E1 [-> ->]]|[[x [xs [E1 ->]]] ->]]]; cbn in Hd; try discriminate.
        * specialize (S1 _ _ _ Hj Hd). lia.
        * injection Hd as <-. cbn. lia.
    - intros d ds k c Hn Hin. rewrite app_length. cbn.
      destruct (Dx _ _ Hn) as [H|[d0 H]]; specialize (S2 _ _ _ _ H Hin); lia.
    - intros d ds Hn. destruct (Dx _ _ Hn) as [H|[d0 H]]; eauto.
  Qed.

  Lemma new_child : forall h n m a ts h' r, new h n m a ts = (h', r) -> sound h -> forall i k c,
    child_at h' i k c -> child_at h i k c
      \/ (r = Ok i /\ i = length (h_steps h) /\ exists j, m = MStep j /\ text_of h j <> [] /\ child_at h j k c).
  Proof.
    intros h n m a ts h' r E S i k c [s [d [ds [Hi [Hd [Hn Hin]]]]]].
    apply new_inv in E. destruct E as [dx [cx [A [_ C]]]].
    unfold step_at in Hi. rewrite A in Hn. destruct r as [i0|e].
    - destruct C as [-> [s0 [Es B]]]. rewrite Es in Hi. apply nth_error_snoc in Hi.
      destruct Hi as [Hi|[-> ->]].
      + left. exists s, d, ds. repeat split; auto.
        assert (d < length (h_dicts h))%nat by (destruct S as [S1 _]; eauto).
        now rewrite nth_error_app1 in Hn.
      + right. repeat split; auto.
        destruct (built_dict _ _ _ _ _ _ B _ _ _ Hd Hn Hin S) as [j [sj [-> [Hj [Ht [Ed _]]]]]].
        exists j. repeat split; auto. { now rewrite (text_at _ _ _ Hj). }
        apply children_child. unfold children. unfold step_at in Hj. rewrite Hj, Ed. exact Hin.
    - destruct C as [C ->]. rewrite C in Hi. rewrite app_nil_r in Hn. left. exists s, d, ds. auto.
  Qed.

  Lemma new_child_old : forall h n m a ts h' r, new h n m a ts = (h', r) -> forall i k c,
    child_at h i k c -> child_at h' i k c.
  Proof.
    intros h n m a ts h' r E i k c [s [d [ds [Hi [Hd [Hn Hin]]]]]].
    apply new_inv in E. destruct E as [dx [cx [A [_ C]]]]. exists s, d, ds. unfold step_at. rewrite A.
    repeat split; auto; [|now apply nth_error_app_l].
    destruct r as [i0|e]; [destruct C as [-> [s0 [-> B]]]; now apply nth_error_app_l|].
    destruct C as [-> _]. exact Hi.
  Qed.

  (** ** Making a child *)
  Lemma make_sound : forall h self k al e h' r, make h self k al e = (h', r) -> sound h -> sound h'.
  Proof.
    intros h self k al e h' r E S. destruct (nth_error (h_steps h) self) as [s|] eqn:Hs.
    2:{ unfold make_cstep in E. rewrite Hs in E. now injection E as <- _. }
    destruct (make_inv _ _ _ _ _ _ _ _ _ _ _ _ Hs E) as [h1 [d [e1 [h2 [P [N F]]]]]].
    destruct (prepared_sound _ _ _ _ _ _ _ _ _ Hs P S) as [S' Hd].
    assert (S2 := new_sound _ _ _ _ _ _ _ N S'). destruct r as [i|x]; [|now subst h'].
    apply new_inv in N. destruct N as [dx [cx [A [_ [-> [s0 [Es B]]]]]]].
    destruct S2 as [S21 [S22 S23]]. subst h'. unfold sound, step_at. cbn. rewrite list_update_length.
    assert (Hn : exists ds0, nth_error (h_dicts h2) d = Some ds0 /\ nth d (h_dicts h2) [] = ds0).
    { destruct (nth_error (h_dicts h2) d) as [ds0|] eqn:En.
      - exists ds0. split; auto. now apply nth_error_nth.
      - apply nth_error_None in En. rewrite A, app_length in En. lia. }
    destruct Hn as [ds0 [Hn ->]].
    repeat split; eauto.
    - intros n ds a c Hnn Hin. apply nth_error_update in Hnn. destruct Hnn as [[_ Hnn]|[_ [-> _]]]; [eauto|].
      apply In_dset in Hin. destruct Hin as [Hin|Hin]; [|eauto]. injection Hin as -> ->.
      rewrite Es, app_length. cbn. lia.
    - intros n ds Hnn. apply nth_error_update in Hnn. destruct Hnn as [[_ Hnn]|[_ [-> _]]]; [eauto|].
      apply NoDup_dset. eauto.
  Qed.

  (** Only the step itself gets the dict of its children. *)
  Definition sole (h : heap) (self : nat) (e : option nat) : Prop :=
    forall s, step_at h self s -> dict_of h (s_csteps s) = [] -> e = Some self -> s_text s = [].

  Lemma built_sole : forall h self s k al e h1 d e1, step_at h self s -> prepared h self s k al e h1 d e1 ->
    sound h -> unshared h -> sole h self e ->
    forall name dx sn, built h1 name (match e1 with Some e => if texted h1 e then MStep e else own_maps h1 self
                                    | None => own_maps h1 self end) al dx sn ->
    s_csteps sn <> Some d.
  Proof.
    intros h self s k al e h1 d e1 Hs P S U So name dx sn B Hd.
    destruct (prepared_sound _ _ _ _ _ _ _ _ _ Hs P S) as [S' Hlt].
    destruct B as [|j sj d0 dx Em Hj Ht [[E1 [-> ->]]|[[x [xs [E1 ->]]] ->]]]; cbn in Hd; try discriminate.
    2:{ injection Hd as <-. lia. }
    destruct (prepared_steps _ _ _ _ _ _ _ _ _ Hs P) as [s' [A [Id [C [D _]]]]].
    assert (Ej : e1 = Some j).
    { destruct e1 as [j'|]; [destruct (texted h1 j')|]; try congruence;
        unfold own_maps in Em; destruct (nth_error (h_steps h1) self) as [q|]; try discriminate;
        destruct (s_pmod q); discriminate. }
    rewrite Hd in E1. cbn in E1. destruct P as [d x xs e0 -> Ed' Ex|d x xs -> Ed' Ex|Ed].
    - erewrite nth_error_nth in E1 by eauto. discriminate.
    - rewrite update_pmod_dicts in E1. erewrite nth_error_nth in E1 by eauto. discriminate.
    - unfold step_at in Hj. rewrite A in Hj. apply nth_error_update in Hj. destruct Hj as [[N Hj]|[<- [-> _]]].
      + destruct S as [S1 _]. specialize (S1 _ _ _ Hj Hd). lia.
      + assert (X := So _ Hs Ed Ej). destruct Id as [Id _]. congruence.
  Qed.

  Lemma make_dict_owner : forall h self s k al e h1 d e1, step_at h self s -> prepared h self s k al e h1 d e1 ->
    sound h -> unshared h -> forall i si, step_at h1 i si -> s_csteps si = Some d -> i = self.
  Proof.
    intros h self s k al e h1 d e1 Hs P [S1 _] U i si Hi Hd.
    destruct (prepared_steps _ _ _ _ _ _ _ _ _ Hs P) as [s' [A [Id [C [D _]]]]].
    unfold step_at in Hi. rewrite A in Hi. apply nth_error_update in Hi. destruct Hi as [[N Hi]|[E _]]; auto.
    destruct P as [d x xs e0 -> Ed' Ex|d x xs -> Ed' Ex|Ed].
    - symmetry. exact (U _ _ _ _ _ _ x Hs Hi Ed' Hd Ex (or_introl eq_refl)).
    - symmetry. exact (U _ _ _ _ _ _ x Hs Hi Ed' Hd Ex (or_introl eq_refl)).
    - specialize (S1 _ _ _ Hi Hd). lia.
  Qed.

  Lemma make_child : forall h self k al e h' r s, step_at h self s -> make h self k al e = (h', r) ->
    sound h -> unshared h -> sole h self e ->
    forall i a c, child_at h' i a c -> child_at h i a c
      \/ (r = Ok c /\ c = length (h_steps h) /\ i = self /\ a = k)
      \/ (r = Ok i /\ i = length (h_steps h) /\ exists j, text_of h j <> [] /\ child_at h j a c
            /\ (e = Some j \/ (e = None /\ child_at h self k j))).
  Proof.
    intros h self k al e h' r s Hs E S U So i a c Hc.
    destruct (make_inv _ _ _ _ _ _ _ _ _ _ _ _ Hs E) as [h1 [d [e1 [h2 [P [N F]]]]]].
    destruct (prepared_sound _ _ _ _ _ _ _ _ _ Hs P S) as [S' Hd].
    assert (Len : length (h_steps h1) = length (h_steps h)).
    { destruct (prepared_steps _ _ _ _ _ _ _ _ _ Hs P) as [s' [A _]]. now rewrite A, list_update_length. }
    assert (X : forall i a c, child_at h2 i a c -> child_at h i a c
      \/ (r = Ok i /\ i = length (h_steps h) /\ exists j, text_of h j <> [] /\ child_at h j a c
            /\ (e = Some j \/ (e = None /\ child_at h self k j)))).
    { clear i a c Hc. intros i a c Hc. destruct (new_child _ _ _ _ _ _ _ N S' _ _ _ Hc) as [H|[Hr [Hi [j [Em [Ht Hj]]]]]].
      - left. exact (proj1 (prepared_child _ _ _ _ _ _ _ _ _ Hs P _ _ _) H).
      - right. split; auto. split; [congruence|]. exists j.
        assert (Ej : e1 = Some j).
        { destruct e1 as [j'|]; [destruct (texted h1 j')|]; try congruence;
            unfold own_maps in Em; destruct (nth_error (h_steps h1) self) as [q|]; try discriminate;
            destruct (s_pmod q); discriminate. }
        assert (Hkn : keeps_steps h h1).
        { destruct (prepared_steps _ _ _ _ _ _ _ _ _ Hs P) as [s' [A [B [C [D G]]]]].
          eapply update_keeps; eauto. rewrite app_nil_r. exact A. }
        rewrite (prepared_child _ _ _ _ _ _ _ _ _ Hs P) in Hj. split; [|split]; auto.
        + destruct Hj as [sj [_ [_ [Hj _]]]]. destruct Hkn as [_ Hkn]. destruct (Hkn _ _ Hj) as [sj' [H1 [[H2 _] _]]].
          rewrite (text_at _ _ _ Hj). rewrite (text_at _ _ _ H1) in Ht. congruence.
        + destruct P as [d x xs e0 -> Ed' Ex|d x xs -> Ed' Ex|Ed]; auto.
          right. split; auto. exists s, d, (x :: xs). repeat split; auto. now apply dget_In. }
    destruct r as [n|err]; [|subst h'; destruct (X _ _ _ Hc); auto].
    subst h'. destruct Hc as [si [di [ds [Hi [Hdi [Hn Hin]]]]]]. unfold step_at in Hi. cbn in Hi, Hn.
    apply nth_error_update in Hn. destruct Hn as [[Nd Hn]|[<- [-> Hlt]]].
    { destruct (X i a c) as [H|H]; auto. exists si, di, ds. auto. }
    assert (N' := N). apply new_inv in N'. destruct N' as [dx [cx [A [_ [-> [s0 [Es B]]]]]]].
    assert (Hself : i = self).
    { rewrite Es in Hi. apply nth_error_snoc in Hi. destruct Hi as [Hi|[-> ->]].
      - eapply make_dict_owner; eauto.
      - exfalso. eapply built_sole; eauto. }
    apply In_dset in Hin. destruct Hin as [E1|Hin].
    - injection E1 as -> ->. right; left. rewrite Len. auto.
    - destruct (X i a c) as [H|H]; auto. exists si, d, (nth d (h_dicts h2) []). repeat split; auto.
      destruct (nth d (h_dicts h2) []) eqn:En; [destruct Hin|]. now apply nth_error_Some_nth.
  Qed.

  Lemma make_unshared : forall h self k al e h' r s, step_at h self s -> make h self k al e = (h', r) ->
    sound h -> unshared h -> sole h self e -> unshared h'.
  Proof.
    intros h self k al e h' r s Hs E S U So.
    destruct (make_inv _ _ _ _ _ _ _ _ _ _ _ _ Hs E) as [h1 [d [e1 [h2 [P [N F]]]]]].
    destruct (prepared_sound _ _ _ _ _ _ _ _ _ Hs P S) as [S' Hd].
    destruct (prepared_steps _ _ _ _ _ _ _ _ _ Hs P) as [s' [A [Id [C [D _]]]]].
    assert (U1 : unshared h1).
    { intros i j si sj n ds x Hi Hj Ei Ej Hn Hin. unfold step_at in Hi, Hj.
      destruct (Nat.eq_dec n d) as [->|Nn].
      { transitivity self; [|symmetry]; eapply (make_dict_owner h self s); eauto. }
      rewrite A in Hi, Hj. apply nth_error_update in Hi, Hj.
      destruct Hi as [[_ Hi]|[_ [-> _]]]; [|congruence]. destruct Hj as [[_ Hj]|[_ [-> _]]]; [|congruence].
      eapply U; eauto. destruct (prepared_dicts _ _ _ _ _ _ _ _ _ P) as [G|G]; rewrite G in Hn; [exact Hn|].
      apply nth_error_snoc in Hn. destruct Hn as [Hn|[_ ->]]; [exact Hn|destruct Hin]. }
    assert (N' := N). apply new_inv in N'. destruct N' as [dx [cx [B [_ G]]]]. destruct r as [n|err].
    2:{ subst h'. destruct G as [G ->]. rewrite app_nil_r in B. unfold unshared, step_at. rewrite G, B. exact U1. }
    destruct G as [-> [sn [Es Bt]]]. subst h'. unfold unshared, step_at. cbn. rewrite Es.
    intros i j si sj n ds x Hi Hj Ei Ej Hn Hin.
    apply nth_error_snoc in Hi, Hj. destruct Hi as [Hi|[-> ->]], Hj as [Hj|[-> ->]]; auto.
    - apply nth_error_update in Hn. destruct Hn as [[_ Hn]|[-> _]].
      + destruct S' as [S1 _]. assert (n < length (h_dicts h1))%nat by eauto.
        rewrite B, nth_error_app1 in Hn by auto. eapply U1; eauto.
      + transitivity self; [|symmetry]; eapply (make_dict_owner h self s); eauto.
    - exfalso. apply nth_error_update in Hn. destruct Hn as [[_ Hn]|[-> _]].
      + rewrite B in Hn. destruct (built_dict _ _ _ _ _ _ Bt _ _ _ Ej Hn Hin S') as [_ [_ [_ [_ [_ [_ En]]]]]].
        destruct S' as [S1 _]. specialize (S1 _ _ _ Hi Ei). lia.
      + eapply (built_sole h self s); eauto.
    - exfalso. apply nth_error_update in Hn. destruct Hn as [[_ Hn]|[-> _]].
      + rewrite B in Hn. destruct (built_dict _ _ _ _ _ _ Bt _ _ _ Ei Hn Hin S') as [_ [_ [_ [_ [_ [_ En]]]]]].
        destruct S' as [S1 _]. specialize (S1 _ _ _ Hj Ej). lia.
      + eapply (built_sole h self s); eauto.
  Qed.

  Lemma new_unshared : forall h n m a ts h' r, new h n m a ts = (h', r) -> sound h -> unshared h -> unshared h'.
  Proof.
    intros h n m a ts h' r N S U. apply new_inv in N. destruct N as [dx [cx [B [_ G]]]]. destruct r as [i0|err].
    2:{ destruct G as [G ->]. rewrite app_nil_r in B. unfold unshared, step_at. rewrite G, B. exact U. }
    destruct G as [-> [sn [Es Bt]]]. unfold unshared, step_at. rewrite Es, B.
    intros i j si sj d ds x Hi Hj Ei Ej Hn Hin.
    apply nth_error_snoc in Hi, Hj. destruct Hi as [Hi|[-> ->]], Hj as [Hj|[-> ->]]; auto.
    - destruct S as [S1 _]. assert (d < length (h_dicts h))%nat by eauto.
      rewrite nth_error_app1 in Hn by auto. eapply U; eauto.
    - exfalso. destruct (built_dict _ _ _ _ _ _ Bt _ _ _ Ej Hn Hin S) as [_ [_ [_ [_ [_ [_ En]]]]]].
      destruct S as [S1 _]. specialize (S1 _ _ _ Hi Ei). lia.
    - exfalso. destruct (built_dict _ _ _ _ _ _ Bt _ _ _ Ei Hn Hin S) as [_ [_ [_ [_ [_ [_ En]]]]]].
      destruct S as [S1 _]. specialize (S1 _ _ _ Hj Ej). lia.
  Qed.

  (** ** Operations keep the heap sound and unshared *)
  Lemma sole_none : forall h i, sole h i None. Proof. intros h i s _ _ E. discriminate. Qed.
  Lemma reaches_refl : forall h i, reaches h i i.
  Proof. intros h i. exists [], []. constructor. Qed.
  Lemma no_loop_sole : forall h i a j, no_loop h (OSet i a (AStep j)) -> sole h i (Some j).
  Proof.
    intros h i a j H s Hs _ [= ->]. destruct (H i a i eq_refl) as [E|N].
    - now rewrite (text_at _ _ _ Hs) in E.
    - exfalso. apply N, reaches_refl.
  Qed.

  Definition same_but (h h' : heap) : Prop :=
    h_dicts h' = h_dicts h /\ length (h_steps h') = length (h_steps h)
    /\ forall i s', step_at h' i s' -> exists s, step_at h i s /\ s_csteps s' = s_csteps s /\ s_text s' = s_text s.
  Lemma same_but_update : forall h i s s', step_at h i s -> s_csteps s' = s_csteps s -> s_text s' = s_text s ->
    same_but h (set_steps h (list_update (h_steps h) i s')).
  Proof.
    intros h i s s' Hs E T. split; auto. split; [apply list_update_length|]. intros j sj Hj. unfold step_at in Hj. cbn in Hj.
    apply nth_error_update in Hj. destruct Hj as [[_ Hj]|[<- [-> _]]]; [exists sj|exists s]; auto.
  Qed.
  Lemma same_but_sound : forall h h', same_but h h' -> sound h -> sound h'.
  Proof.
    intros h h' [Ed [El Hs]] [S1 [S2 S3]]. unfold sound. rewrite Ed, El. repeat split; auto.
    intros i s d Hi Hd. destruct (Hs _ _ Hi) as [s0 [H0 [E _]]]. rewrite E in Hd. eauto.
  Qed.
  Lemma same_but_unshared : forall h h', same_but h h' -> unshared h -> unshared h'.
  Proof.
    intros h h' [Ed [El Hs]] U i j si sj d ds e Hi Hj Ei Ej Hn Hin. rewrite Ed in Hn.
    destruct (Hs _ _ Hi) as [si0 [Hi0 [Ei0 _]]]. destruct (Hs _ _ Hj) as [sj0 [Hj0 [Ej0 _]]].
    eapply U; eauto; congruence.
  Qed.
  Lemma same_but_child : forall h h' i a c, same_but h h' -> child_at h' i a c -> child_at h i a c.
  Proof.
    intros h h' i a c [Ed [El Hs]] [s [d [ds [H1 [H2 [H3 H4]]]]]]. rewrite Ed in H3.
    destruct (Hs _ _ H1) as [s0 [H0 [E0 _]]]. exists s0, d, ds. repeat split; auto. congruence.
  Qed.

  Lemma effect_sound : forall h o h', effect h o h' -> sound h -> sound h'.
  Proof.
    intros h o h' E S. destruct E; auto; try (eapply make_sound; eauto; fail).
    - eapply new_sound; eauto.
    - eapply same_but_sound; eauto. eapply same_but_update; eauto.
    - eapply same_but_sound; eauto. eapply same_but_update; eauto.
  Qed.
  Lemma effect_unshared : forall h o h', effect h o h' -> no_loop h o -> sound h -> unshared h -> unshared h'.
  Proof.
    intros h o h' E NL S U. destruct E; auto.
    - eapply new_unshared; eauto.
    - eapply make_unshared; eauto. apply sole_none.
    - eapply make_unshared; eauto. apply sole_none.
    - eapply make_unshared; eauto. eapply no_loop_sole; eauto.
    - eapply same_but_unshared; eauto. eapply same_but_update; eauto.
    - eapply same_but_unshared; eauto. eapply same_but_update; eauto.
  Qed.

  (** ** No cycles *)
  Lemma reaches_down : forall h i a c j, child_at h i a c -> reaches h c j -> reaches h i j.
  Proof. intros h i a c j H [p [q W]]. exists (i :: p), q. cbn. econstructor; eauto. Qed.

  Lemma walk_head : forall h i p, walk h i p -> exists q, p = i :: q.
  Proof. intros h i p W. destruct W; eauto. Qed.

  Lemma reaches_then : forall h f i a e, reaches h f i -> child_at h i a e -> reaches h f e.
  Proof.
    intros h f i a e [p [q W]] H. revert f W. induction p as [|x p IH]; intros f W; cbn in W.
    - destruct (walk_head _ _ _ W) as [q' E]. injection E as -> _.
      exists [f], []. cbn. econstructor; eauto. constructor.
    - inversion W as [|i0 b c p0 Hc W' Ex Ep]; subst.
      + destruct p; discriminate.
      + eapply reaches_down; eauto.
  Qed.

  Lemma ends_no_cycle : forall h i, ends h i -> forall a e, child_at h i a e -> ~ reaches h e i.
  Proof.
    intros h i En. induction En as [i _ IH]. intros a e He R. destruct R as [p [q W]].
    destruct p as [|x p]; cbn in W.
    - destruct (walk_head _ _ _ W) as [q' E]. injection E as -> _.
      apply (IH _ _ He _ _ He). apply reaches_refl.
    - inversion W as [|i0 b c p0 Hc W' Ex Ep]; subst.
      + destruct p; discriminate.
      + apply (IH _ _ He _ _ Hc). eapply reaches_then; [|exact He]. exists p, q. exact W'.
  Qed.

  Lemma child_lt : forall h i a c, sound h -> child_at h i a c ->
    (i < length (h_steps h))%nat /\ (c < length (h_steps h))%nat.
  Proof.
    intros h i a c [S1 [S2 S3]] [s [d [ds [H1 [H2 [H3 H4]]]]]]. split; [eapply step_lt; eauto|eauto].
  Qed.

  Lemma make_ends : forall h self k al e h' r s, step_at h self s -> make h self k al e = (h', r) ->
    sound h -> unshared h -> (forall i, ends h i) ->
    (forall j, e = Some j -> text_of h j = [] \/ ~ reaches h j self) -> forall i, ends h' i.
  Proof.
    intros h self k al e h' r s Hs E S U En Hl.
    assert (So : sole h self e).
    { intros s0 H0 _ ->. destruct (Hl _ eq_refl) as [X|X]; [now rewrite (text_at _ _ _ H0) in X|].
      exfalso. apply X, reaches_refl. }
    assert (X := make_child _ _ _ _ _ _ _ _ Hs E S U So).
    set (n := length (h_steps h)) in *.
    assert (S1 : forall y, ends h y -> ~ reaches h y self -> y <> n -> ends h' y).
    { intros y Ey. induction Ey as [y _ IH]. intros R N. constructor. intros a c Hc.
      destruct (X _ _ _ Hc) as [H|[[_ [_ [-> _]]]|[_ [-> _]]]].
      - eapply IH; eauto.
        + intros R'. apply R. eapply reaches_down; eauto.
        + destruct (child_lt _ _ _ _ S H). unfold n. lia.
      - exfalso. apply R, reaches_refl.
      - congruence. }
    assert (S2 : ends h' n).
    { constructor. intros a c Hc. destruct (X _ _ _ Hc) as [H|[[_ [_ [Hn _]]]|[_ [_ [j [Ht [Hj Hej]]]]]]].
      - exfalso. destruct (child_lt _ _ _ _ S H). unfold n in *. lia.
      - exfalso. apply step_lt in Hs. unfold n in Hn. lia.
      - destruct (child_lt _ _ _ _ S Hj) as [_ L]. apply S1; auto; [|unfold n; lia].
        intros R. destruct Hej as [->|[-> Hj2]].
        + destruct (Hl _ eq_refl) as [Y|Y]; auto. apply Y. eapply reaches_down; eauto.
        + eapply (ends_no_cycle h self (En self)); eauto. eapply reaches_down; eauto. }
    intros y. destruct (Nat.eq_dec y n) as [->|N]; auto.
    specialize (En y). induction En as [y _ IH]. constructor. intros a c Hc.
    destruct (X _ _ _ Hc) as [H|[[_ [-> _]]|[_ [Hy _]]]]; auto; [|congruence].
    eapply IH; eauto. destruct (child_lt _ _ _ _ S H). unfold n. lia.
  Qed.

  Lemma ends_sub : forall h h', (forall i a c, child_at h' i a c -> child_at h i a c) ->
    (forall i, ends h i) -> forall i, ends h' i.
  Proof.
    intros h h' Hs En i. specialize (En i). induction En as [i _ IH]. constructor. intros a c Hc. eauto.
  Qed.

  Lemma new_ends : forall h n m a ts h' r, new h n m a ts = (h', r) -> sound h ->
    (forall i, ends h i) -> forall i, ends h' i.
  Proof.
    intros h n m a ts h' r E S En. assert (X := new_child _ _ _ _ _ _ _ E S).
    assert (S1 : forall y, ends h y -> y <> length (h_steps h) -> ends h' y).
    { intros y Ey. induction Ey as [y _ IH]. intros N. constructor. intros k c Hc.
      destruct (X _ _ _ Hc) as [H|[_ [-> _]]]; [|congruence]. eapply IH; eauto.
      destruct (child_lt _ _ _ _ S H). lia. }
    intros y. destruct (Nat.eq_dec y (length (h_steps h))) as [->|N]; auto.
    constructor. intros k c Hc. destruct (X _ _ _ Hc) as [H|[_ [_ [j [_ [_ H]]]]]];
      apply S1; auto; destruct (child_lt _ _ _ _ S H); lia.
  Qed.

  Lemma effect_ends : forall h o h', effect h o h' -> no_loop h o -> sound h -> unshared h ->
    (forall i, ends h i) -> forall i, ends h' i.
  Proof.
    intros h o h' E NL S U En. destruct E; auto.
    - eapply new_ends; eauto.
    - eapply make_ends; eauto. discriminate.
    - eapply make_ends; eauto. discriminate.
    - eapply make_ends; eauto. intros j' [= <-]. eapply NL. reflexivity.
    - apply (ends_sub h); [|exact En]. intros i0 a c. apply same_but_child. eapply same_but_update; eauto.
    - apply (ends_sub h); [|exact En]. intros i0 a c. apply same_but_child. eapply same_but_update; eauto.    - apply (ends_sub h); [|exact En]. intros i0 a c H. exact H.
  Qed.

  Definition good (h : heap) : Prop := sound h /\ unshared h /\ forall i, ends h i.

  Lemma good_empty : good empty_heap.
  Proof.
    split; [|split].
    - split; [|split]; [intros i s d Hi; destruct i; discriminate|intros d ds a c Hd; destruct d; discriminate|
        intros d ds Hd; destruct d; discriminate].
    - intros i j si sj d ds e Hi. destruct i; discriminate.
    - intros i. constructor. intros a c [s [d [ds [Hi _]]]]. destruct i; discriminate.
  Qed.

  Lemma good_run : forall os h, good h -> always ex no_loop h os -> good (go h os).
  Proof.
    induction os as [|o os IH]; intros h G A; auto. cbn. inversion A; subst. apply IH; auto.
    destruct G as [S [U En]]. assert (E := exec_effect M fullmatch expand compiles class_attr h o).
    split; [|split]; [eapply effect_sound|eapply effect_unshared|eapply effect_ends]; eauto.
  Qed.
  Lemma sound_run : forall os h, sound h -> sound (go h os).
  Proof.
    induction os as [|o os IH]; intros h G; auto. cbn. apply IH.
    eapply effect_sound; [apply exec_effect|exact G].
  Qed.
End Regex.
