(** * Proofs about call-specs and filters (C30, C27) *)
From Coq Require Import String.
From Verif Require Import PyBase PyBase_Proofs Json Coords_Model Capture_Model Parse_Model Parse_Spec.

Lemma parse_call_spec_sound : forall v c, parse_call_spec v = Ok c -> call_of v c.
Proof.
  intros v c H. unfold parse_call_spec in H. destruct v as [|b|z|s|l|d]; try discriminate H.
  - cbn in H. injection H as <-. constructor.
  - destruct l as [|f [|a [|b [|x l]]]]; try discriminate H.
    + destruct f as [|bf|zf|sf|lf|df]; try discriminate H. cbn in H. injection H as <-.
      apply (Co_list sf [] [] []); [cbn; lia|auto|left; auto|left; auto].
    + destruct f as [|bf|zf|sf|lf|df], a as [|ba|za|sa|la|da]; try discriminate H; cbn in H; injection H as <-.
      * apply (Co_list sf [JNull] [] []); [cbn; lia|auto|left; auto|left; auto].
      * apply (Co_list sf [JList la] [JList la] []); [cbn; lia|auto|right; auto|left; auto].
      * apply (Co_list sf [JDict da] [] [JDict da]); [cbn; lia|auto|left; auto|right; auto].
    + destruct f as [|bf|zf|sf|lf|df], a as [|ba|za|sa|la|da], b as [|bb|zb|sb|lb|db]; try discriminate H; cbn in H; injection H as <-.
      * apply (Co_list sf [JNull; JNull] [] []); [cbn; lia|auto|left; auto|left; auto].
      * apply (Co_list sf [JNull; JList lb] [JList lb] []); [cbn; lia|auto|right; auto|left; auto].
      * apply (Co_list sf [JNull; JDict db] [] [JDict db]); [cbn; lia|auto|left; auto|right; auto].
      * apply (Co_list sf [JList la; JNull] [JList la] []); [cbn; lia|auto|right; auto|left; auto].
      * apply (Co_list sf [JList la; JDict db] [JList la] [JDict db]); [cbn; lia|auto|right; auto|right; auto].
      * apply (Co_list sf [JDict da; JNull] [] [JDict da]); [cbn; lia|auto|left; auto|right; auto].
      * apply (Co_list sf [JDict da; JList lb] [JList lb] [JDict da]); [cbn; lia|auto|right; auto|right; auto].
  - unfold parse_object in H.
    destruct (forallb (fun kv => existsb (str_eqb (fst kv)) [lit "func"; lit "args"; lit "kwds"]) d) eqn:Ek; [|discriminate H].
    destruct (sget (lit "func") d) as [f|] eqn:Ef; [|discriminate H]. cbn [rbind] in H.
    destruct f as [|bf|zf|sf|lf|df]; try discriminate H. cbn [rbind] in H.
    match type of H with rbind ?a _ = _ => destruct a as [a'|] eqn:Ea; [|discriminate H] end. cbn [rbind] in H.
    match type of H with rbind ?k _ = _ => destruct k as [k'|] eqn:Eb; [|discriminate H] end. cbn [rbind] in H.
    injection H as <-. constructor.
    + intros k j Hin. rewrite forallb_forall in Ek. specialize (Ek _ Hin). cbn [fst existsb] in Ek.
      rewrite !orb_true_iff, !str_eqb_eq in Ek. intuition discriminate.
    + exact Ef.
    + destruct (sget (lit "args") d) as [[]|]; try discriminate Ea; injection Ea as <-; auto.
    + destruct (sget (lit "kwds") d) as [[]|]; try discriminate Eb; injection Eb as <-; auto.
Qed.

Lemma parse_call_spec_complete : forall v c, call_of v c -> parse_call_spec v = Ok c.
Proof.
  intros v c H. inversion H as [f|f items la lk args kwds Hl Hf Ha Hk|d f args kwds Hin Hf Ha Hk]; subst.
  - reflexivity.
  - assert (length la <= 1 /\ length lk <= 1)%nat as [L1 L2].
    { destruct Ha as [[-> _]| ->], Hk as [[-> _]| ->]; cbn; lia. }
    destruct items as [|a [|b [|x items]]]; [| | |cbn in Hl; lia].
    + assert (la = [] /\ lk = []) as [-> ->].
      { cbn in Hf. destruct la, lk; try (destruct Hf as [Hf|Hf]; discriminate Hf); auto. }
      destruct Ha as [[_ ->]|Ha]; [|discriminate Ha]. destruct Hk as [[_ ->]|Hk]; [|discriminate Hk]. reflexivity.
    + destruct Ha as [[-> ->]| ->], Hk as [[-> ->]| ->], a as [|ba|za|sa|l0|d0]; cbn in Hf;
        try (destruct Hf as [Hf|Hf]; discriminate Hf);
        (destruct Hf as [Hf|Hf]; try discriminate Hf; try injection Hf as ->; reflexivity).
    + destruct Ha as [[-> ->]| ->], Hk as [[-> ->]| ->], a as [|ba|za|sa|l0|d0], b as [|bb|zb|sb|l1|d1]; cbn in Hf;
        try (destruct Hf as [Hf|Hf]; discriminate Hf);
        (destruct Hf as [Hf|Hf]; try discriminate Hf; try (injection Hf as -> ->); try (injection Hf as ->); reflexivity).
  - unfold parse_call_spec, parse_object.
    assert (forallb (fun kv => existsb (str_eqb (fst kv)) [lit "func"; lit "args"; lit "kwds"]) d = true) as ->.
    { apply forallb_forall. intros [k j] Hi. cbn [fst existsb]. rewrite !orb_true_iff, !str_eqb_eq.
      destruct (Hin k j Hi) as [E|[E|E]]; auto. }
    rewrite Hf. cbn [rbind].
    destruct Ha as [->|[[->| ->] ->]], Hk as [->|[[->| ->] ->]]; reflexivity.
Qed.

Lemma parse_call_spec_raise : forall v x, parse_call_spec v = Raise x -> x = ValueError.
Proof.
  intros v x H. unfold parse_call_spec in H.
  match type of H with rbind (match ?a with _ => _ end) _ = _ => destruct a as [[[f a'] k]|e] end; cbn [rbind] in H; [|congruence].
  destruct f; cbn [rbind] in H; try congruence.
  destruct a'; cbn [rbind] in H; try congruence; destruct k; cbn [rbind] in H; congruence.
Qed.

Lemma call_of_fun : forall v c c', call_of v c -> call_of v c' -> c = c'.
Proof.
  intros v c c' H H'. apply parse_call_spec_complete in H, H'. congruence.
Qed.

Lemma sdel_without : forall k (d : list (pystr * json)), sdel k d = without k d.
Proof.
  intros k d. induction d as [|[k' v] d IH]; [reflexivity|]. unfold sdel, without in *. cbn [ddel filter fst].
  replace (str_eqb k k') with (str_eqb k' k).
  - destruct (str_eqb k' k); cbn [negb]; rewrite IH; reflexivity.
  - destruct (str_eqb k' k) eqn:E, (str_eqb k k') eqn:F; try reflexivity;
      [apply str_eqb_eq in E; subst; rewrite str_eqb_refl in F; discriminate|apply str_eqb_eq in F; subst; rewrite str_eqb_refl in E; discriminate].
Qed.

Lemma truthy_says : forall j, truthy j = false <-> says_nothing j.
Proof.
  intros j. unfold says_nothing. destruct j as [|b|z|s|l|d]; cbn [truthy].
  - tauto.
  - destruct b; split; auto; try discriminate. intuition discriminate.
  - rewrite negb_false_iff, Z.eqb_eq. split; [intros ->; auto|]. intros H. intuition (try discriminate). congruence.
  - rewrite negb_false_iff, str_eqb_eq. split; [intros ->; tauto|]. intuition (try discriminate). congruence.
  - destruct l; split; auto; try discriminate; try tauto. intuition discriminate.
  - destruct d; split; auto; try discriminate; try tauto. intuition discriminate.
Qed.

Lemma call_or_none_iff : forall j c, call_or_none j c <->
  (if truthy j then do c <- parse_call_spec j; Ok (Some c) else Ok None) = Ok c.
Proof.
  intros j c. unfold call_or_none. destruct (truthy j) eqn:E.
  - assert (~ says_nothing j) as Hn by (intros H; apply truthy_says in H; congruence). split.
    + intros [[H _]|[_ (c' & -> & H)]]; [contradiction|]. rewrite (parse_call_spec_complete _ _ H). reflexivity.
    + intros H. right. split; [exact Hn|]. destruct (parse_call_spec j) as [c'|] eqn:Ec; [|discriminate H].
      injection H as <-. exists c'. split; [reflexivity|]. apply parse_call_spec_sound. exact Ec.
  - apply truthy_says in E. split.
    + intros [[_ ->]|[H _]]; [reflexivity|contradiction].
    + intros H. injection H as <-. left. auto.
Qed.

Section Filters.
  Variable loads : pystr -> option json.

  Lemma filters_iff : forall t j o c, t <> [] -> loads t = Some j ->
    (parse_filters loads (Some t) = Ok (o, c) <-> filters_of j o c).
  Proof.
    intros t j o c Hn Hl. unfold parse_filters. destruct t as [|x t]; [contradiction|]. rewrite Hl. cbn [rbind].
    assert (forall o' j', (do c0 <- (if truthy j' then do c1 <- parse_call_spec j'; Ok (Some c1) else Ok None); Ok (o', c0)) = Ok (o, c)
       <-> o = o' /\ call_or_none j' c) as X.
    { intros o' j'. rewrite call_or_none_iff.
      destruct (if truthy j' then do c1 <- parse_call_spec j'; Ok (Some c1) else Ok None) as [c0|e]; cbn [rbind].
      - split; [intros H; injection H as <- <-; auto|]. intros [-> H]. injection H as <-. reflexivity.
      - split; [discriminate|]. intros [_ H]. discriminate H. }
    destruct (is_mapping j) eqn:Em.
    - destruct j as [|b|z|s|l|d]; try discriminate Em. clear Em. rewrite sdel_without.
      assert (Hinv : filters_of (JDict d) o c -> call_or_none (JDict (without (lit "opts") d)) c /\
          ((o = None /\ (sget (lit "opts") d = None \/ sget (lit "opts") d = Some JNull))
           \/ (exists x0, o = Some x0 /\ sget (lit "opts") d = Some (JDict x0)))).
      { intros H. inversion H as [? ? E|? ? ? H1 H2]; subst; [discriminate E|]. auto. }
      destruct (sget (lit "opts") d) as [[|b|z|s|l|d']|] eqn:Eo; cbn [rbind].
      + rewrite X. split; [intros [-> H]; constructor; [exact H|left; rewrite Eo; auto]|].
        intros H. apply Hinv in H. destruct H as [H [[-> _]|(y & _ & E)]]; [auto|discriminate E].
      + split; [discriminate|]. intros H. apply Hinv in H. destruct H as [_ [[_ [E|E]]|(y & _ & E)]]; discriminate E.
      + split; [discriminate|]. intros H. apply Hinv in H. destruct H as [_ [[_ [E|E]]|(y & _ & E)]]; discriminate E.
      + split; [discriminate|]. intros H. apply Hinv in H. destruct H as [_ [[_ [E|E]]|(y & _ & E)]]; discriminate E.
      + split; [discriminate|]. intros H. apply Hinv in H. destruct H as [_ [[_ [E|E]]|(y & _ & E)]]; discriminate E.
      + rewrite X. split; [intros [-> H]; constructor; [exact H|right; rewrite Eo; eauto]|].
        intros H. apply Hinv in H. destruct H as [H [[_ [E|E]]|(y & -> & E)]]; try discriminate E. injection E as <-. auto.
      + rewrite X. split; [intros [-> H]; constructor; [exact H|left; rewrite Eo; auto]|].
        intros H. apply Hinv in H. destruct H as [H [[-> _]|(y & _ & E)]]; [auto|discriminate E].
    - assert (filters_of j o c <-> o = None /\ call_or_none j c) as ->.
      { split.
        - intros H. inversion H; subst; [auto|discriminate Em].
        - intros [-> H]. constructor; assumption. }
      rewrite <- X. destruct j; try discriminate Em; reflexivity.
  Qed.

  Lemma filters_raise : forall f e, parse_filters loads f = Raise e -> e = ValueError.
  Proof.
    intros f e H. unfold parse_filters in H.
    match type of H with rbind ?a _ = _ => assert (forall e', a = Raise e' -> e' = ValueError) as Ha; [|destruct a as [j|]; cbn [rbind] in H] end.
    - destruct f as [[|c t]|]; try discriminate. destruct (loads (c :: t)); congruence.
    - match type of H with (let (_, _) := ?p in _) = _ => destruct p as [opts js] end.
      destruct opts; cbn [rbind] in H; try congruence;
        (destruct (truthy js); [|discriminate H]; destruct (parse_call_spec js) as [c|e'] eqn:E; cbn [rbind] in H; [discriminate H|];
         apply parse_call_spec_raise in E; congruence).
    - injection H as <-. auto.
  Qed.
End Filters.
