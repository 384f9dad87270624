(** * Proofs about whole fragments and xl-refs (C27, C28, C51) *)
From Coq Require Import String.
From Verif Require Import PyBase PyBase_Proofs Json Regex Regex_Proofs Coords_Model Coords_Spec Coords_Proofs
  Capture_Model Capture_Spec Parse_Model Parse_Spec Parse_Proofs Calls_Proofs.

Definition notbang (c : pychar) : bool := negb (c =? chr "!")%N.
Definition rest_of (s : pystr) (g : groups) : option groups := rmatch r_rest s g (fun _ g => Some g).
Definition bang (s : pystr) (g : groups) : option groups :=
  match s with c :: s' => if (c =? chr "!")%N then rest_of s' g else None | [] => None end.
Definition named (s : pystr) : option groups :=
  match s with
  | c :: s' => if notbang c then star notbang (fun s2 => bang s2 [("sh_name"%string, between s s2)]) s' else None
  | [] => None
  end.
Definition after_space (s : pystr) : option groups :=
  match (match named s with Some x => Some x | None => bang s [] end) with Some x => Some x | None => rest_of s [] end.

Lemma regex_eq : forall t, re_match xlref_regex t = star is_space after_space t.
Proof. reflexivity. Qed.

Lemma edge_start : forall t e, edge_text false t e -> exists c r, t = c :: r /\ (is_alpha c = true \/ c = chr "_" \/ c = chr "^").
Proof.
  assert (forall t c, cell_text false t c -> exists d r, t = d :: r /\ (is_alpha d = true \/ d = chr "_" \/ d = chr "^")) as X.
  { intros t c H. inversion H as [col row H1 H2|r c' row col E1 E2 H1 H2]; subst.
    - destruct H1 as [[Hn Ha]|[->|[->|[E _]]]]; [|exists (chr "^"), row; split; [reflexivity|auto]|exists (chr "_"), row; split; [reflexivity|auto]|discriminate E].
      destruct col as [|d col]; [contradiction|]. exists d, (col ++ row). split; [reflexivity|]. left. apply Ha. left. reflexivity.
    - exists r, (row ++ [c'] ++ col). split; [reflexivity|]. left. eapply up_alpha; [exact E1|reflexivity]. }
  intros t e H. inversion H as [t' c Hc|t' c ds mv md o Hc Hg Hs Hm]; subst.
  - eapply X. exact Hc.
  - destruct (X _ _ Hc) as (d & r & -> & Hd). exists d, (r ++ lit "(" ++ mv ++ md ++ lit ")"). auto.
Qed.

Lemma body_start : forall t f c r, body_text t f -> t = c :: r -> frag_start c = true /\ (is_space c = true -> t = [10%N]).
Proof.
  intros t f c r H E.
  assert (is_alpha c = true \/ c = chr "_" \/ c = chr "^" \/ c = chr ":" \/ (c = 10%N /\ t = [10%N])) as X.
  { assert (forall e f', tail_text e f' -> e = c :: r -> c = chr ":" \/ c = 10%N /\ e = [10%N]) as T.
    { intros e f' He -> . inversion He; subst; auto. }
    destruct H as [sh a st e fl Ha He|sh a st b nd em e fl Ha Hb He].
    - destruct st as [st|]; cbn in Ha.
      + destruct (edge_start _ _ Ha) as (d & r' & -> & Hd). injection E as -> _. tauto.
      + subst a. destruct (T _ _ He E) as [A|[A B]]; [tauto|].
        right. right. right. right. split; [exact A|exact B].
    - destruct st as [st|]; cbn in Ha.
      + destruct (edge_start _ _ Ha) as (d & r' & -> & Hd). injection E as -> _. tauto.
      + subst a. destruct Hb. injection E as <- _. tauto. }
  destruct X as [X|[->|[->|[->|[-> X]]]]].
  - split; [unfold frag_start; rewrite X; reflexivity|]. intros F. rewrite (is_alpha_not_space _ X) in F. discriminate F.
  - split; [reflexivity|discriminate].
  - split; [reflexivity|discriminate].
  - split; [reflexivity|discriminate].
  - split; [reflexivity|]. intros _. exact X.
Qed.

(** The parts read, whatever the text. *)
Lemma regex_inv : forall t x, re_match xlref_regex t = Some x ->
  exists f, accepted_text t f /\ body_groups x f (sheet_groups (f_sheet f)).
Proof.
  intros t x H. rewrite regex_eq in H. apply star_inv in H. destruct H as (sp & s & -> & Hsp & H).
  unfold after_space in H. destruct (named s) as [y|] eqn:En.
  - injection H as ->. destruct s as [|c s]; [discriminate En|]. cbn [named] in En.
    destruct (notbang c) eqn:Ec; [|discriminate En]. apply star_inv in En. destruct En as (a & b & -> & Ha & E).
    destruct b as [|d b]; [discriminate E|]. cbn [bang] in E. destruct (d =? chr "!")%N eqn:Ed; [|discriminate E].
    apply N.eqb_eq in Ed. subst d. change (c :: a ++ chr "!" :: b) with ((c :: a) ++ chr "!" :: b) in E. rewrite between_app in E.
    destruct (body_inv _ _ _ (Some (c :: a)) E) as (f & Hs & Hb & Hg). exists f. split.
    + left. apply (Ft_sheet sp (c :: a) b f Hsp); auto. split; [discriminate|]. intros z [<-|Hz]; [exact Ec|apply Ha; exact Hz].
    + rewrite Hs. exact Hg.
  - destruct (bang s []) as [y|] eqn:Eb.
    + injection H as ->. destruct s as [|d s]; [discriminate Eb|]. cbn [bang] in Eb.
      destruct (d =? chr "!")%N eqn:Ed; [|discriminate Eb]. apply N.eqb_eq in Ed. subst d.
      destruct (body_inv _ _ _ None Eb) as (f & Hs & Hb & Hg). exists f. split.
      * right. exists sp, s. auto.
      * rewrite Hs. exact Hg.
    + destruct (body_inv _ _ _ None H) as (f & Hs & Hb & Hg). exists f. split.
      * left. apply Ft_none; auto.
      * rewrite Hs. exact Hg.
Qed.

Lemma space_not_bang : forall sp, only_of is_space sp -> only_of notbang sp.
Proof.
  intros sp H c Hc. unfold notbang. destruct (c =? chr "!")%N eqn:E; [|reflexivity]. apply N.eqb_eq in E. subst c.
  specialize (H _ Hc). discriminate H.
Qed.

(** No sheet is seen in a text that does not look like having one. *)
Lemma no_sheet_seen : forall sp t, only_of is_space sp -> no_sheet_look (sp ++ t) -> named t = None /\ bang t [] = None.
Proof.
  intros sp t Hsp H. split.
  - destruct (named t) as [x|] eqn:E; [exfalso|reflexivity]. destruct t as [|c t]; [discriminate E|]. cbn [named] in E.
    destruct (notbang c) eqn:Ec; [|discriminate E]. apply star_inv in E. destruct E as (a & b & -> & Ha & E).
    destruct b as [|d b]; [discriminate E|]. cbn [bang] in E. destruct (d =? chr "!")%N eqn:Ed; [|discriminate E].
    apply N.eqb_eq in Ed. subst d. destruct (body_inv _ _ _ None E) as (f & _ & Hb & _).
    destruct (H (sp ++ c :: a) b) as (d & r & Er & Hd).
    + rewrite <- app_assoc. reflexivity.
    + apply only_app; [apply space_not_bang; exact Hsp|]. intros z [<-|Hz]; [exact Ec|apply Ha; exact Hz].
    + destruct (body_start _ _ _ _ Hb Er) as [F _]. congruence.
  - destruct (bang t []) as [x|] eqn:E; [exfalso|reflexivity]. destruct t as [|d b]; [discriminate E|]. cbn [bang] in E.
    destruct (d =? chr "!")%N eqn:Ed; [|discriminate E]. apply N.eqb_eq in Ed. subst d.
    destruct (body_inv _ _ _ None E) as (f & _ & Hb & _). destruct (H sp b) as (d & r & Er & Hd).
    + reflexivity.
    + apply space_not_bang. exact Hsp.
    + destruct (body_start _ _ _ _ Hb Er) as [F _]. congruence.
Qed.

Lemma sheetless_match : forall sp t f, only_of is_space sp -> body_text t f -> no_sheet_look (sp ++ t) ->
  exists x, re_match xlref_regex (sp ++ t) = Some x /\ body_groups x f [].
Proof.
  assert (forall sp t f, only_of is_space sp -> body_text t f -> no_sheet_look (sp ++ t) ->
    (forall c r, t = c :: r -> is_space c = false) -> exists x, re_match xlref_regex (sp ++ t) = Some x /\ body_groups x f []) as X.
  { intros sp t f Hsp Hb Hl Hs. destruct (body_match t f [] Hb) as (x & Ex & Hx). exists x. split; [|exact Hx].
    rewrite regex_eq. apply star_first; [exact Hsp|exact Hs|]. unfold after_space.
    destruct (no_sheet_seen sp t Hsp Hl) as [-> ->]. exact Ex. }
  intros sp t f Hsp Hb Hl. destruct t as [|c r]; [apply X; auto; discriminate|].
  destruct (is_space c) eqn:Ec.
  - destruct (proj2 (body_start _ _ c r Hb eq_refl) Ec).
    assert (exists sh, f = Frag sh None false None None None) as (sh & ->).
    { inversion Hb as [sh a st e fl Ha He|sh a st b nd em e fl Ha Hb' He]; subst.
      - destruct st as [st|]; cbn in Ha.
        + destruct (edge_start _ _ Ha) as (d & r' & -> & Hd). injection H as -> _. exfalso.
          destruct Hd as [Hd|[->| ->]]; [rewrite (is_alpha_not_space _ Hd) in Ec|..]; discriminate Ec.
        + subst a. cbn [app] in H. subst e. exists sh. inversion He; subst; [reflexivity|]. discriminate Ec.
      - exfalso. destruct st as [st|]; cbn in Ha.
        + destruct (edge_start _ _ Ha) as (d & r' & -> & Hd). injection H as -> _.
          destruct Hd as [Hd|[->| ->]]; [rewrite (is_alpha_not_space _ Hd) in Ec|..]; discriminate Ec.
        + subst a. inversion Hb'; subst. injection H as <- _. discriminate Ec. }
    destruct (body_start _ _ c r Hb eq_refl) as [_ E1]. specialize (E1 Ec). injection E1 as -> ->.
    destruct (X (sp ++ [10%N]) [] (Frag sh None false None None None)) as (x & Ex & Hx).
    + apply only_app; [exact Hsp|]. apply only_one. reflexivity.
    + apply (Bt_one sh [] None [] None); [reflexivity|constructor].
    + rewrite app_nil_r. exact Hl.
    + discriminate.
    + rewrite app_nil_r in Ex. eauto.
  - apply X; auto. intros c' r' E. injection E as <- _. exact Ec.
Qed.

Lemma empty_sheet_match : forall sp t f, only_of is_space sp -> body_text t f ->
  exists x, re_match xlref_regex (sp ++ lit "!" ++ t) = Some x /\ body_groups x f [].
Proof.
  intros sp t f Hsp Hb. destruct (body_match t f [] Hb) as (x & Ex & Hx). exists x. split; [|exact Hx].
  rewrite regex_eq. apply star_first; [exact Hsp| |].
  - intros c b E. injection E as <- _. reflexivity.
  - unfold after_space.
    assert (bang (lit "!" ++ t) [] = Some x) as ->; [|reflexivity].
    change (bang (chr "!" :: t) [] = Some x). cbn [bang]. rewrite N.eqb_refl. exact Ex.
Qed.

Lemma sheet_match : forall sp n t f c n', only_of is_space sp -> sheet_name n -> n = c :: n' -> is_space c = false ->
  body_text t f -> exists x, re_match xlref_regex (sp ++ n ++ lit "!" ++ t) = Some x /\ body_groups x f [("sh_name"%string, n)].
Proof.
  intros sp n t f c n' Hsp [_ Hn] -> Hc Hb. destruct (body_match t f [("sh_name"%string, c :: n')] Hb) as (x & Ex & Hx). exists x. split; [|exact Hx].
  rewrite regex_eq. apply star_first; [exact Hsp| |].
  - intros d b E. injection E as <- _. exact Hc.
  - unfold after_space.
    assert (named ((c :: n') ++ lit "!" ++ t) = Some x) as ->; [|reflexivity].
    unfold named. cbn [app]. change (notbang c) with (negb (c =? chr "!")%N). rewrite (Hn c (or_introl eq_refl)).
    apply (star_first _ notbang _ n' (lit "!" ++ t)).
    + intros d Hd. apply Hn. right. exact Hd.
    + intros d b E. injection E as <- _. reflexivity.
    + change (bang (chr "!" :: t) [("sh_name"%string, between ((c :: n') ++ chr "!" :: t) (chr "!" :: t))] = Some x).
      rewrite between_app. cbn [bang]. rewrite N.eqb_refl. exact Ex.
Qed.

Section Parse.
  Variable loads : pystr -> option json.

  Lemma print_parse : forall t f, frag_text t f -> readable t f -> parse_xlref_fragment loads t = expected loads f.
  Proof.
    intros t f H Hr. inversion H as [sp t' f' Hsp Hb Hs|sp n t' f' Hsp Hn Hb Hs]; subst; unfold readable in Hr; rewrite Hs in Hr.
    - destruct (sheetless_match sp t' f Hsp Hb Hr) as (x & Ex & Hx).
      eapply parse_outcome; [exact Ex|rewrite Hs; exact Hx|eapply body_colon; exact Hb].
    - destruct Hr as (c & n' & -> & Hc). destruct (sheet_match sp _ t' f c n' Hsp Hn eq_refl Hc Hb) as (x & Ex & Hx).
      eapply parse_outcome; [exact Ex|rewrite Hs; exact Hx|eapply body_colon; exact Hb].
  Qed.

  Lemma empty_sheet_parse : forall sp t f, only_of is_space sp -> body_text t f -> f_sheet f = None ->
    parse_xlref_fragment loads (sp ++ lit "!" ++ t) = expected loads f.
  Proof.
    intros sp t f Hsp Hb Hs. destruct (empty_sheet_match sp t f Hsp Hb) as (x & Ex & Hx).
    eapply parse_outcome; [exact Ex|rewrite Hs; exact Hx|eapply body_colon; exact Hb].
  Qed.

  Lemma accepted_body : forall t f, accepted_text t f -> exists t', body_text t' f.
  Proof.
    intros t f [H|(sp & t' & _ & _ & Hb & _)]; [|eauto]. inversion H; subst; eauto.
  Qed.

  Lemma parse_inv : forall t, (exists f, accepted_text t f /\ parse_xlref_fragment loads t = expected loads f)
    \/ parse_xlref_fragment loads t = Raise SyntaxError.
  Proof.
    intros t. destruct (re_match xlref_regex t) as [x|] eqn:E.
    - left. destruct (regex_inv t x E) as (f & Hf & Hg). exists f. split; [exact Hf|].
      destruct (accepted_body t f Hf) as (t' & Hb). eapply parse_outcome; [exact E|exact Hg|eapply body_colon; exact Hb].
    - right. unfold parse_xlref_fragment. rewrite E. reflexivity.
  Qed.

  Lemma accepted_never_refused : forall t f, accepted_text t f -> parse_xlref_fragment loads t <> Raise SyntaxError.
  Proof.
    intros t f H E. assert (re_match xlref_regex t <> None) as Hm.
    { assert (forall sp s, only_of is_space sp -> after_space s <> None -> star is_space after_space (sp ++ s) <> None) as St
        by (intros sp s Hsp Hs; apply star_complete; assumption).
      rewrite regex_eq. destruct H as [H|(sp & t' & -> & Hsp & Hb & _)].
      - inversion H as [sp t' f' Hsp Hb Hs|sp n t' f' Hsp Hn Hb Hs]; subst; apply St; try exact Hsp; unfold after_space.
        + destruct (body_match t' f [] Hb) as (x & Ex & _). destruct (named t'); [discriminate|].
          destruct (bang t' []); [discriminate|]. unfold rest_of. rewrite Ex. discriminate.
        + destruct Hn as [Hn Ho]. destruct n as [|c n']; [contradiction|].
          assert (named ((c :: n') ++ lit "!" ++ t') <> None) as Hx.
          { unfold named. cbn [app]. change (notbang c) with (negb (c =? chr "!")%N). rewrite (Ho c (or_introl eq_refl)).
            apply (star_complete _ notbang _ n' (lit "!" ++ t')).
            - intros d Hd. apply Ho. right. exact Hd.
            - change (bang (chr "!" :: t') [("sh_name"%string, between ((c :: n') ++ chr "!" :: t') (chr "!" :: t'))] <> None).
              rewrite between_app. cbn [bang]. rewrite N.eqb_refl.
              destruct (body_match t' f [("sh_name"%string, c :: n')] Hb) as (x & Ex & _). unfold rest_of. rewrite Ex. discriminate. }
          destruct (named ((c :: n') ++ lit "!" ++ t')); [discriminate|contradiction].
      - apply St; [exact Hsp|]. unfold after_space. destruct (body_match t' f [] Hb) as (x & Ex & _).
        destruct (named (lit "!" ++ t')); [discriminate|].
        assert (bang (lit "!" ++ t') [] = Some x) as ->; [|discriminate].
        change (bang (chr "!" :: t') [] = Some x). cbn [bang]. rewrite N.eqb_refl. exact Ex. }
    unfold parse_xlref_fragment in E. destruct (re_match xlref_regex t) as [x|] eqn:Ex; [|contradiction].
    destruct (regex_inv t x Ex) as (f' & Hf & Hg). destruct (accepted_body t f' Hf) as (t' & Hb).
    pose proof (parse_outcome loads t x f' Ex Hg (body_colon _ _ Hb)) as P. unfold parse_xlref_fragment in P. rewrite Ex in P.
    rewrite P in E. unfold expected in E. destruct (parse_filters loads (f_filt f')) as [[o c]|e] eqn:Ef; cbn [rbind] in E; [discriminate|].
    apply filters_raise in Ef. congruence.
  Qed.
End Parse.

(** ** Edges of accepted texts *)

Lemma number_int : forall s, number_text s -> exists z, py_int s = Some z /\ (0 < z)%Z /\ py_int (45%N :: s) = Some (- z)%Z.
Proof.
  intros s H. destruct (number_digits s H) as [Hn Ho]. assert (forallb is_digit s = true) as Hd by (apply forallb_forall; exact Ho).
  exists (digits_val 0 s). rewrite (py_int_digits s Hn Hd), (py_int_neg_digits s Hn Hd). split; [reflexivity|]. split; [|reflexivity].
  destruct H as (d & t & -> & Hr & Ht). clear Hn Ho Hd.
  assert (forall t acc, (0 < acc)%Z -> only_of is_digit t -> (0 < digits_val acc t)%Z) as X.
  { clear. induction t as [|c t IH]; intros acc Ha Ho; [exact Ha|]. cbn [digits_val]. apply IH.
    - pose proof (Ho c (or_introl eq_refl)) as Hc. unfold is_digit in Hc. apply andb_true_iff in Hc. destruct Hc as [A B].
      apply N.leb_le in A. unfold digit_val. lia.
    - intros x Hx. apply Ho. right. exact Hx. }
  change (0 < digits_val (0 * 10 + digit_val d) t)%Z. apply X; [|exact Ht]. unfold digit_val. lia.
Qed.

Lemma number_denotes : forall s first last base, number_text s -> exists z, denotes first last base (CStr s) z.
Proof. intros s first last base H. destruct (number_int s H) as (z & E & Hz & _). exists (z - 1)%Z. apply Dn_pos; assumption. Qed.
Lemma symbol_denotes : forall dot s first last base, symbol_text dot s -> (s = lit "." -> base <> None) -> exists z, denotes first last base (CStr s) z.
Proof.
  intros dot s first last base [->|[->|[_ ->]]] Hb; [eexists; apply Dn_first|eexists; apply Dn_last|].
  destruct base as [b|]; [exists b; apply Dn_base; reflexivity|]. destruct (Hb eq_refl eq_refl).
Qed.
Lemma rc_denotes : forall s first last base, rc_text s -> (s = lit "." -> base <> None) -> exists z, denotes first last base (CStr s) z.
Proof.
  intros s first last base [H|[(t & -> & H)|H]] Hb; [apply number_denotes; exact H| |eapply symbol_denotes; eassumption].
  destruct (number_int t H) as (z & _ & Hz & E). exists (last - (z - 1))%Z. apply Dn_neg; assumption.
Qed.

Lemma cell_resolves : forall dot t c u d base, cell_text dot t c ->
  (c_row c = CStr (lit ".") \/ c_col c = CStr (lit ".") -> base <> None) ->
  exists p, resolve_cell c u d base = Ok p.
Proof.
  intros dot t c u d base H Hb.
  assert (forall x, base <> None -> option_map (B := Z) x base <> None) as Ho by (intros x Hn; destruct base; [discriminate|contradiction]).
  inversion H as [col row H1 H2|r k row col E1 E2 H1 H2]; subst; cbn [c_row c_col] in Hb.
  - assert (exists z, denotes (fst u) (fst d) (option_map fst base) (CStr row) z) as (z & Hz).
    { destruct H2 as [H2|H2]; [apply number_denotes; exact H2|]. eapply symbol_denotes; [exact H2|].
      intros E. apply Ho, Hb. left. congruence. }
    assert (exists k, denotes_col (snd u) (snd d) (option_map snd base) (CStr (upper col)) k) as (k & Hk).
    { destruct H1 as [H1|H1].
      - destruct (letters_one_column col H1) as (n & _ & Hn & _). exists (Z.of_nat n). apply Dc_name; [|rewrite upper_upper; exact Hn].
        destruct (names_letters _ _ Hn) as [A B]. exact A.
      - assert (upper col = col) as -> by (apply upper_nonletters; eapply symbol_nonalpha; exact H1).
        destruct (symbol_denotes dot col (snd u) (snd d) (option_map snd base) H1) as (k & Hk); [|exists k; apply Dc_same; exact Hk].
        intros E. apply Ho, Hb. right. subst. reflexivity. }
    exists (z, k). apply resolve_cell_spec; [|auto]. cbn [c_col]. intros E.
    assert (col <> []) as Hn by (eapply col_nonempty; exact H1). destruct col; [contradiction|discriminate E].
  - destruct (rc_denotes row (fst u) (fst d) (option_map fst base) H1) as (z & Hz); [intros ->; apply Ho, Hb; auto|].
    destruct (rc_denotes col (snd u) (snd d) (option_map snd base) H2) as (k' & Hk); [intros ->; apply Ho, Hb; auto|].
    exists (z, k'). apply resolve_cell_spec; [|split; [exact Hz|apply Dc_same; exact Hk]]. cbn [c_col]. intros E. injection E as ->.
    destruct (rc_nonalpha _ H2) as [Hn _]. contradiction.
Qed.

Lemma edge_good : forall dot t e, edge_text dot t e -> good_edge e /\ good_mod (mod_ e)
  /\ forall u d base, (c_row (land e) = CStr (lit ".") \/ c_col (land e) = CStr (lit ".") -> base <> None) ->
     exists p, resolve_cell (land e) u d base = Ok p.
Proof.
  intros dot t e H. inversion H as [t' c Hc|t' c ds mv md o Hc Hg Hs Hm]; subst; cbn [land mod_].
  - split; [left; reflexivity|]. split; [left; reflexivity|]. intros u d base Hb. eapply cell_resolves; eassumption.
  - split; [right; exists ds; auto|]. split; [|intros u d base Hb; eapply cell_resolves; eassumption].
    destruct Hm as [[-> _]|[-> [-> | ->]]]; unfold good_mod; auto.
Qed.

Lemma meant_edges : forall t f e, body_text t f -> meant_st f = Some e \/ meant_nd f = Some e ->
  exists dot t', edge_text dot t' e.
Proof.
  assert (edge_text false (lit "^^") top_left) as Ht.
  { constructor. apply (Ct_a1 false (lit "^") (lit "^")); right; left; reflexivity. }
  assert (edge_text false (lit "__") bottom_right) as Hb.
  { constructor. apply (Ct_a1 false (lit "_") (lit "_")); right; right; left; reflexivity. }
  intros t f e H He. inversion H as [sh a st x fl Ha Hx|sh a st b nd em x fl Ha Hb' Hx]; subst;
    unfold meant_st, meant_nd in He; cbn [f_st f_nd f_colon] in He.
  - destruct st as [st|]; cbn in Ha.
    + destruct He as [He|He]; [injection He as <-; eauto|discriminate He].
    + destruct He as [He|He]; injection He as <-; eauto.
  - inversion Hb' as [t' nd' u em' Hn Hu]; subst. destruct He as [He|He].
    + destruct st as [st|]; cbn in Ha; injection He as <-; eauto.
    + destruct nd as [nd|]; cbn in Hn; injection He as <-; eauto.
Qed.

(** ** Encased xl-refs *)

Lemma star_deep : forall X f (k : pystr -> option X) a b x, only_of f a -> star f k b = Some x -> star f k (a ++ b) = Some x.
Proof.
  induction a as [|c a IH]; intros b x Ha H; [exact H|]. cbn [app star]. rewrite (Ha c (or_introl eq_refl)).
  rewrite (IH b x); [reflexivity| |exact H]. intros d Hd. apply Ha. right. exact Hd.
Qed.

Definition encase_k (q : pychar) (s0 : pystr) (s : pystr) : option groups :=
  if starts_with [q] s then star is_space (fun s' => if at_end s' then Some [("content"%string, between s0 s); ("q"%string, [q])] else None) (skipn 1 s) else None.

Lemma encase_eq : forall t, re_match encase_regex t =
  star is_space (fun s => match s with
    | q :: s1 => if in_class (lit "/\" ++ [34%N] ++ lit "$%&") q then
        match s1 with _ :: s2 => star (fun _ => true) (fun s3 =>
          match group "q" [("content"%string, between s1 s3); ("q"%string, between s s1)] with
          | Some t => if starts_with t s3 then star is_space (fun s' => if at_end s' then Some [("content"%string, between s1 s3); ("q"%string, between s s1)] else None) (skipn (length t) s3) else None
          | None => None end) s2
        | [] => None end
      else None
    | [] => None end) t.
Proof. reflexivity. Qed.

Lemma delimiter_facts : forall q, delimiter q -> is_space q = false /\ in_class (lit "/\" ++ [34%N] ++ lit "$%&") q = true
  /\ edge_char q = false /\ exp_char q = false /\ q <> chr "!" /\ q <> chr ":" /\ q <> 10%N
  /\ (filter_start q = true -> q = 34%N).
Proof.
  intros q H. cbn in H. repeat (destruct H as [<-|H]; [repeat split; try reflexivity; discriminate|]). destruct H.
Qed.

Lemma between_head : forall q (s : pystr), between (q :: s) s = [q].
Proof. intros q s. apply (between_app [q] s). Qed.

Lemma encase_match : forall sp q c x sp2, only_of is_space sp -> delimiter q -> only_of is_space sp2 ->
  re_match encase_regex (sp ++ [q] ++ (c :: x) ++ [q] ++ sp2) = Some [("content"%string, c :: x); ("q"%string, [q])].
Proof.
  intros sp q c x sp2 Hsp Hq Hsp2. destruct (delimiter_facts q Hq) as (Hs & Hc & _). rewrite encase_eq.
  apply star_first; [exact Hsp| |].
  - intros d b E. injection E as <- _. exact Hs.
  - change ([q] ++ (c :: x) ++ [q] ++ sp2) with (q :: c :: x ++ q :: sp2). cbv iota. rewrite Hc, between_head.
    assert (forall b, group "q" [("content"%string, b); ("q"%string, [q])] = Some [q]) as G by reflexivity.
    apply star_deep; [intros ? _; reflexivity|]. cbn [star].
    match goal with |- match star _ ?k sp2 with _ => _ end = _ => assert (star (fun _ => true) k sp2 = None) as -> end.
    + apply star_none. intros a b E _. rewrite G. destruct b as [|d b]; [reflexivity|].
      assert (starts_with [q] (d :: b) = false) as ->; [|reflexivity].
      unfold starts_with. cbn [length firstn]. destruct (str_eqb [q] [d]) eqn:F; [|reflexivity].
      apply str_eqb_eq in F. injection F as <-. assert (is_space q = true) as A; [|congruence].
      apply Hsp2. rewrite E. apply in_or_app. right. left. reflexivity.
    + rewrite G. assert (starts_with [q] (q :: sp2) = true) as ->.
      { unfold starts_with. cbn [length firstn]. apply str_eqb_eq. reflexivity. }
      cbn [length skipn]. rewrite <- (app_nil_r sp2) at 1. erewrite star_first; [reflexivity|exact Hsp2|discriminate|].
      cbn [at_end]. change (c :: x ++ q :: sp2) with ((c :: x) ++ q :: sp2). rewrite between_app. reflexivity.
Qed.

(** A text that ends with a delimiter can only be accepted with filters. *)
Lemma delimiter_at_end : forall t q f, delimiter q -> accepted_text (t ++ [q]) f -> f_filt f <> None.
Proof.
  intros t q f Hq H Hf. destruct (delimiter_facts q Hq) as (Hs & _ & He & Hx & Hb & Hc & Hl & _).
  assert (forall s, In q s -> only_of edge_char s -> False) as Xe.
  { intros s Hi Ho. rewrite (Ho q Hi) in He. discriminate He. }
  assert (forall b, body_text b f -> b = [] \/ exists b' z, b = b' ++ [z] /\ z <> q) as X.
  { intros b Hbt. destruct b as [|b0 b] using rev_ind; [left; reflexivity|]. right. exists b, b0. split; [reflexivity|]. clear IHb.
    intros ->. assert (In q (b ++ [q])) as Hi by (apply in_or_app; right; left; reflexivity).
    assert (forall a st, opt_text (edge_text false) a st -> In q a -> False) as X1.
    { intros a st Ha Hin. exact (Xe a Hin (proj1 (opt_edge_chars _ _ _ Ha))). }
    assert (forall e, tail_text e None -> In q e -> False) as X2.
    { intros e H0 Hin. inversion H0; subst; [destruct Hin|]. destruct Hin as [E|[]]. congruence. }
    inversion Hbt as [sh a st e fl Ha Ht E1 E2|sh a st bb nd em e fl Ha Hb' Ht E1 E2]; subst f; cbn [f_filt] in Hf; subst fl; rewrite <- E1 in Hi.
    - apply in_app_or in Hi. destruct Hi as [Hi|Hi]; [exact (X1 _ _ Ha Hi)|exact (X2 _ Ht Hi)].
    - apply in_app_or in Hi. destruct Hi as [Hi|Hi]; [exact (X1 _ _ Ha Hi)|]. apply in_app_or in Hi.
      destruct Hi as [Hi|Hi]; [|exact (X2 _ Ht Hi)]. inversion Hb' as [t' nd' u em' Hn Hu]; subst.
      apply in_app_or in Hi. destruct Hi as [[Hi|[]]|Hi]; [apply Hc; symmetry; exact Hi|]. apply in_app_or in Hi. destruct Hi as [Hi|Hi].
      + exact (Xe t' Hi (proj1 (opt_edge_chars _ _ _ Hn))).
      + destruct em as [m|]; cbn in Hu; [|subst; destruct Hi]. destruct Hu as (-> & _ & Hm).
        apply in_app_or in Hi. destruct Hi as [[Hi|[]]|Hi]; [apply Hc; symmetry; exact Hi|]. rewrite (Hm q Hi) in Hx. discriminate Hx. }
  assert (forall a b, body_text b f -> t ++ [q] = a ++ b -> exists a', a = a' ++ [q]) as Y.
  { intros a b Hbt E. destruct (X b Hbt) as [->|(b' & z & -> & Hz)].
    - rewrite app_nil_r in E. exists t. symmetry. exact E.
    - rewrite app_assoc in E. apply app_inj_tail in E. destruct E as [_ E]. congruence. }
  assert (forall sp a, only_of is_space sp -> sp = a ++ [q] -> False) as Z.
  { intros sp a Hsp ->. assert (is_space q = true) as A; [|congruence]. apply Hsp. apply in_or_app. right. left. reflexivity. }
  assert (forall u a, u ++ lit "!" = a ++ [q] -> False) as W.
  { intros u a E. apply app_inj_tail in E. apply Hb. symmetry. apply E. }
  destruct H as [H|(sp & t' & E & Hsp & Hbt & _)].
  - inversion H as [sp t' f' Hsp Hbt Hsh E1 E2|sp n t' f' Hsp Hn Hbt Hsh E1 E2]; subst f'.
    + destruct (Y sp t' Hbt (eq_sym E1)) as (a & E). exact (Z sp a Hsp E).
    + destruct (Y (sp ++ n ++ lit "!") t' Hbt) as (a & E); [rewrite <- E1, <- !app_assoc; reflexivity|].
      rewrite app_assoc in E. exact (W _ _ E).
  - destruct (Y (sp ++ lit "!") t' Hbt) as (a & E'); [rewrite E, <- app_assoc; reflexivity|]. exact (W _ _ E').
Qed.

Lemma filter_in_text : forall t f g, accepted_text t f -> f_filt f = Some g ->
  exists a sp c r, t = a ++ lit ":" ++ sp ++ c :: r /\ only_of is_space sp /\ filter_start c = true.
Proof.
  intros t f g H Hf.
  assert (forall b, body_text b f -> exists a sp c r, b = a ++ lit ":" ++ sp ++ c :: r /\ only_of is_space sp /\ filter_start c = true) as X.
  { intros b Hb. inversion Hb as [sh a st e fl Ha Ht|sh a st bb nd em e fl Ha Hb' Ht]; subst; cbn [f_filt] in Hf; subst fl; inversion Ht; subst.
    - exists a, sp, c, t0. auto.
    - exists (a ++ bb), sp, c, t0. rewrite <- app_assoc. auto. }
  destruct H as [H|(sp & t' & -> & Hsp & Hbt & _)].
  - inversion H as [sp t' f' Hsp Hbt Hsh|sp n t' f' Hsp Hn Hbt Hsh]; subst;
      destruct (X _ Hbt) as (a & sp' & c & r & -> & H1 & H2).
    + exists (sp ++ a), sp', c, r. rewrite <- app_assoc. auto.
    + exists (sp ++ n ++ lit "!" ++ a), sp', c, r. rewrite <- !app_assoc. auto.
  - destruct (X _ Hbt) as (a & sp' & c & r & -> & H1 & H2). exists (sp ++ lit "!" ++ a), sp', c, r. rewrite <- !app_assoc. auto.
Qed.

Lemma translate_app : forall a b, translate (a ++ b) = translate a ++ translate b.
Proof. intros. apply map_app. Qed.
Lemma translate_delim : forall q, delimiter q -> translate [q] = [q].
Proof. intros q H. cbn in H. repeat (destruct H as [<-|H]; [reflexivity|]). destruct H. Qed.

(** ** Coordinates written out *)

Lemma dec_fuel_number : forall f n acc, (n < 2 ^ N.of_nat f)%N -> (0 < n)%N -> only_of is_digit acc -> number_text (dec_fuel f n acc).
Proof.
  induction f as [|f IH]; intros n acc Hn Hp Ho; [cbn in Hn; lia|]. cbn [dec_fuel].
  pose proof (N.mod_upper_bound n 10 ltac:(lia)) as Hm. pose proof (N.div_mod n 10 ltac:(lia)) as Hd.
  set (m := (n mod 10)%N) in *. set (k := (n / 10)%N) in *. clearbody m.
  destruct (N.eqb_spec k 0) as [E|E].
  - exists (48 + m)%N, acc. split; [reflexivity|]. split; [lia|exact Ho].
  - apply IH; [|lia|].
    + rewrite Nat2N.inj_succ, N.pow_succ_r' in Hn. lia.
    + intros c [<-|Hc]; [|auto]. unfold is_digit. apply andb_true_iff. split; apply N.leb_le; lia.
Qed.

Lemma str_of_Z_number : forall z, (0 < z)%Z -> number_text (str_of_Z z).
Proof.
  intros z Hz. unfold str_of_Z. destruct (Z.ltb_spec z 0); [lia|]. apply dec_fuel_number; [apply N_size_nat_bound|lia|intros ? []].
Qed.

Section Coordinates.
  Variable loads : pystr -> option json.

  Lemma no_bang_look : forall t, only_of edge_char t -> no_sheet_look t.
  Proof.
    intros t Ho a b -> _. assert (edge_char (chr "!") = true) as F; [|discriminate F].
    apply Ho. apply in_or_app. right. left. reflexivity.
  Qed.

  Lemma one_edge_parse : forall t e, edge_text false t e ->
    parse_xlref_fragment loads t = Ok (Parsed None (Some e) None None None None).
  Proof.
    intros t e H. rewrite (print_parse loads t (Frag None (Some e) false None None None)).
    - reflexivity.
    - apply (Ft_none []); [intros ? []| |reflexivity]. rewrite <- (app_nil_r t). apply Bt_one; [exact H|constructor].
    - apply no_bang_look. apply (edge_chars _ _ _ H).
  Qed.

  Lemma a1_parse : forall r k, (0 <= r)%Z -> (0 <= k)%Z ->
    parse_xlref_fragment loads (colname (Z.to_N k) ++ str_of_Z (r + 1))
    = Ok (Parsed None (Some (Edge (Cell (CStr (str_of_Z (r + 1))) (CStr (colname (Z.to_N k)))) None None)) None None None None).
  Proof.
    intros r k Hr Hk. destruct (names_letters _ _ (colname_names (Z.to_N k))) as [Hl Hu].
    rewrite <- Hu at 2. apply one_edge_parse. constructor. apply (Ct_a1 false); [left; exact Hl|]. left. apply str_of_Z_number. lia.
  Qed.

  Lemma rc_parse : forall r k, (0 <= r)%Z -> (0 <= k)%Z ->
    parse_xlref_fragment loads (lit "R" ++ str_of_Z (r + 1) ++ lit "C" ++ str_of_Z (k + 1))
    = Ok (Parsed None (Some (Edge (Cell (CStr (str_of_Z (r + 1))) (CStr (str_of_Z (k + 1)))) None None)) None None None None).
  Proof.
    intros r k Hr Hk. apply one_edge_parse. constructor.
    apply (Ct_rc false (chr "R") (chr "C")); try reflexivity; left; apply str_of_Z_number; lia.
  Qed.
End Coordinates.
