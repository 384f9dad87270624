(** * Properties C47, C48, C53 and C60-C63: utilities *)
From Coq Require Import String.
From Verif Require Import PyBase PyBase_Proofs Regex Regex_Proofs Utils_Model Utils_Spec Utils_Proofs Units_Proofs Texts_Proofs.

(** ** C47 *)

(** Exactly when the name is left alone, and what is added otherwise. *)
Theorem C47_what_is_ensured : forall fname ext exts, fname <> [] -> ext <> [] -> exists r, ensure_file_ext fname ext exts = Ok r
  /\ ((r = fname /\ exists st fe e, extension fname st fe /\ In e (ext :: exts) /\ ends_nocase fe e)
      \/ ((forall st fe e, extension fname st fe -> In e (ext :: exts) -> ~ ends_nocase fe e)
          /\ exists st e, cut_dot fname st /\ undotted ext e /\ r = st ++ lit "." ++ e)).
Proof.
  intros fname ext exts Hf He. destruct (ensure_cases fname ext exts) as [(st & fe & e & Hs & Hi & Hw & E)|[Hn E]].
  - exists fname. split; [exact E|]. left. split; [reflexivity|]. exists st, fe, e. auto.
  - assert (exists st, cut_dot fname st) as (st & Hs).
    { destruct fname as [|c f] using rev_ind; [contradiction|]. destruct (N.eq_dec c (chr ".")) as [->|Hc].
      - exists f. left. reflexivity.
      - exists (f ++ [c]). right. split; [reflexivity|]. intros a Ha. apply app_last_inj in Ha. apply Hc. apply Ha. }
    assert (exists x, undotted ext x) as (x & Hx).
    { destruct ext as [|c x]; [contradiction|]. destruct (N.eq_dec c (chr ".")) as [->|Hc].
      - exists x. left. reflexivity.
      - exists (c :: x). right. split; [reflexivity|]. intros a Ha. apply Hc. injection Ha as -> _. reflexivity. }
    exists (st ++ lit "." ++ x). split; [rewrite E; apply add_ext_spec; eauto 7|]. right. eauto 7.
Qed.
Print Assumptions C47_what_is_ensured.

Theorem C47_ends_and_prefix : forall fname ext exts r, ensure_file_ext fname ext exts = Ok r ->
  (exists e, In e (ext :: exts) /\ ends_nocase r e) /\ (exists st x, cut_dot fname st /\ r = st ++ x).
Proof.
  intros fname ext exts r H. destruct (ensure_cases fname ext exts) as [(st & fe & e & Hs & Hi & (a & b & Ew & Hw) & E)|[Hn E]].
  - rewrite E in H. injection H as <-. split.
    + exists e. split; [exact Hi|].
      exists (st ++ a), b. split; [|exact Hw]. rewrite <- app_assoc, <- Ew.
      destruct (splitext_spec fname st fe (splitext_complete _ _ _ Hs)) as [_ X]. exact X.
    + destruct fname as [|c f] using rev_ind; [exists [], []; split; [right; split; [reflexivity|intros [|? ?] F; discriminate F]|reflexivity]|].
      destruct (N.eq_dec c (chr ".")) as [->|Hc].
      * exists f, (lit "."). split; [left; reflexivity|reflexivity].
      * exists (f ++ [c]), []. split; [|rewrite app_nil_r; reflexivity]. right. split; [reflexivity|]. intros x Hx. apply app_last_inj in Hx. apply Hc. apply Hx.
  - rewrite E in H. apply add_ext_spec in H. destruct H as (_ & _ & st & e & Hs & He & ->). split.
    + exists ext. split; [left; reflexivity|]. destruct (added_ends _ _ He) as (a & b & Ea & Hb). rewrite Ea. exists (st ++ a), b.
      split; [apply app_assoc|exact Hb].
    + exists st, (lit "." ++ e). auto.
Qed.
Print Assumptions C47_ends_and_prefix.

(** Names that have an extension stay. *)
Theorem C47_kept : forall st x e ext exts, named_step st -> In e (ext :: exts) -> same_nocase x e \/ same_nocase x (lit "." ++ e) ->
  (exists y, x = lit "." ++ y /\ ~ In (chr ".") y /\ ~ In (chr "/") y) -> 
  ensure_file_ext (st ++ x) ext exts = Ok (st ++ x).
Proof.
  intros st x e ext exts Hn Hi Hx (y & -> & H1 & H2).
  destruct (ensure_cases (st ++ lit "." ++ y) ext exts) as [(_ & _ & _ & _ & _ & _ & E)|[F _]]; [exact E|exfalso].
  apply (F st (lit "." ++ y) e (Ex_some st y Hn H1 H2) Hi). destruct Hx as [Hx|Hx].
  - exists [], (lit "." ++ y). auto.
  - exists (lit "."), y. split; [reflexivity|]. unfold same_nocase in *. rewrite !lower_app in Hx. apply app_inv_head in Hx. exact Hx.
Qed.
Print Assumptions C47_kept.

Theorem C47_idempotent : forall fname ext exts r, named_step fname -> one_part ext ->
  ensure_file_ext fname ext exts = Ok r -> ensure_file_ext r ext exts = Ok r.
Proof.
  intros fname ext exts r Hn (e0 & He0 & H1 & H2) H. destruct (ensure_cases fname ext exts) as [(st & fe & e & Hs & Hi & Hw & E)|[_ E]].
  - rewrite E in H. injection H as <-. exact E.
  - rewrite E in H. apply add_ext_spec in H. destruct H as (_ & _ & st & e & Hs & He & ->).
    assert (~ In (chr ".") e /\ ~ In (chr "/") e) as [H1' H2'].
    { destruct He as [->|[-> Hx]].
      - destruct He0 as [E0|E0]; [|injection E0 as ->; auto]. subst e0. destruct H1. left. reflexivity.
      - destruct He0 as [->| ->]; [auto|]. destruct (Hx e0 eq_refl). }
    apply (C47_kept st (lit "." ++ e) ext ext exts).
    + exact (cut_named _ _ Hn Hs).
    + left. reflexivity.
    + destruct He as [->|[-> _]]; [left|right]; reflexivity.
    + exists e. auto.
Qed.
Print Assumptions C47_idempotent.

Theorem C47_idempotent_refuted :
  (exists fname ext r r', ensure_file_ext fname ext [] = Ok r /\ ensure_file_ext r ext [] = Ok r' /\ r <> r' /\ named_step fname /\ ext = lit "tar.gz")
  /\ (exists fname ext r r', ensure_file_ext fname ext [] = Ok r /\ ensure_file_ext r ext [] = Ok r' /\ r <> r' /\ one_part ext /\ fname = lit "dir/").
Proof.
  split.
  - exists (lit "a"), (lit "tar.gz"), (lit "a.tar.gz"), (lit "a.tar.gz.tar.gz"). repeat split; try (vm_compute; reflexivity); [discriminate|].
    exists [], (lit "a"), (chr "a"). repeat split; auto; [intros [F|[]]; discriminate F|left; reflexivity|discriminate].
  - exists (lit "dir/"), (lit "x"), (lit "dir/.x"), (lit "dir/.x.x"). repeat split; try (vm_compute; reflexivity); [discriminate|].
    exists (lit "x"). repeat split; [left; reflexivity|intros [F|[]]; discriminate F|intros [F|[]]; discriminate F].
Qed.
Print Assumptions C47_idempotent_refuted.

(** The last letters of an extension are mistaken for the extension. *)
Theorem C47_other_extension_refuted : exists fname ext, ensure_file_ext fname ext [] = Ok fname
  /\ fname = lit "foo.xbar" /\ ext = lit "bar".
Proof. exists (lit "foo.xbar"), (lit "bar"). repeat split. Qed.
Print Assumptions C47_other_extension_refuted.

(** Regexes: the 1st extension needs its dot. *)
Theorem C47_regex_idempotent : forall fname ext exts r, named_step fname -> one_part ext -> (exists e, ext = lit "." ++ e) ->
  ensure_file_ext_regex fname ext exts = Ok r -> ensure_file_ext_regex r ext exts = Ok r.
Proof.
  intros fname ext exts r Hn (e0 & He0 & H1 & H2) (e1 & He1) H. unfold ensure_file_ext_regex in H.
  destruct (same_ext ext (snd (splitext fname)) || existsb (fun e => e (snd (splitext fname))) exts) eqn:E.
  - injection H as <-. unfold ensure_file_ext_regex. rewrite E. reflexivity.
  - apply add_ext_spec in H. destruct H as (_ & _ & st & e & Hs & He & ->).
    assert (e = e1) as -> by (destruct He as [He|[_ He]]; [rewrite He1 in He; injection He as ->; reflexivity|destruct (He e1 He1)]).
    assert (e0 = e1) as <-.
    { destruct He0 as [E0|E0]; rewrite E0 in He1; [rewrite He1 in H1; destruct H1; left; reflexivity|injection He1 as ->; reflexivity]. }
    unfold ensure_file_ext_regex. rewrite (splitext_complete _ _ _ (Ex_some st e0 (cut_named _ _ Hn Hs) H1 H2)). cbn [snd].
    unfold same_ext. rewrite He1, str_eqb_refl. reflexivity.
Qed.
Print Assumptions C47_regex_idempotent.

(** Regexes: exactly when the name is left alone, and what is added otherwise. *)
Theorem C47_regex_what_is_ensured : forall fname ext exts st fe, fname <> [] -> ext <> [] -> extension fname st fe ->
  ((same_nocase fe ext \/ same_nocase fe (ext ++ [10%N]) \/ exists e, In e exts /\ e fe = true) -> ensure_file_ext_regex fname ext exts = Ok fname)
  /\ (~ (same_nocase fe ext \/ same_nocase fe (ext ++ [10%N]) \/ exists e, In e exts /\ e fe = true) ->
      exists n e, cut_dot fname n /\ undotted ext e /\ ensure_file_ext_regex fname ext exts = Ok (n ++ lit "." ++ e)).
Proof.
  intros fname ext exts st fe Hf He Hx. unfold ensure_file_ext_regex. rewrite (splitext_complete _ _ _ Hx). cbn [snd]. unfold same_nocase.
  assert (same_ext ext fe || existsb (fun e => e fe) exts = true <-> (lower fe = lower ext \/ lower fe = lower (ext ++ [10%N]) \/ exists e, In e exts /\ e fe = true)) as X.
  { unfold same_ext. rewrite lower_app, !orb_true_iff, existsb_exists, !str_eqb_eq. change (lower [10%N]) with [10%N]. tauto. }
  rewrite <- X. clear X. destruct (same_ext ext fe || existsb (fun e => e fe) exts).
  - split; [reflexivity|intros F; destruct F; reflexivity].
  - split; [discriminate|]. intros _. destruct (C47_what_is_ensured fname ext [] Hf He) as (r & E & _).
    assert (exists r, add_ext fname ext = Ok r) as (r' & Hr).
    { unfold add_ext. destruct (rev fname) as [|c l] eqn:Er; [|destruct ext; [contradiction|eauto]].
      apply (f_equal (@rev N)) in Er. rewrite rev_involutive in Er. contradiction. }
    pose proof Hr as Hr'. apply add_ext_spec in Hr'. destruct Hr' as (_ & _ & n & e & H1 & H2 & ->). exists n, e. auto.
Qed.
Print Assumptions C47_regex_what_is_ensured.

Theorem C47_regex_refuted : exists fname ext r r', ensure_file_ext_regex fname ext [] = Ok r /\ ensure_file_ext_regex r ext [] = Ok r' /\ r <> r'
  /\ named_step fname /\ ext = lit "bar".
Proof.
  exists (lit "foo"), (lit "bar"), (lit "foo.bar"), (lit "foo.bar.bar"). repeat split; try (vm_compute; reflexivity); [discriminate|].
  exists [], (lit "foo"), (chr "f"). repeat split; auto; [intros F; repeat destruct F as [F|F]; discriminate F || destruct F|left; reflexivity|discriminate].
Qed.
Print Assumptions C47_regex_refuted.

Theorem C47_empty_names : forall fname ext exts, fname = [] -> (forall e, In e (ext :: exts) -> e <> []) -> ensure_file_ext fname ext exts = Raise IndexError.
Proof.
  intros fname ext exts -> H. unfold ensure_file_ext. cbn [splitext rev span snd lower map].
  destruct (existsb _ (ext :: exts)) eqn:E; [|reflexivity]. apply existsb_exists in E. destruct E as (e & Hi & Hw).
  apply ends_with_spec in Hw. destruct Hw as (a & Ha). symmetry in Ha. apply app_eq_nil in Ha. destruct Ha as [_ Ha].
  destruct e; [destruct (H [] Hi eq_refl)|discriminate Ha].
Qed.
Print Assumptions C47_empty_names.

Example C47_example :
  ensure_file_ext (lit "dir.x/foo.") (lit "bar") [] = Ok (lit "dir.x/foo.bar")
  /\ ensure_file_ext (lit "foo.BAR") (lit ".bar") [] = Ok (lit "foo.BAR")
  /\ ensure_file_ext (lit "foo.xlt") (lit ".xlsx") [lit ".XLT"] = Ok (lit "foo.xlt")
  /\ ensure_file_ext (lit ".bar") (lit ".bar") [] = Ok (lit ".bar.bar")
  /\ named_step (lit "a/.b") /\ splitext (lit "a.b/c") = (lit "a.b/c", []).
Proof.
  repeat split. exists (lit "a/"), (lit ".b"), (chr "b").
  repeat split; [right; exists (lit "a"); reflexivity|intros [F|[F|[]]]; discriminate F|right; left; reflexivity|discriminate].
Qed.

(** ** C48 *)

Theorem C48_first_free_name : forall file_exists fuel fname filegen r, make_unique_filename file_exists fuel fname filegen = Ok r ->
  file_exists r = false /\ exists n, candidate fname n r /\ forall m c, (m < n)%N -> candidate fname m c -> file_exists c = true.
Proof.
  intros file_exists fuel fname filegen r H. apply unique_from_spec in H. destruct H as (Hr & n & _ & -> & Hm). split; [exact Hr|].
  exists n. split; [apply filename_candidate|]. intros m c Hlt Hc. rewrite (candidate_fun _ _ _ Hc). apply Hm. lia.
Qed.
Print Assumptions C48_first_free_name.

Theorem C48_terminates : forall file_exists files fuel fname filegen, (forall f, file_exists f = true -> In f files) ->
  (length files < fuel)%nat -> exists r, make_unique_filename file_exists fuel fname filegen = Ok r.
Proof.
  intros file_exists files fuel fname filegen Hf Hl. unfold make_unique_filename.
  destruct (unique_from file_exists fuel fname 0) as [r|x] eqn:E; [eauto|exfalso]. apply unique_from_raise in E. destruct E as [_ E].
  assert (fuel <= length files)%nat; [|lia]. apply (names_bound files fname). intros m Hm. apply Hf. apply E. lia.
Qed.
Print Assumptions C48_terminates.

Theorem C48_distinct_names : forall fname n m c, candidate fname n c -> candidate fname m c -> n = m.
Proof. intros fname n m c H H'. apply candidate_fun in H, H'. apply (filename_inj fname). congruence. Qed.
Print Assumptions C48_distinct_names.

(** The generator given is ignored. *)
Theorem C48_generator_refuted : exists file_exists fname filegen r, make_unique_filename file_exists 3 fname filegen = Ok r
  /\ forall i, filegen fname i <> r.
Proof.
  exists (fun f => str_eqb f (lit "a.x")), (lit "a.x"), (fun f i => lit "b"), (lit "a1.x"). split; [vm_compute; reflexivity|]. intros i F. discriminate F.
Qed.
Print Assumptions C48_generator_refuted.

Example C48_example : make_unique_filename (fun f => existsb (str_eqb f) [lit "d.d/f.tar.gz"; lit "d.d/f.tar1.gz"; lit "d.d/f.tar3.gz"]) 9
  (lit "d.d/f.tar.gz") (fun f _ => f) = Ok (lit "d.d/f.tar2.gz").
Proof. vm_compute. reflexivity. Qed.

(** ** C53 *)

Theorem C53_labels : forall s n u, parse_value_with_units s = Some (n, u) <-> labelled s n u.
Proof. exact units_iff. Qed.
Print Assumptions C53_labels.

Theorem C53_not_labels : forall s, parse_value_with_units s = None <-> forall n u, ~ labelled s n u.
Proof.
  intros s. split.
  - intros E n u H. apply units_iff in H. congruence.
  - intros H. destruct (parse_value_with_units s) as [[n u]|] eqn:E; [|reflexivity]. destruct (H n u). apply units_iff. exact E.
Qed.
Print Assumptions C53_not_labels.

(** Units between angles may not have a closing parenthesis. *)
Theorem C53_parentheses_refuted : exists x, parse_value_with_units (lit "speed <" ++ x ++ lit ">") = None /\ x = lit "m/(s)"
  /\ parse_value_with_units (lit "speed [" ++ x ++ lit "]") = Some (lit "speed", Some x).
Proof. exists (lit "m/(s)"). repeat split; vm_compute; reflexivity. Qed.
Print Assumptions C53_parentheses_refuted.

Example C53_example :
  parse_value_with_units (lit "  foo   bar  <bar/krow> ") = Some (lit "foo   bar", Some (lit "bar/krow"))
  /\ parse_value_with_units (lit "a [x [y]") = Some (lit "a", Some (lit "x [y"))
  /\ parse_value_with_units (lit "no units ") = Some (lit "no units", None)
  /\ parse_value_with_units (lit "ok but [bad units") = None
  /\ parse_value_with_units (lit "[x] more") = None
  /\ parse_value_with_units (lit "a<b>c>") = Some (lit "a", Some (lit "b>c")).
Proof. repeat split; vm_compute; reflexivity. Qed.
Example C53_spec_example : labelled (lit " a [b] ") (lit "a") (Some (lit "b")).
Proof.
  apply (Lb_square (lit "a") (lit " a ") (lit "b") (lit " ")).
  - intros c [<-|[]] [F|F]; discriminate F.
  - right. split; [exists (chr "a"), []|exists (chr "a"), []]; split; reflexivity.
  - exists (lit " "), (lit " "). repeat split; intros c [<-|[]]; reflexivity.
  - intros [F|[]]; discriminate F.
  - intros c [<-|[]]; reflexivity.
Qed.

(** ** C60 *)

Theorem C60_false_words : forall s, str2bool s = false <-> exists w, trimmed w /\ padded w s /\ false_word w.
Proof. exact str2bool_iff. Qed.
Print Assumptions C60_false_words.

Example C60_example : str2bool (lit " Off ") = false /\ str2bool (lit "  ") = false /\ str2bool (lit "00") = true /\ str2bool (lit "ON") = true.
Proof. repeat split. Qed.

(** ** C61 *)

Theorem C61_word_breaks : forall a x y b,
  (word_starts x y -> camel_to_snake_case ((a ++ [x]) ++ (y :: b)) = camel_to_snake_case (a ++ [x]) ++ lit "_" ++ camel_to_snake_case (y :: b))
  /\ (~ word_starts x y -> camel_to_snake_case ((a ++ [x]) ++ (y :: b)) = camel_to_snake_case (a ++ [x]) ++ camel_to_snake_case (y :: b)).
Proof.
  intros a x y b. unfold camel_to_snake_case. rewrite snake_app, lower_app, lastb_snoc. unfold word_starts.
  cbn [snake_sub]. rewrite andb_false_l.
  split.
  - intros [H1 H2]. rewrite H2, andb_true_r. replace (is_lower x || is_digit x) with true by (symmetry; apply orb_true_iff; exact H1). reflexivity.
  - intros H. destruct ((is_lower x || is_digit x) && is_upper y) eqn:E; [|reflexivity]. destruct H.
    apply andb_true_iff in E. destruct E as [E1 E2]. apply orb_true_iff in E1. auto.
Qed.
Print Assumptions C61_word_breaks.

Theorem C61_single_letters : camel_to_snake_case [] = [] /\ forall c, camel_to_snake_case [c] = [low c].
Proof. split; reflexivity. Qed.
Print Assumptions C61_single_letters.

Theorem C61_idempotent : forall s, camel_to_snake_case (camel_to_snake_case s) = camel_to_snake_case s.
Proof.
  intros s. unfold camel_to_snake_case at 1. rewrite snake_no_upper; [apply lower_lower|].
  intros c Hc. unfold camel_to_snake_case, lower in Hc. apply in_map_iff in Hc. destruct Hc as (d & <- & _). apply low_not_upper.
Qed.
Print Assumptions C61_idempotent.

(** Names of commands have dashes for the underscores, and are otherwise the same. *)
Theorem C61_command_names : forall s, Forall2 (fun a b => (a = chr "_" /\ b = chr "-") \/ (a <> chr "_" /\ b = a)) (camel_to_snake_case s) (camel_to_cmd_name s).
Proof.
  intros s. unfold camel_to_cmd_name. generalize (camel_to_snake_case s). intros t. induction t as [|c t IH]; cbn [replace1]; [constructor|].
  destruct (N.eqb_spec c (chr "_")) as [->|H]; constructor; auto.
Qed.
Print Assumptions C61_command_names.

Example C61_example : camel_to_snake_case (lit "CO2DiceApp") = lit "co2_dice_app" /\ camel_to_cmd_name (lit "aBCDe") = lit "a-bcde".
Proof. split; reflexivity. Qed.

(** ** C62 *)

Theorem C62_message_and_ending : forall m le, not_at_eol m -> line_ending le ->
  log_write (m ++ le) = Some m /\ log_write m = Some m /\ log_write le = None.
Proof.
  intros m le [Hn Hm] Hle.
  assert (forall l c a, m = a ++ l ++ [c] -> c <> 10%N /\ c <> 13%N) as Hc by (intros l c a E; rewrite app_assoc in E; exact (Hm _ _ E)).
  assert (drop_end [13%N; 10%N] m = m) as E1 by (apply drop_end_no; intros a E; destruct (Hc [13%N] 10%N a E); congruence).
  assert (drop_end [10%N; 13%N] m = m) as E2 by (apply drop_end_no; intros a E; destruct (Hc [10%N] 13%N a E); congruence).
  assert (drop_end [10%N] m = m) as E3 by (apply drop_end_no; intros a E; destruct (Hc [] 10%N a E); congruence).
  assert (forall x : pystr, x <> [] -> (match x with [] => None | c :: l => Some (c :: l) end) = Some x) as Hs by (intros [|c l] Hx; [contradiction|reflexivity]).
  assert (forall x : pystr, x <> [] -> log_write x = match fold_left (fun m le => drop_end le m) [[13%N; 10%N]; [10%N; 13%N]; [10%N]] x with [] => None | c :: l => Some (c :: l) end) as Hl
    by (intros [|c l] Hx; [contradiction|reflexivity]).
  split; [|split].
  - rewrite Hl by (destruct m; [contradiction|discriminate]). cbn [fold_left].
    destruct Hle as [->|[->| ->]].
    + rewrite drop_end_app, E2, E3. apply Hs. exact Hn.
    + rewrite (drop_end_no [13%N; 10%N] (m ++ [10%N; 13%N])).
      * rewrite drop_end_app, E3. apply Hs. exact Hn.
      * intros a E. change [10%N; 13%N] with ([10%N] ++ [13%N]) in E. change [13%N; 10%N] with ([13%N] ++ [10%N]) in E. rewrite !app_assoc in E.
        apply app_last_inj in E. destruct E as [_ E]. discriminate E.
    + rewrite (drop_end_no [13%N; 10%N] (m ++ [10%N])), (drop_end_no [10%N; 13%N] (m ++ [10%N])).
      * rewrite drop_end_app. apply Hs. exact Hn.
      * intros a E. change [10%N; 13%N] with ([10%N] ++ [13%N]) in E. rewrite app_assoc in E. apply app_last_inj in E. destruct E as [_ E]. discriminate E.
      * intros a E. change [13%N; 10%N] with ([13%N] ++ [10%N]) in E. rewrite app_assoc in E. apply app_last_inj in E. destruct E as [E _].
        destruct (Hc [] 13%N a E); congruence.
  - rewrite Hl by exact Hn. cbn [fold_left]. rewrite E1, E2, E3. apply Hs. exact Hn.
  - destruct Hle as [->|[->| ->]]; reflexivity.
Qed.
Print Assumptions C62_message_and_ending.

(** Some messages with more line-endings lose two of them, others one. *)
Theorem C62_one_ending_refuted : exists m, log_write (m ++ [10%N] ++ [13%N; 10%N]) = Some m /\ log_write (m ++ [10%N] ++ [10%N]) = Some (m ++ [10%N]).
Proof. exists (lit "a"). split; reflexivity. Qed.
Print Assumptions C62_one_ending_refuted.

Example C62_example : log_write (lit "hello" ++ [10%N]) = Some (lit "hello") /\ log_write [10%N] = None /\ log_write [] = None.
Proof. repeat split. Qed.

(** ** C63 *)

Theorem C63_first_line : forall doc l, first_line doc = Some l <->
  exists before raw after, doc = join [10%N] (before ++ raw :: after) /\ (forall x, In x (before ++ raw :: after) -> ~ In 10%N x)
    /\ (forall x, In x before -> all_space x) /\ padded l raw /\ trimmed l /\ l <> [].
Proof.
  intros doc l. unfold first_line. split.
  - intros H.
    assert (forall ls, (match filter (fun l => negb (str_eqb l [])) (map strip ls) with [] => None | l :: _ => Some l end) = Some l ->
      exists before raw after, ls = before ++ raw :: after /\ (forall x, In x before -> all_space x) /\ strip raw = l /\ l <> []) as X.
    { induction ls as [|r ls IH]; intros E; [discriminate E|]. cbn [map filter] in E. destruct (str_eqb (strip r) []) eqn:Er; cbn [negb] in E.
      - destruct (IH E) as (b & raw & a & -> & Hb & Hr & Hl). exists (r :: b), raw, a. repeat split; auto. intros x [<-|Hx]; [|auto].
        apply strip_blank. apply str_eqb_eq. exact Er.
      - injection E as <-. exists [], r, ls. repeat split; [intros x []|]. apply str_eqb_neq. exact Er. }
    destruct (X _ H) as (b & raw & a & E & Hb & Hr & Hl). exists b, raw, a. rewrite <- E. split; [symmetry; apply join_split|].
    split; [intros x Hx; eapply split_on_no_sep; exact Hx|]. split; [exact Hb|]. destruct (strip_spec raw) as [Ht Hp]. rewrite Hr in *. auto.
  - intros (b & raw & a & -> & Hnl & Hb & Hp & Ht & Hl). rewrite split_join; [|destruct b; discriminate|exact Hnl].
    rewrite map_app. cbn [map]. rewrite (strip_padded l raw Ht Hp). clear Hnl.
    induction b as [|x b IH].
    + cbn [map app filter]. apply str_eqb_neq in Hl. rewrite Hl. reflexivity.
    + cbn [map app filter]. rewrite (proj2 (strip_blank x) (Hb x (or_introl eq_refl))). cbn [str_eqb negb]. apply IH. intros y Hy. apply Hb. right. exact Hy.
Qed.
Print Assumptions C63_first_line.

Theorem C63_no_line : forall doc, first_line doc = None <-> all_space doc.
Proof.
  intros doc. unfold first_line.
  assert (forall ls, (match filter (fun l => negb (str_eqb l [])) (map strip ls) with [] => None | l :: _ => Some l end) = None <-> forall x, In x ls -> all_space x) as X.
  { induction ls as [|r ls IH]; [split; [intros _ x []|reflexivity]|]. cbn [map filter]. destruct (str_eqb (strip r) []) eqn:Er; cbn [negb].
    - apply str_eqb_eq, strip_blank in Er. rewrite IH. split; [intros H x [<-|Hx]; auto|intros H x Hx; apply H; right; exact Hx].
    - apply str_eqb_neq in Er. split; [discriminate|]. intros H. destruct Er. apply strip_blank. apply H. left. reflexivity. }
  rewrite X. clear X. split.
  - intros H c Hc. rewrite <- (join_split 10%N doc) in Hc. revert H Hc. generalize (split_on 10%N doc). clear doc.
    induction l as [|x l IH]; intros H Hc; [destruct Hc|]. destruct l as [|y l].
    + apply (H x (or_introl eq_refl)). exact Hc.
    + change (join [10%N] (x :: y :: l)) with (x ++ [10%N] ++ join [10%N] (y :: l)) in Hc. apply in_app_or in Hc. destruct Hc as [Hc|Hc]; [exact (H x (or_introl eq_refl) c Hc)|].
      destruct Hc as [<-|Hc]; [reflexivity|]. apply IH; [|exact Hc]. intros z Hz. apply H. right. exact Hz.
  - intros H x Hx c Hc. apply H. rewrite <- (join_split 10%N doc). revert Hx. generalize (split_on 10%N doc). clear H.
    induction l as [|y l IH]; intros Hx; [destruct Hx|]. destruct l as [|z l].
    + destruct Hx as [->|[]]. exact Hc.
    + change (join [10%N] (y :: z :: l)) with (y ++ [10%N] ++ join [10%N] (z :: l)). apply in_or_app. destruct Hx as [->|Hx]; [left; exact Hc|]. right. right. apply IH. exact Hx.
Qed.
Print Assumptions C63_no_line.

Example C63_example : first_line (lit "  " ++ [10%N] ++ lit " a b " ++ [10%N] ++ lit "c") = Some (lit "a b") /\ first_line (lit " ") = None.
Proof. split; reflexivity. Qed.
