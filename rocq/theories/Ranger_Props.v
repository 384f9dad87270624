(** * Properties C37 (of [lasso]), C49, C51, C65, C66: throwing the lasso *)
From Coq Require Import String.
From Verif Require Import PyBase PyBase_Proofs Json Regex Coords_Model Capture_Model Parse_Model Parse_Spec Parse_Props Lasso_Model Lasso_Spec Lasso_Proofs Lasso_Props.

Section Ranger.
  Context {W SH : Type}.
  Variable filters : pystr -> option (filter W SH).
  Variable base_opts : dict.
  Variable loads : pystr -> option json.
  Variable urldefrag : pystr -> pystr * pystr.
  Variable fetch_sheet : option pystr -> option pystr -> option SH -> M W SH SH.
  Variable states_matrix : SH -> res mat.
  Variable margins : SH -> res (coords * coords).
  Variable read_rect : SH -> option coords -> option coords -> res json.
  Notation throw := (do_lasso filters base_opts loads urldefrag fetch_sheet states_matrix margins read_rect).
  Notation merge := (parse_and_merge loads urldefrag).
  Notation rect := (resolve_rect states_matrix margins).

  (** The stages one after the other *)
  Definition at_stage (w : W) (stage : string) (l : lasso SH) : state W SH := State w (Some (lit stage, l)).
  Definition read (sheet : SH) (st nd : option coords) : res json :=
    match st, nd with None, None => Ok (JList []) | _, _ => read_rect sheet st nd end.
  Lemma do_lasso_eq : forall xlref ctx s, throw xlref ctx s =
    let l0 := with_opts base_opts ctx in
    match merge xlref l0 with
    | Raise e => (at_stage (world s) "context" l0, Raise e)
    | Ok l1 =>
        match open_sheet fetch_sheet l1 (at_stage (world s) "parse" l1) with
        | (s2, Raise e) => (s2, Raise e)
        | (s2, Ok sheet) =>
            let l2 := with_sheet sheet l1 in
            match rect l2 sheet with
            | Raise e => (at_stage (world s2) "open" l2, Raise e)
            | Ok (st, nd) =>
                let l3 := with_rect st nd l2 in
                match read sheet st nd with
                | Raise e => (at_stage (world s2) "capture" l3, Raise e)
                | Ok values => run_filters filters (with_values values l3) (at_stage (world s2) "read_rect" (with_values values l3))
                end
            end
        end
    end.
  Proof.
    intros xlref ctx s. unfold do_lasso, bind, lift, relasso, init_lasso, at_stage. cbn [world inter]. cbn zeta.
    destruct (merge xlref (with_opts base_opts ctx)) as [l1|e]; [|reflexivity]. cbn [world].
    destruct (open_sheet fetch_sheet l1 (State (world s) (Some (lit "parse", l1)))) as [s2 [sheet|e]]; [|reflexivity]. cbn [world].
    destruct (rect (with_sheet sheet l1) sheet) as [[st nd]|e]; [|reflexivity]. cbn [world]. unfold read.
    destruct st as [st|], nd as [nd|]; unfold ret; try (destruct (read_rect sheet _ _); reflexivity); reflexivity.
  Qed.

  (** ** C49 *)

  Theorem C49_without_options : forall xlref (l l' : lasso SH) p, parse_xlref loads urldefrag xlref = Ok p -> p_opts (px p) = None ->
    merge xlref (with_opts base_opts l) = Ok l' -> l_opts l' = base_opts.
  Proof.
    intros xlref l l' p Hp Ho H. unfold parse_and_merge in H. rewrite Hp in H. destruct (px_key p); [discriminate H|]. injection H as <-. cbn. rewrite Ho. reflexivity.
  Qed.
  Theorem C49_with_options : forall xlref (l l' : lasso SH) p o, parse_xlref loads urldefrag xlref = Ok p -> p_opts (px p) = Some o ->
    merge xlref (with_opts base_opts l) = Ok l' -> l_opts l' = o.
  Proof.
    intros xlref l l' p o Hp Ho H. unfold parse_and_merge in H. rewrite Hp in H. destruct (px_key p); [discriminate H|]. injection H as <-. cbn. rewrite Ho. reflexivity.
  Qed.
  (** The other fields are those of the xl-ref, else those of the context. *)
  Definition overridden {A} (mine theirs got : option A) : Prop := (mine <> None -> got = mine) /\ (mine = None -> got = theirs).
  Theorem C49_fields_from_context : forall xlref (l l' : lasso SH) p, parse_xlref loads urldefrag xlref = Ok p -> merge xlref l = Ok l' ->
    l_ref l' = Some (px_ref p) /\ overridden (px_url p) (l_url l) (l_url l') /\ overridden (p_sheet (px p)) (l_sheet_name l) (l_sheet_name l')
    /\ overridden (p_st (px p)) (l_st_edge l) (l_st_edge l') /\ overridden (p_nd (px p)) (l_nd_edge l) (l_nd_edge l')
    /\ overridden (p_exp (px p)) (l_exp l) (l_exp l') /\ overridden (p_call (px p)) (l_call l) (l_call l')
    /\ l_sheet l' = l_sheet l /\ l_st l' = l_st l /\ l_nd l' = l_nd l /\ l_values l' = l_values l /\ l_base l' = l_base l.
  Proof.
    intros xlref l l' p Hp H. unfold parse_and_merge in H. rewrite Hp in H. destruct (px_key p); [discriminate H|]. injection H as <-. cbn.
    assert (forall A (a b : option A), overridden a b (or_else a b)) as X.
    { intros A a b. unfold overridden, or_else. destruct a; split; intros F; try reflexivity; try discriminate F; contradiction. }
    repeat split; try apply X; try reflexivity.
  Qed.
  (** So it is for what is lassoed, whose context has other options. *)
  Theorem C49_fields_when_lassoing : forall xlref (l l' : lasso SH) p, parse_xlref loads urldefrag xlref = Ok p -> merge xlref (with_opts base_opts l) = Ok l' ->
    l_ref l' = Some (px_ref p) /\ overridden (px_url p) (l_url l) (l_url l') /\ overridden (p_sheet (px p)) (l_sheet_name l) (l_sheet_name l')
    /\ overridden (p_st (px p)) (l_st_edge l) (l_st_edge l') /\ overridden (p_nd (px p)) (l_nd_edge l) (l_nd_edge l')
    /\ overridden (p_exp (px p)) (l_exp l) (l_exp l') /\ overridden (p_call (px p)) (l_call l) (l_call l')
    /\ l_sheet l' = l_sheet l /\ l_st l' = l_st l /\ l_nd l' = l_nd l /\ l_values l' = l_values l /\ l_base l' = l_base l.
  Proof. intros xlref l l' p Hp H. exact (C49_fields_from_context xlref (with_opts base_opts l) l' p Hp H). Qed.

  (** ** C51 *)

  (** An xl-ref that was found in delimiters is never lassoed. *)
  Theorem C51_encased_never_lassoed : forall sp q x ctx s, delimiter q -> only_of is_space sp -> x <> [] -> keeps_last urldefrag ->
    no_filter_look (snd (urldefrag (translate (sp ++ [q] ++ x ++ [q])))) ->
    exists s' e, throw (sp ++ [q] ++ x ++ [q]) ctx s = (s', Raise e) /\ world s' = world s
    /\ (forall p, parse_xlref0 loads urldefrag x = Ok p -> e = ValueError).
  Proof.
    intros sp q x ctx s Hq Hsp Hx Hk Hn. rewrite do_lasso_eq. cbn zeta. unfold parse_and_merge. rewrite (C51_encased_parse loads urldefrag sp q x Hq Hsp Hx Hk Hn).
    destruct (parse_xlref0 loads urldefrag x) as [p|e]; cbn [rbind px_key].
    - do 2 eexists. split; [reflexivity|]. split; [reflexivity|]. reflexivity.
    - destruct e; do 2 eexists; (split; [reflexivity|]); (split; [reflexivity|]); intros p F; discriminate F.
  Qed.

  (** ** C66 *)

  (** A failure of a lone 1st edge, other than of nothing captured, is a
      TypeError: the message of the error cannot be made. *)
  Theorem C66_errors : forall xlref ctx s s' e, throw xlref ctx s = (s', Raise e) ->
    e = ValueError
    \/ (e = TypeError /\ exists l sheet edge x, inter s' = Some (lit "open", l) /\ l_sheet l = Some sheet /\ l_st_edge l = Some edge /\ l_nd_edge l = None
         /\ x <> EmptyCapture /\ (states_matrix sheet = Raise x \/ exists m, states_matrix sheet = Ok m
             /\ (margins sheet = Raise x \/ exists mg, margins sheet = Ok mg /\ resolve_capture_rect m mg edge None (l_exp l) (l_base l) = Raise x)))
    \/ (e = SyntaxError /\ parse_xlref loads urldefrag xlref = Raise SyntaxError)
    \/ (e = EmptyCapture /\ exists stage l, inter s' = Some (stage, l) /\ on (lit "no_empty") (l_opts l))
    \/ exists sheet st nd, read_rect sheet st nd = Raise e.
  Proof.
    intros xlref ctx s s' e H. rewrite do_lasso_eq in H. cbn zeta in H.
    destruct (merge xlref (with_opts base_opts ctx)) as [l1|e1] eqn:Em.
    2: { injection H as <- <-. unfold parse_and_merge in Em. destruct (parse_xlref loads urldefrag xlref) as [p|e2] eqn:Ep.
         - destruct (px_key p); [injection Em as <-; auto|discriminate Em].
         - destruct e2; injection Em as <-; auto. }
    unfold open_sheet, catching in H. destruct (fetch_sheet (l_url l1) (l_sheet_name l1) (l_sheet l1) (at_stage (world s) "parse" l1)) as [s2 [sheet|e2]].
    2: { injection H as <- <-. auto. }
    destruct (rect (with_sheet sheet l1) sheet) as [[st nd]|e2] eqn:Er.
    2: { injection H as <- <-. unfold resolve_rect in Er.
         destruct (do m <- states_matrix sheet; _) as [[a b]|x] eqn:Ex; [discriminate Er|].
         assert (x = EmptyCapture \/ x <> EmptyCapture) as [ -> |Nx] by (destruct x; auto; right; discriminate).
         2: { assert (e2 = edges_error (with_sheet sheet l1)) as -> by (destruct x; congruence).
              unfold edges_error. cbn [with_sheet l_st_edge l_nd_edge l_exp l_base] in Ex |- *. destruct (l_st_edge l1) as [edge|] eqn:E1; [|auto]. destruct (l_nd_edge l1) as [nde|] eqn:E2; [auto|].
              right. left. split; [reflexivity|]. exists (with_sheet sheet l1), sheet, edge, x. split; [reflexivity|]. cbn [with_sheet l_sheet l_st_edge l_nd_edge l_exp l_base].
              do 4 (split; [first [reflexivity|assumption]|]).
              destruct (states_matrix sheet) as [m|y]; cbn [rbind] in Ex; [|injection Ex as ->; auto]. right. exists m. split; [reflexivity|].
              destruct (margins sheet) as [mg|y]; cbn [rbind] in Ex; [|injection Ex as ->; auto]. right. exists mg. auto. }
         destruct (opt "no_empty" (l_opts (with_sheet sheet l1))) eqn:Eo; [|discriminate Er]. injection Er as <-. right. right. right. left. split; [reflexivity|].
         do 2 eexists. split; [reflexivity|]. apply opt_on. exact Eo. }
    destruct (read sheet st nd) as [values|e2] eqn:Ed.
    2: { injection H as <- <-. unfold read in Ed. right. right. right. right. exists sheet, st, nd. destruct st, nd; try exact Ed. discriminate Ed. }
    unfold run_filters in H. destruct (l_call (with_values values (with_rect st nd (with_sheet sheet l1)))) as [c|]; [|discriminate H].
    unfold catching in H. destruct (make_call filters (inl (with_values values (with_rect st nd (with_sheet sheet l1)))) c (at_stage (world s2) "read_rect" (with_values values (with_rect st nd (with_sheet sheet l1))))) as [s3 [v|x]]; [discriminate H|].
    injection H as <- <-. auto.
  Qed.

  (** [intermediate_lasso] tells the last stage that was completed. *)
  Definition failed_stage (stage : pystr) (xlref : pystr) (ctx l : lasso SH) (w : W) : Prop :=
    (stage = lit "context" /\ l = with_opts base_opts ctx /\ exists e, merge xlref l = Raise e)
    \/ (stage = lit "parse" /\ merge xlref (with_opts base_opts ctx) = Ok l
        /\ exists s' e, fetch_sheet (l_url l) (l_sheet_name l) (l_sheet l) (at_stage w "parse" l) = (s', Raise e))
    \/ (stage = lit "open" /\ exists sheet e, l_sheet l = Some sheet /\ rect l sheet = Raise e)
    \/ (stage = lit "capture" /\ exists sheet e, l_sheet l = Some sheet /\ read_rect sheet (l_st l) (l_nd l) = Raise e).
  Theorem C66_intermediate_lasso : forall xlref ctx s s' e,
    (forall u n b s, inter (fst (fetch_sheet u n b s)) = inter s) ->
    throw xlref ctx s = (s', Raise e) ->
    (exists stage l, inter s' = Some (stage, l) /\ failed_stage stage xlref ctx l (world s))
    \/ exists l c w e', l_call l = Some c /\ make_call filters (inl l) c (at_stage w "read_rect" l) = (s', Raise e').
  Proof.
    intros xlref ctx s s' e Hfe H. rewrite do_lasso_eq in H. cbn zeta in H.
    destruct (merge xlref (with_opts base_opts ctx)) as [l1|e1] eqn:Em.
    2: { injection H as <- <-. left. do 2 eexists. split; [reflexivity|]. left. split; [reflexivity|]. split; [reflexivity|]. eauto. }
    unfold open_sheet, catching in H. pose proof (Hfe (l_url l1) (l_sheet_name l1) (l_sheet l1) (at_stage (world s) "parse" l1)) as Hi.
    destruct (fetch_sheet (l_url l1) (l_sheet_name l1) (l_sheet l1) (at_stage (world s) "parse" l1)) as [s2 [sheet|e2]] eqn:Ef; cbn [fst] in Hi.
    2: { injection H as <- <-. left. do 2 eexists. split; [exact Hi|]. right. left. split; [reflexivity|]. split; [exact Em|]. eauto. }
    destruct (rect (with_sheet sheet l1) sheet) as [[st nd]|e2] eqn:Er.
    2: { injection H as <- <-. left. do 2 eexists. split; [reflexivity|]. right. right. left. split; [reflexivity|]. exists sheet, e2. auto. }
    destruct (read sheet st nd) as [values|e2] eqn:Ed.
    2: { injection H as <- <-. left. do 2 eexists. split; [reflexivity|]. right. right. right. split; [reflexivity|]. exists sheet, e2. split; [reflexivity|].
         unfold read in Ed. cbn. destruct st, nd; try exact Ed. discriminate Ed. }
    right. unfold run_filters in H. set (lv := with_values values (with_rect st nd (with_sheet sheet l1))) in *. destruct (l_call lv) as [c|] eqn:Ec; [|discriminate H].
    unfold catching in H. exists lv, c, (world s2). destruct (make_call filters (inl lv) c (at_stage (world s2) "read_rect" lv)) as [s3 [v|x]]; [discriminate H|].
    injection H as -> _. eauto.
  Qed.

  (** Nothing captured: the values are an empty list, unless forbidden. *)
  Theorem C66_empty_capture : forall xlref ctx s l1 sheet s2 m mg e,
    merge xlref (with_opts base_opts ctx) = Ok l1 -> fetch_sheet (l_url l1) (l_sheet_name l1) (l_sheet l1) (at_stage (world s) "parse" l1) = (s2, Ok sheet) ->
    states_matrix sheet = Ok m -> margins sheet = Ok mg -> l_st_edge l1 = Some e ->
    resolve_capture_rect m mg e (l_nd_edge l1) (l_exp l1) (l_base l1) = Raise EmptyCapture -> l_call l1 = None ->
    (on (lit "no_empty") (l_opts l1) -> exists s', throw xlref ctx s = (s', Raise EmptyCapture))
    /\ (~ on (lit "no_empty") (l_opts l1) -> exists s' l, throw xlref ctx s = (s', Ok (inl l)) /\ l_values l = JList [] /\ l_st l = None /\ l_nd l = None).
  Proof.
    intros xlref ctx s l1 sheet s2 m mg e Hm Hf Hs Hg Hst Hr Hc. rewrite do_lasso_eq. cbn zeta. rewrite Hm. unfold open_sheet, catching. rewrite Hf.
    unfold resolve_rect. cbn [with_sheet l_st_edge l_nd_edge l_exp l_base l_opts]. rewrite Hs, Hg. cbn [rbind]. rewrite Hst, Hr.
    split; intros Ho.
    - apply opt_on in Ho. rewrite Ho. eexists. reflexivity.
    - destruct (opt "no_empty" (l_opts l1)) eqn:Eo; [apply opt_on in Eo; contradiction|]. cbn [read]. unfold run_filters. cbn [with_values with_rect with_sheet l_call]. rewrite Hc.
      do 2 eexists. split; [reflexivity|]. auto.
  Qed.

  (** Without filters, the values are those of the captured rect in the fetched sheet. *)
  Theorem C66_values_read : forall xlref ctx s l1 sheet s2 m mg e st nd v,
    merge xlref (with_opts base_opts ctx) = Ok l1 -> fetch_sheet (l_url l1) (l_sheet_name l1) (l_sheet l1) (at_stage (world s) "parse" l1) = (s2, Ok sheet) ->
    states_matrix sheet = Ok m -> margins sheet = Ok mg -> l_st_edge l1 = Some e ->
    resolve_capture_rect m mg e (l_nd_edge l1) (l_exp l1) (l_base l1) = Ok (st, nd) -> read_rect sheet (Some st) nd = Ok v -> l_call l1 = None ->
    exists s' l, throw xlref ctx s = (s', Ok (inl l)) /\ l_values l = v /\ l_st l = Some st /\ l_nd l = nd /\ l_sheet l = Some sheet /\ same_request l1 l /\ world s' = world s2.
  Proof.
    intros xlref ctx s l1 sheet s2 m mg e st nd v Hm Hf Hs Hg Hst Hr Hv Hc. rewrite do_lasso_eq. cbn zeta. rewrite Hm. unfold open_sheet, catching. rewrite Hf.
    unfold resolve_rect. cbn [with_sheet l_st_edge l_nd_edge l_exp l_base l_opts]. rewrite Hs, Hg. cbn [rbind]. rewrite Hst, Hr.
    assert (read sheet (Some st) nd = Ok v) as E by (unfold read; destruct nd; exact Hv). rewrite E. unfold run_filters. cbn [with_values with_rect with_sheet l_call]. rewrite Hc.
    do 2 eexists. split; [reflexivity|]. unfold same_request. cbn. auto 20.
  Qed.

  (** ** C65 *)

  Notation recurse := (recursive_filter filters base_opts loads urldefrag fetch_sheet states_matrix margins read_rect).

  (** Values whose texts are not xl-refs are kept, and no sheet is opened. *)
  Theorem C65_no_xlrefs : forall has_pandas l filts include exclude depth specs s, rmap parse_call_spec filts = Ok specs ->
    (forall t, text_in (l_values l) t -> parse_xlref loads urldefrag t = Raise SyntaxError) ->
    exists s', recurse has_pandas l filts include exclude depth s = (s', l_values l, Ok l) /\ world s' = world s.
  Proof.
    intros hp l filts include exclude depth specs s Hs Ht. unfold recursive_filter, run_filter_elementwise. rewrite Hs.
    pose (fn := recurse_element filters base_opts loads urldefrag fetch_sheet states_matrix margins read_rect).
    destruct (dive_nothing filters fn hp l include exclude (fun es => world (fst es) = world s)
      (fun v => forall t, v = JStr t -> parse_xlref loads urldefrag t = Raise SyntaxError)) with (depth := depth) (v := l_values l) (n := 0%Z) (b := l_st l) (es := (s, specs)) as ([s' c] & E & Ew); auto.
    - intros v b [s0 c0] Hw Hv. cbn [fst] in Hw. unfold call_element_func, catching. destruct v as [| | |t| |]; try (eexists; split; [reflexivity|exact Hw]).
      unfold fn, recurse_element. rewrite do_lasso_eq. cbn zeta. unfold parse_and_merge. rewrite (Hv t eq_refl). eexists. split; [reflexivity|]. exact Hw.
    - intros p x Hx t ->. apply Ht. exists p. exact Hx.
    - unfold fn in E. rewrite E. exists s'. split; [destruct l; reflexivity|exact Ew].
  Qed.

  (** Texts without "#" are not xl-refs. *)
  Theorem C65_texts_without_hash : forall has_pandas l filts include exclude depth specs s, cuts_at_hash urldefrag -> rmap parse_call_spec filts = Ok specs ->
    (forall t, text_in (l_values l) t -> ~ In (chr "#") t) ->
    exists s', recurse has_pandas l filts include exclude depth s = (s', l_values l, Ok l) /\ world s' = world s.
  Proof.
    intros hp l filts include exclude depth specs s Hc Hs Ht. apply C65_no_xlrefs with (specs := specs); [exact Hs|]. intros t H.
    apply (C59_no_fragment loads urldefrag t (translate t) Hc).
    - clear. induction t as [|c t IH]; [constructor|]. change (translate (c :: t)) with ((if (c =? 8220)%N || (c =? 8221)%N then 34%N else c) :: translate t).
      destruct (N.eqb_spec c 8220) as [->|N1]; [constructor; exact IH|]. destruct (N.eqb_spec c 8221) as [->|N2]; cbn; constructor; assumption.
    - intros F. apply (Ht t H). unfold translate in F. apply in_map_iff in F. destruct F as (c & E & Hi).
      destruct ((c =? 8220)%N || (c =? 8221)%N); [discriminate E|]. subst c. exact Hi.
  Qed.

  (** A text that is lassoed, in the sheet of the values, is replaced by the values lassoed. *)
  Theorem C65_xlref_replaced : forall has_pandas l include exclude t l' s s', l_values l = JStr t ->
    throw t (Lasso SH None None None None None None None (l_sheet l) (l_st l) (l_nd l) JNull (l_st l) []) s = (s', Ok (inl l')) ->
    recurse has_pandas l [] include exclude None s = (s', l_values l', Ok (with_values (l_values l') l)).
  Proof.
    intros hp l include exclude t l' s s' Hv H. unfold recursive_filter, run_filter_elementwise. cbn [rmap]. rewrite Hv.
    rewrite dive_other by (reflexivity || (intros (d & F); discriminate F)). unfold call_element_func, catching, recurse_element, context_of. cbn [x_sheet x_st x_nd x_base]. rewrite H. reflexivity.
  Qed.
  (** Errors other than of syntax are raised. *)
  Theorem C65_bad_xlref_raises : forall has_pandas l include exclude t e s s', l_values l = JStr t -> e <> SyntaxError ->
    throw t (Lasso SH None None None None None None None (l_sheet l) (l_st l) (l_nd l) JNull (l_st l) []) s = (s', Raise e) ->
    recurse has_pandas l [] include exclude None s = (s', l_values l, Raise ValueError).
  Proof.
    intros hp l include exclude t e s s' Hv He H. unfold recursive_filter, run_filter_elementwise. cbn [rmap]. rewrite Hv.
    rewrite dive_other by (reflexivity || (intros (d & F); discriminate F)). unfold call_element_func, catching, recurse_element, context_of. cbn [x_sheet x_st x_nd x_base]. rewrite H.
    destruct e; try reflexivity. contradiction.
  Qed.

  (** ** C37 *)

  Variable close : M W SH unit.
  Notation values := (lasso_values filters base_opts loads urldefrag fetch_sheet states_matrix margins read_rect close).
  (** How often the factory was closed *)
  Variable closes : W -> nat.
  Hypothesis close_closes : forall s, closes (world (fst (close s))) = S (closes (world s)).
  Hypothesis fetch_keeps : forall u n b s, closes (world (fst (fetch_sheet u n b s))) = closes (world s).
  Hypothesis filters_keep : forall name f l a k s, filters name = Some f -> closes (world (fst (f_run f l a k s))) = closes (world s).

  Lemma throw_keeps : forall xlref ctx s, closes (world (fst (throw xlref ctx s))) = closes (world s).
  Proof.
    intros xlref ctx s. rewrite do_lasso_eq. cbn zeta.
    destruct (merge xlref (with_opts base_opts ctx)) as [l1|e1]; [|reflexivity].
    unfold open_sheet, catching. pose proof (fetch_keeps (l_url l1) (l_sheet_name l1) (l_sheet l1) (at_stage (world s) "parse" l1)) as Hi.
    destruct (fetch_sheet (l_url l1) (l_sheet_name l1) (l_sheet l1) (at_stage (world s) "parse" l1)) as [s2 [sheet|e2]]; cbn [fst at_stage world] in *; [|exact Hi].
    destruct (rect (with_sheet sheet l1) sheet) as [[st nd]|e2]; [|exact Hi]. destruct (read sheet st nd) as [v|e2]; [|exact Hi].
    unfold run_filters. destruct (l_call _) as [c|]; [|exact Hi]. unfold catching.
    assert (forall l c s, closes (world (fst (make_call filters (inl l) c s))) = closes (world s)) as X.
    { intros l c0 s0. rewrite make_call_eq. cbn zeta. destruct (filters (cs_func c0)) as [f|] eqn:Ef.
      - pose proof (filters_keep _ f l (cs_args c0) (sdel (lit "lax") (cs_kwds c0)) (started l c0 s0) Ef) as Hk.
        destruct (f_run f l (cs_args c0) (sdel (lit "lax") (cs_kwds c0)) (started l c0 s0)) as [s' [[l'|x]|e]]; [exact Hk| |];
          (destruct (opt "verbose" (l_opts l) && _); [exact Hk|]; destruct (lax_of (l_opts l) (cs_kwds c0)); exact Hk).
      - cbn [andb]. rewrite andb_false_r. destruct (lax_of (l_opts l) (cs_kwds c0)); reflexivity. }
    match goal with |- context [make_call filters (inl ?l) c ?s0] => pose proof (X l c s0) as Hx; destruct (make_call filters (inl l) c s0) as [s3 [v'|x]] end;
      cbn [fst world at_stage] in *; congruence.
  Qed.

  Theorem C37_lasso_closes_its_own : forall xlref ctx s, closes (world (fst (values true xlref ctx s))) = S (closes (world s)).
  Proof.
    intros xlref ctx s. unfold lasso_values. pose proof (throw_keeps xlref ctx s) as H. destruct (throw xlref ctx s) as [s1 r]. cbn [fst] in H.
    pose proof (close_closes s1) as Hc. destruct (close s1) as [s2 [u|e]]; cbn [fst] in *; [destruct r as [[l|x]|e]|]; cbn [fst]; congruence.
  Qed.
  Theorem C37_lasso_keeps_given : forall xlref ctx s, closes (world (fst (values false xlref ctx s))) = closes (world s).
  Proof.
    intros xlref ctx s. unfold lasso_values. pose proof (throw_keeps xlref ctx s) as H. destruct (throw xlref ctx s) as [s1 r]. cbn [fst] in H.
    destruct r as [[l|x]|e]; cbn [fst]; exact H.
  Qed.
  (** What was lassoed is returned, and errors are raised, after closing. *)
  Theorem C37_lasso_result : forall mine xlref ctx s, (forall s, snd (close s) = Ok tt) ->
    snd (values mine xlref ctx s) = match snd (throw xlref ctx s) with Ok (inl l) => Ok (l_values l) | Ok (inr _) => Raise AttributeError | Raise e => Raise e end.
  Proof.
    intros mine xlref ctx s Hc. unfold lasso_values. destruct (throw xlref ctx s) as [s1 r]. cbn [snd].
    destruct mine; [pose proof (Hc s1) as E; destruct (close s1) as [s2 [u|e]]; [|discriminate E]|]; destruct r as [[l|x]|e]; reflexivity.
  Qed.
End Ranger.
Print Assumptions C49_without_options.
Print Assumptions C49_with_options.
Print Assumptions C49_fields_from_context.
Print Assumptions C49_fields_when_lassoing.
Print Assumptions C51_encased_never_lassoed.
Print Assumptions C66_errors.
Print Assumptions C66_intermediate_lasso.
Print Assumptions C66_empty_capture.
Print Assumptions C66_values_read.
Print Assumptions C65_no_xlrefs.
Print Assumptions C65_texts_without_hash.
Print Assumptions C65_xlref_replaced.
Print Assumptions C65_bad_xlref_raises.
Print Assumptions C37_lasso_closes_its_own.
Print Assumptions C37_lasso_keeps_given.
Print Assumptions C37_lasso_result.

(** The default options are overridden by those given. *)
Theorem C49_default_options : forall o k, NoDup (map fst o) ->
  (forall v, In (k, v) o -> sget k (get_default_opts o) = Some v) /\ (~ In k (map fst o) -> sget k (get_default_opts o) = sget k (get_default_opts [])).
Proof.
  intros o k. unfold get_default_opts. cbn [fold_left]. generalize [(lit "lax", JBool false); (lit "verbose", JBool false); (lit "read", JDict [(lit "on_demand", JBool true)])] as d.
  assert (forall o d : dict, ~ In k (map fst o) -> sget k (fold_left (fun o kv => sset (fst kv) (snd kv) o) o d) = sget k d) as X.
  { clear. induction o as [|[k' w] o IH]; intros d H; [reflexivity|]. cbn [fold_left fst snd]. rewrite IH by (intros F; apply H; right; exact F).
    apply dget_dset_neq; [apply str_eqb_eq|]. intros ->. apply H. left. reflexivity. }
  induction o as [|[k' w] o IH]; intros d Hn; [split; [intros v []|reflexivity]|]. cbn [map fst] in Hn. inversion Hn as [|? ? Hk Ho]; subst.
  split; [|intros H; apply X; exact H]. intros v [E|H].
  - injection E as -> ->. cbn [fold_left fst snd]. rewrite X by exact Hk. apply dget_dset_eq, str_eqb_eq.
  - cbn [fold_left fst snd]. apply (IH (sset k' w d) Ho). exact H.
Qed.
Print Assumptions C49_default_options.
Example C49_default_example : get_default_opts [(lit "lax", JNum 1); (lit "no_empty", JBool true)]
  = [(lit "lax", JNum 1); (lit "verbose", JBool false); (lit "read", JDict [(lit "on_demand", JBool true)]); (lit "no_empty", JBool true)].
Proof. vm_compute. reflexivity. Qed.

(** [lasso] uses the options it is given; the default ones only if there are none. *)
Theorem C49_given_options : forall o,
  (forall k v, o <> Some [] -> o <> None -> (sget k (ranger_opts o) = Some v <-> exists d, o = Some d /\ sget k d = Some v)) /\
  (o = None \/ o = Some [] -> ranger_opts o = get_default_opts []).
Proof.
  intros o. split.
  - intros k v A B. destruct o as [[|x d]|]; [now destruct A| |now destruct B]. split.
    + intros H. eauto.
    + intros (d' & E & H). now injection E as <-.
  - intros [-> | ->]; reflexivity.
Qed.
Example C49_given_example : ranger_opts None = ranger_opts (Some []) /\ setting (lit "verbose") (ranger_opts None) (JBool false)
  /\ ranger_opts (Some [(lit "lax", JBool true)]) = [(lit "lax", JBool true)].
Proof. repeat split. Qed.
(** They do not override the default ones item by item, as documented. *)
Theorem C49_defaults_refuted : exists o k, setting k (ranger_opts None) (JDict [(lit "on_demand", JBool true)])
  /\ unset k o /\ unset k (ranger_opts (Some o)).
Proof.
  exists [(lit "verbose", JBool true)], (lit "read"). split; [reflexivity|]. split; intros v F; vm_compute in F; discriminate F.
Qed.
Print Assumptions C49_given_options.
Print Assumptions C49_defaults_refuted.

(** ** A sheet with 2x2 cells, for the examples; the world counts closes. *)
Definition ex_matrix : mat := mat_of [[1; 1]; [1; 1]]%Z.
Definition ex_loads (t : pystr) : option json :=
  if str_eqb t (lit "{o}") then Some (JDict [(lit "opts", JDict [(lit "verbose", JBool true)])])
  else if str_eqb t (lit "{f}") then Some (JDict [(lit "func", JStr (lit "nofilter"))]) else None.
Definition ex_fetch (u n : option pystr) (b : option unit) : M nat unit unit :=
  match u with Some _ => raise IOError | None => ret tt end.
Definition ex_read (s : unit) (st nd : option coords) : res json :=
  match st, nd with
  | Some (0, 0)%Z, None => Ok (JStr (lit "#B2"))
  | Some (1, 1)%Z, None => Ok (JNum 7)
  | Some (0, 0)%Z, Some (1, 1)%Z => Ok (JList [JList [JStr (lit "#B2"); JStr (lit "b1")]; JList [JNum 3; JNum 7]])
  | _, _ => Raise IndexError
  end.
Definition ex_throw (base : dict) := do_lasso (fun _ => None) base ex_loads hash_defrag ex_fetch (fun _ => Ok ex_matrix) (fun _ => Ok ((0, 0), (1, 1))%Z) ex_read.
Definition nothing : lasso unit := blank JNull [].

(** The options of the xl-ref replace the base options, rather than overlaying them. *)
Theorem C49_overlay_refuted : exists base xlref l v, snd (ex_throw base xlref nothing (State 0%nat None)) = Ok (inl l)
  /\ base = [(lit "lax", JBool true); (lit "verbose", JBool false)] /\ xlref = lit "#A1:{o}" /\ v = JBool true
  /\ setting (lit "lax") base v /\ unset (lit "lax") (l_opts l) /\ setting (lit "verbose") (l_opts l) (JBool true).
Proof.
  do 4 eexists. split; [|split; [reflexivity|split; [reflexivity|split; [reflexivity|]]]].
  - vm_compute. reflexivity.
  - split; [vm_compute; reflexivity|]. split; [|vm_compute; reflexivity]. intros v F. vm_compute in F. discriminate F.
Qed.
Print Assumptions C49_overlay_refuted.
Example C49_example : exists l, snd (ex_throw [(lit "lax", JBool true)] (lit "#A1") nothing (State 0%nat None)) = Ok (inl l)
  /\ l_opts l = [(lit "lax", JBool true)] /\ l_values l = JStr (lit "#B2").
Proof. eexists. split; [vm_compute; reflexivity|]. split; reflexivity. Qed.

(** The content is lassoed, but not the encased. *)
Theorem C51_encased_lasso_refuted : exists x q l, delimiter q /\ x = lit "#A1"
  /\ snd (ex_throw [] x nothing (State 0%nat None)) = Ok (inl l) /\ l_values l = JStr (lit "#B2")
  /\ snd (ex_throw [] ([q] ++ x ++ [q]) nothing (State 0%nat None)) = Raise ValueError.
Proof.
  exists (lit "#A1"), (chr "$"). eexists. split; [unfold delimiter; cbn; tauto|]. split; [reflexivity|]. split; [vm_compute; reflexivity|].
  split; [reflexivity|]. vm_compute. reflexivity.
Qed.
Print Assumptions C51_encased_lasso_refuted.

Example C65_example :
  let go v := recursive_filter (fun _ => None) [] ex_loads hash_defrag ex_fetch (fun _ => Ok ex_matrix) (fun _ => Ok ((0, 0), (1, 1))%Z) ex_read false (blank v []) [] None None None (State 0%nat None) in
  snd (go (JList [JList [JStr (lit "#B2"); JStr (lit "b1")]; JList [JNum 3; JNum 7]])) = Ok (blank (JList [JList [JNum 7; JStr (lit "b1")]; JList [JNum 3; JNum 7]]) [])
  /\ snd (go (JDict [(lit "k", JStr (lit "f.xls#B2"))])) = Raise ValueError.
Proof. split; vm_compute; reflexivity. Qed.

(** Coordinates relative to nothing fail with a ValueError when there is a 2nd edge, and with a TypeError when there is none. *)
Theorem C66_documented_errors_refuted : exists x, parse_xlref ex_loads hash_defrag x <> Raise SyntaxError
  /\ (forall sheet st nd e, ex_read sheet st nd = Raise e -> e <> TypeError)
  /\ snd (ex_throw [] x nothing (State 0%nat None)) = Raise TypeError /\ snd (ex_throw [] (x ++ lit ":A1") nothing (State 0%nat None)) = Raise ValueError.
Proof.
  exists (lit "#R.C."). split; [vm_compute; discriminate|]. split.
  - intros sheet st nd e H. unfold ex_read in H.
    repeat match type of H with context [match ?x with _ => _ end] => destruct x; try discriminate H end; injection H as <-; discriminate.
  - split; vm_compute; reflexivity.
Qed.
Print Assumptions C66_documented_errors_refuted.
Example C66_example :
  snd (ex_throw [] (lit "A1") nothing (State 0%nat None)) = Raise SyntaxError
  /\ snd (ex_throw [] (lit "f.xls#A1") nothing (State 0%nat None)) = Raise ValueError
  /\ (exists l, inter (fst (ex_throw [] (lit "f.xls#A1") nothing (State 0%nat None))) = Some (lit "parse", l) /\ l_url l = Some (lit "f.xls"))
  /\ (exists l, snd (ex_throw [] (lit "#:") nothing (State 0%nat None)) = Ok (inl l) /\ l_values l = JList [JList [JStr (lit "#B2"); JStr (lit "b1")]; JList [JNum 3; JNum 7]])
  /\ (exists l, snd (ex_throw [] (lit "#Z9(UL)") nothing (State 0%nat None)) = Ok (inl l) /\ l_st l = Some (1, 1)%Z /\ l_values l = JNum 7)
  /\ (exists l, snd (ex_throw [] (lit "#Z9(D)") nothing (State 0%nat None)) = Ok (inl l) /\ l_values l = JList [])
  /\ snd (ex_throw [(lit "no_empty", JBool true)] (lit "#Z9(D)") nothing (State 0%nat None)) = Raise EmptyCapture.
Proof.
  split; [vm_compute; reflexivity|]. split; [vm_compute; reflexivity|].
  split; [eexists; split; [vm_compute; reflexivity|reflexivity]|].
  split; [eexists; split; [vm_compute; reflexivity|reflexivity]|].
  split; [eexists; split; [vm_compute; reflexivity|split; reflexivity]|].
  split; [eexists; split; [vm_compute; reflexivity|reflexivity]|].
  vm_compute. reflexivity.
Qed.

Example C37_example :
  let go mine x := lasso_values (fun _ => None) [] ex_loads hash_defrag ex_fetch (fun _ => Ok ex_matrix) (fun _ => Ok ((0, 0), (1, 1))%Z) ex_read
                     (fun s => (State (S (world s)) (inter s), Ok tt)) mine x nothing (State 0%nat None) in
  world (fst (go true (lit "#A1"))) = 1%nat /\ world (fst (go true (lit "nope"))) = 1%nat /\ world (fst (go true (lit "#A1:{f}"))) = 1%nat
  /\ world (fst (go false (lit "#A1"))) = 0%nat /\ world (fst (go false (lit "nope"))) = 0%nat
  /\ snd (go true (lit "#B2")) = Ok (JNum 7) /\ snd (go true (lit "#A1:{f}")) = Raise ValueError.
Proof. repeat split; vm_compute; reflexivity. Qed.
