(** * Properties C27, C28, C30: the grammar of xl-refs and call-specs (and C51, while parsing) *)
From Coq Require Import String.
From Verif Require Import PyBase PyBase_Proofs Json Regex Regex_Proofs Coords_Model Coords_Spec Coords_Proofs
  ExpMoves_Model Capture_Model Capture_Spec Capture_Proofs Parse_Model Parse_Spec Parse_Proofs Calls_Proofs Xlref_Proofs.

Section Loads.
  Variable loads : pystr -> option json.

  (** ** C27 *)

  Theorem C27_print_parse : forall t f, frag_text t f -> readable t f ->
    match f_filt f with
    | None => parse_xlref_fragment loads t = Ok (Parsed (f_sheet f) (meant_st f) (meant_nd f) (f_exp f) None None)
    | Some js =>
        (forall j o c, loads js = Some j -> filters_of j o c ->
           parse_xlref_fragment loads t = Ok (Parsed (f_sheet f) (meant_st f) (meant_nd f) (f_exp f) o c))
        /\ (loads js = None \/ (forall j o c, loads js = Some j -> ~ filters_of j o c) -> 
            parse_xlref_fragment loads t = Raise ValueError)
    end.
  Proof.
    intros t f H Hr. rewrite (print_parse loads t f H Hr). unfold expected.
    destruct (f_filt f) as [js|] eqn:E; [|reflexivity].
    assert (js <> []) as Hn.
    { assert (exists b, body_text b f) as (b & Hb) by (destruct H; eauto).
      inversion Hb as [sh a st e fl Ha Ht|sh a st bb nd em e fl Ha Hb' Ht]; subst; cbn in E; subst fl; inversion Ht; discriminate. }
    split.
    - intros j o c Hl Hf. apply (filters_iff loads js j o c Hn Hl) in Hf. rewrite Hf. reflexivity.
    - intros H0. destruct (parse_filters loads (Some js)) as [[o c]|e] eqn:Ef.
      + exfalso. destruct (loads js) as [j|] eqn:El.
        * apply (filters_iff loads js j o c Hn El) in Ef. destruct H0 as [H0|H0]; [discriminate|]. exact (H0 j o c eq_refl Ef).
        * destruct js as [|x js]; [contradiction|]. unfold parse_filters in Ef. rewrite El in Ef. discriminate Ef.
      + apply filters_raise in Ef. subst e. reflexivity.
  Qed.

  (** A lone "!" before the edges is the same as none. *)
  Theorem C27_empty_sheet : forall sp t f, only_of is_space sp -> body_text t f -> f_sheet f = None -> f_filt f = None ->
    parse_xlref_fragment loads (sp ++ lit "!" ++ t) = Ok (Parsed None (meant_st f) (meant_nd f) (f_exp f) None None).
  Proof.
    intros sp t f Hsp Hb Hs Hf. rewrite (empty_sheet_parse loads sp t f Hsp Hb Hs). unfold expected. rewrite Hf, Hs. reflexivity.
  Qed.

  (** Coordinates written in the two styles come back. *)
  Theorem C27_coordinates : forall r k u d base, (0 <= r)%Z -> (0 <= k)%Z ->
    exists p1 e1 p2 e2,
      parse_xlref_fragment loads (colname (Z.to_N k) ++ str_of_Z (r + 1)) = Ok p1 /\ p_st p1 = Some e1 /\ p_nd p1 = None
      /\ resolve_cell (land e1) u d base = Ok (r, k)
      /\ parse_xlref_fragment loads (lit "R" ++ str_of_Z (r + 1) ++ lit "C" ++ str_of_Z (k + 1)) = Ok p2
      /\ p_st p2 = Some e2 /\ p_nd p2 = None /\ resolve_cell (land e2) u d base = Ok (r, k).
  Proof.
    intros r k u d base Hr Hk. rewrite (a1_parse loads r k Hr Hk), (rc_parse loads r k Hr Hk).
    do 4 eexists. split; [reflexivity|]. split; [reflexivity|]. split; [reflexivity|].
    assert (forall first last b z, (0 <= z)%Z -> denotes first last b (CStr (str_of_Z (z + 1))) z) as X.
    { intros first last b z Hz. replace z with (z + 1 - 1)%Z at 2 by lia. apply Dn_pos; [apply py_int_str_of_Z|lia]. }
    split; [|split; [reflexivity|split; [reflexivity|split; [reflexivity|]]]]; cbn [land].
    - apply resolve_cell_spec; cbn [c_row c_col].
      + intros E. destruct (names_letters _ _ (colname_names (Z.to_N k))) as [[Hn _] _]. congruence.
      + split; [apply X; exact Hr|]. destruct (names_letters _ _ (colname_names (Z.to_N k))) as [Hl Hu].
        replace k with (Z.of_nat (N.to_nat (Z.to_N k))) at 2 by lia. apply Dc_name; [exact Hl|]. rewrite Hu. apply colname_names.
    - apply resolve_cell_spec; cbn [c_row c_col].
      + destruct (str_of_Z_number (k + 1) ltac:(lia)) as (x & y & -> & _). discriminate.
      + split; [|apply Dc_same]; apply X; assumption.
  Qed.

  (** ** C28 *)

  (** The grammar and the parser agree on what is a fragment. *)
  Theorem C28_accepted_iff_grammar : forall t,
    (exists f, accepted_text t f) <-> parse_xlref_fragment loads t <> Raise SyntaxError.
  Proof.
    intros t. split.
    - intros (f & Hf). eapply accepted_never_refused. exact Hf.
    - intros H. destruct (parse_inv loads t) as [(f & Hf & _)|E]; [eauto|contradiction].
  Qed.

  Theorem C28_accepted_parts : forall t p, parse_xlref_fragment loads t = Ok p ->
    exists f, accepted_text t f /\ p_sheet p = f_sheet f /\ p_st p = meant_st f /\ p_nd p = meant_nd f /\ p_exp p = f_exp f.
  Proof.
    intros t p H. destruct (parse_inv loads t) as [(f & Hf & E)|E]; [|congruence]. exists f. split; [exact Hf|].
    rewrite E in H. unfold expected in H. destruct (parse_filters loads (f_filt f)) as [[o c]|]; [|discriminate H].
    cbn [rbind] in H. injection H as <-. auto.
  Qed.

  Theorem C28_edges_meaningful : forall t p e, parse_xlref_fragment loads t = Ok p -> p_st p = Some e \/ p_nd p = Some e ->
    good_edge e /\ good_mod (mod_ e)
    /\ forall u d base, (c_row (land e) = CStr (lit ".") \/ c_col (land e) = CStr (lit ".") -> base <> None) ->
       exists q, resolve_cell (land e) u d base = Ok q.
  Proof.
    intros t p e H He. destruct (C28_accepted_parts t p H) as (f & Hf & _ & E1 & E2 & _). rewrite E1, E2 in He.
    destruct (accepted_body t f Hf) as (b & Hb). destruct (meant_edges b f e Hb He) as (dot & t' & Ht).
    eapply edge_good. exact Ht.
  Qed.

  (** There is always a 1st edge, and capturing ends, in the documented ways. *)
  Theorem C28_capturing_ends : forall t p m u dn base, parse_xlref_fragment loads t = Ok p -> is_margin m dn ->
    exists st, p_st p = Some st /\
      match resolve_capture_rect m (u, dn) st (p_nd p) (p_exp p) base with
      | Ok (a, Some b) => (fst a <= fst b)%Z /\ (snd a <= snd b)%Z
      | Ok (_, None) => p_nd p = None
      | Raise x => x = EmptyCapture \/ x = ValueError
      end.
  Proof.
    intros t p m u dn base H Hm. destruct (C28_accepted_parts t p H) as (f & Hf & _ & E1 & E2 & _).
    assert (exists st, p_st p = Some st) as (st & Est).
    { rewrite E1. unfold meant_st. destruct (f_st f); eauto. }
    exists st. split; [exact Est|].
    pose proof (capture_outcome m u dn st (p_nd p) (p_exp p) base) as C.
    specialize (C (proj1 (C28_edges_meaningful t p st H (or_introl Est)))).
    specialize (C (fun e E => proj1 (C28_edges_meaningful t p e H (or_intror E))) Hm).
    destruct (resolve_capture_rect m (u, dn) st (p_nd p) (p_exp p) base) as [[a [b|]]|x]; [exact C| |exact C]. apply C.
  Qed.

  (** The expansions accepted by the grammar may be meaningless, though. *)
  Theorem C28_expansions_meaningful_refuted : exists t p em, parse_xlref_fragment loads t = Ok p /\ p_exp p = Some em
    /\ parse_expansion_moves em = Raise ValueError /\ t = lit "A1::1L".
  Proof.
    exists (lit "A1::1L"). destruct (parse_xlref_fragment loads (lit "A1::1L")) as [p|] eqn:E; [|discriminate E].
    exists p, (lit "1L"). vm_compute in E. injection E as <-. repeat split; vm_compute; reflexivity.
  Qed.

  Example C28_example :
    (exists p, parse_xlref_fragment loads (lit " sheet 1!r-1c^(lu?):..(D+):LuR2") = Ok p
       /\ p_sheet p = Some (lit "sheet 1") /\ p_exp p = Some (lit "LuR2")
       /\ p_st p = Some (Edge (Cell (CStr (lit "-1")) (CStr (lit "^"))) (Some (lit "LU")) (Some (lit "?")))
       /\ p_nd p = Some (Edge (Cell (CStr (lit ".")) (CStr (lit "."))) (Some (lit "D")) (Some (lit "+"))))
    /\ parse_xlref_fragment loads (lit "A1(LR)") = Raise SyntaxError
    /\ parse_xlref_fragment loads (lit "A01") = Raise SyntaxError
    /\ parse_xlref_fragment loads (lit ".A") = Raise SyntaxError.
  Proof. split; [eexists; split; [vm_compute; reflexivity|repeat split]|]. repeat split; vm_compute; reflexivity. Qed.
End Loads.
Print Assumptions C27_print_parse.
Print Assumptions C27_empty_sheet.
Print Assumptions C27_coordinates.
Print Assumptions C28_accepted_iff_grammar.
Print Assumptions C28_accepted_parts.
Print Assumptions C28_edges_meaningful.
Print Assumptions C28_capturing_ends.
Print Assumptions C28_expansions_meaningful_refuted.

(** A filter with a "!" may be taken for the end of a sheet. *)
Definition bang_json : pystr := lit "[" ++ [34%N] ++ lit "!:" ++ [34%N] ++ lit "]".
Definition bang_loads (t : pystr) : option json :=
  if str_eqb t bang_json then Some (JList [JStr (lit "!:")]) else None.
Theorem C27_bang_in_filter_refuted : exists t f, t = lit "A1:" ++ bang_json /\ frag_text t f
  /\ f_filt f = Some bang_json /\ (exists c, filters_of (JList [JStr (lit "!:")]) None c)
  /\ parse_xlref_fragment bang_loads t = Raise ValueError.
Proof.
  exists (lit "A1:" ++ bang_json).
  exists (Frag None (Some (Edge (Cell (CStr (lit "1")) (CStr (lit "A"))) None None)) false None None (Some bang_json)).
  split; [reflexivity|]. split; [|split; [reflexivity|split]].
  - apply (Ft_none []); [intros ? []| |reflexivity].
    refine (Bt_one None (lit "A" ++ lit "1") (Some _) (lit ":" ++ [] ++ bang_json) (Some bang_json) _ _).
    + constructor. change (lit "A") with (upper (lit "A")) at 2. apply (Ct_a1 false (lit "A") (lit "1")).
      * left. split; [discriminate|]. intros c [<-|[]]. reflexivity.
      * left. exists (chr "1"), []. split; [reflexivity|]. split; [cbv; split; discriminate|intros ? []].
    + apply Tt_filters; [intros ? []|reflexivity].
  - eexists. apply Fo_other; [reflexivity|]. right. split.
    + unfold says_nothing. intros H. repeat destruct H as [H|H]; discriminate.
    + eexists. split; [reflexivity|]. apply (Co_list _ [] [] [] [] []); [cbn; lia|left; reflexivity| |]; left; split; reflexivity.
  - vm_compute. reflexivity.
Qed.
Print Assumptions C27_bang_in_filter_refuted.

Example C27_example : forall loads,
  parse_xlref_fragment loads (lit " Sheet 1!aB12(ur+):R-1C_(d):L1U?")
    = Ok (Parsed (Some (lit "Sheet 1"))
           (Some (Edge (Cell (CStr (lit "12")) (CStr (lit "AB"))) (Some (lit "UR")) (Some (lit "+"))))
           (Some (Edge (Cell (CStr (lit "-1")) (CStr (lit "_"))) (Some (lit "D")) None)) (Some (lit "L1U?")) None None)
  /\ parse_xlref_fragment loads (lit "!:") = Ok (Parsed None (Some top_left) (Some bottom_right) None None None).
Proof. intros loads. split; vm_compute; reflexivity. Qed.
Example C27_grammar_example : frag_text (lit "s!b3(L):") (Frag (Some (lit "s"))
  (Some (Edge (Cell (CStr (lit "3")) (CStr (lit "B"))) (Some (lit "L")) None)) true None None None).
Proof.
  apply (Ft_sheet [] (lit "s") (lit "b3(L):")).
  - intros ? [].
  - split; [discriminate|]. intros c [<-|[]]. reflexivity.
  - refine (Bt_two _ ((lit "b" ++ lit "3") ++ lit "(" ++ lit "L" ++ [] ++ lit ")") (Some _) (lit ":" ++ [] ++ []) None None [] None _ _ _);
      [|apply (St_some [] None [] None); reflexivity|constructor].
    apply (Et_moves false (lit "b" ++ lit "3") _ [dL] (lit "L") [] None).
    + apply (Ct_a1 false (lit "b") (lit "3")).
      * left. split; [discriminate|]. intros c [<-|[]]. reflexivity.
      * left. exists (chr "3"), []. split; [reflexivity|]. split; [cbv; split; discriminate|intros ? []].
    + apply Gm_one.
    + reflexivity.
    + left. split; reflexivity.
  - reflexivity.
Qed.

(** ** C30 *)

Theorem C30_call_specs : forall v c, parse_call_spec v = Ok c <-> call_of v c.
Proof. intros v c. split; [apply parse_call_spec_sound|apply parse_call_spec_complete]. Qed.
Print Assumptions C30_call_specs.

Theorem C30_others_are_value_errors : forall v, (forall c, ~ call_of v c) <-> parse_call_spec v = Raise ValueError.
Proof.
  intros v. split.
  - intros H. destruct (parse_call_spec v) as [c|x] eqn:E.
    + destruct (H c). apply parse_call_spec_sound. exact E.
    + f_equal. apply (parse_call_spec_raise v). exact E.
  - intros E c H. apply parse_call_spec_complete in H. congruence.
Qed.
Print Assumptions C30_others_are_value_errors.

Theorem C30_order_of_arguments : forall f a b, parse_call_spec (JList [f; a; b]) = parse_call_spec (JList [f; b; a]).
Proof.
  assert (forall f a b c, parse_call_spec (JList [f; a; b]) = Ok c -> parse_call_spec (JList [f; b; a]) = Ok c) as X.
  { intros f a b c H. apply parse_call_spec_complete. apply parse_call_spec_sound in H.
    inversion H as [|f' items la lk args kwds Hl Hf Ha Hk|]; subst. 
    apply (Co_list f' [b; a] la lk args kwds); auto. cbn [filter] in *.
    destruct (negb (json_eqb a JNull)), (negb (json_eqb b JNull)); try exact Hf.
    assert (forall x y : list json, [a; b] = x ++ y -> (length x <= 1)%nat -> (length y <= 1)%nat -> [b; a] = y ++ x) as Y.
    { intros x y E Lx Ly. destruct x as [|x1 [|? ?]]; [|cbn in E; injection E as <- <-; reflexivity|cbn in Lx; lia].
      cbn in E. subst y. cbn in Ly. lia. }
    assert (length la <= 1)%nat as La by (destruct Ha as [[-> _]| ->]; cbn; lia).
    assert (length lk <= 1)%nat as Lk by (destruct Hk as [[-> _]| ->]; cbn; lia).
    destruct Hf as [Hf|Hf]; [right|left]; apply Y; assumption. }
  intros f a b. destruct (parse_call_spec (JList [f; a; b])) as [c|x] eqn:E.
  - symmetry. apply X. exact E.
  - destruct (parse_call_spec (JList [f; b; a])) as [c|y] eqn:E'.
    + apply X in E'. congruence.
    + apply parse_call_spec_raise in E, E'. congruence.
Qed.
Print Assumptions C30_order_of_arguments.

Example C30_example :
  parse_call_spec (JList [JStr (lit "df"); JDict [(lit "header", JNum 0)]; JList [JNum 1]])
    = Ok (CallSpec (lit "df") [JNum 1] [(lit "header", JNum 0)])
  /\ parse_call_spec (JList [JStr (lit "df"); JNull; JDict []]) = Ok (CallSpec (lit "df") [] [])
  /\ parse_call_spec (JDict [(lit "kwds", JDict []); (lit "func", JStr (lit "f"))]) = Ok (CallSpec (lit "f") [] [])
  /\ parse_call_spec (JList [JStr (lit "df"); JList []; JList []]) = Raise ValueError
  /\ parse_call_spec (JDict [(lit "func", JStr (lit "f")); (lit "extra", JNull)]) = Raise ValueError
  /\ parse_call_spec (JNum 3) = Raise ValueError.
Proof. repeat split; vm_compute; reflexivity. Qed.

(** ** C51, while parsing *)

Section Encased.
  Variable loads : pystr -> option json.
  Variable urldefrag : pystr -> pystr * pystr.

  Theorem C51_encased_parse : forall sp q x, delimiter q -> only_of is_space sp -> x <> [] -> keeps_last urldefrag ->
    no_filter_look (snd (urldefrag (translate (sp ++ [q] ++ x ++ [q])))) ->
    parse_xlref loads urldefrag (sp ++ [q] ++ x ++ [q])
    = do p <- parse_xlref0 loads urldefrag x;
      Ok (ParsedXl (px p) (px_url p) (px_ref p) (Some (sp ++ [q] ++ x ++ [q]))).
  Proof.
    intros sp q x Hq Hsp Hx Hk Hnf.
    assert (parse_xlref0 loads urldefrag (sp ++ [q] ++ x ++ [q]) = Raise SyntaxError) as E0.
    { unfold parse_xlref0. assert (translate (sp ++ [q] ++ x ++ [q]) = translate (sp ++ [q] ++ x) ++ [q]) as Et.
      { rewrite !translate_app, translate_delim by exact Hq. rewrite <- !app_assoc. reflexivity. }
      rewrite Et in *. pose proof (Hk (translate (sp ++ [q] ++ x)) q Hq) as H.
      destruct (urldefrag (translate (sp ++ [q] ++ x) ++ [q])) as [u fr]. cbn [snd] in H, Hnf.
      destruct fr as [|c fr]; [reflexivity|]. destruct H as [H|(u' & H)]; [discriminate H|].
      destruct (parse_inv loads (c :: fr)) as [(f & Hf & _)|E]; [exfalso|rewrite E; reflexivity].
      pose proof Hf as Hf'. rewrite H in Hf'. apply delimiter_at_end in Hf'; [|exact Hq].
      destruct (f_filt f) as [g|] eqn:Eg; [|contradiction].
      destruct (filter_in_text _ _ _ Hf Eg) as (a & s & d & r & Ea & Hs & Hd). rewrite (Hnf a s d r Ea Hs) in Hd. discriminate Hd. }
    unfold parse_xlref. rewrite E0. destruct x as [|c x]; [contradiction|].
    pose proof (encase_match sp q c x [] Hsp Hq ltac:(intros ? [])) as Em.
    rewrite app_nil_r in Em. rewrite Em. reflexivity.
  Qed.
End Encased.
Print Assumptions C51_encased_parse.

(** The closing delimiter of an xl-ref with filters is taken for a part of the filters. *)
Definition hash_defrag (t : pystr) : pystr * pystr :=
  match split_on (chr "#") t with [u; f] => (u, f) | _ => (t, []) end.
Definition f_json : pystr := lit "[" ++ [34%N] ++ lit "f" ++ [34%N] ++ lit "]".
Definition f_loads (t : pystr) : option json := if str_eqb t f_json then Some (JList [JStr (lit "f")]) else None.
Theorem C51_encased_with_filters_refuted : exists x q p, delimiter q /\ x = lit "#A1:" ++ f_json
  /\ parse_xlref f_loads hash_defrag x = Ok p /\ parse_xlref f_loads hash_defrag ([q] ++ x ++ [q]) = Raise ValueError.
Proof.
  exists (lit "#A1:" ++ f_json), (chr "/"). eexists. split; [left; reflexivity|]. split; [reflexivity|].
  split; vm_compute; reflexivity.
Qed.
Print Assumptions C51_encased_with_filters_refuted.

Example C51_parse_example : exists p, parse_xlref f_loads hash_defrag (lit "$b.xls#A1:C3$") = Ok p
  /\ px_url p = Some (lit "b.xls") /\ px_key p = Some (lit "$b.xls#A1:C3$")
  /\ parse_xlref f_loads hash_defrag (lit "b.xls#A1:C3") = Ok (ParsedXl (px p) (px_url p) (px_ref p) None).
Proof. eexists. split; [vm_compute; reflexivity|]. repeat split; vm_compute; reflexivity. Qed.

(** ** C59 *)

Lemma plain_translate : forall s t, plain_quotes s t -> translate s = t.
Proof.
  intros s t H. induction H as [|s t H IH|s t H IH|c s t H1 H2 H IH]; [reflexivity| | |]; cbn; unfold translate in IH; rewrite IH; try reflexivity.
  apply N.eqb_neq in H1, H2. rewrite H1, H2. reflexivity.
Qed.
Theorem C59_url_and_fragment : forall loads urldefrag u f x p, cuts_at_hash urldefrag -> ~ In (chr "#") u -> f <> [] ->
  plain_quotes x (u ++ lit "#" ++ f) -> parse_xlref_fragment loads f = Ok p ->
  parse_xlref loads urldefrag x = Ok (ParsedXl p (if str_eqb u [] then None else Some u) (u ++ lit "#" ++ f) None).
Proof.
  intros loads urldefrag u f x p [Hd _] Hu Hf Hx Hp. unfold parse_xlref, parse_xlref0. rewrite (plain_translate _ _ Hx), (Hd u f Hu).
  destruct f as [|c f]; [contradiction|]. rewrite Hp. cbn [rbind]. destruct u; reflexivity.
Qed.
Print Assumptions C59_url_and_fragment.

Theorem C59_no_fragment : forall loads urldefrag x t, cuts_at_hash urldefrag -> plain_quotes x t -> ~ In (chr "#") t ->
  parse_xlref loads urldefrag x = Raise SyntaxError.
Proof.
  intros loads urldefrag x t [Hd Hd'] Hx Ht. unfold parse_xlref, parse_xlref0. rewrite (plain_translate _ _ Hx), (Hd' t Ht).
  destruct (re_match encase_regex x) as [gs|] eqn:E; [|reflexivity].
  assert (forall y, incl y x -> ~ In (chr "#") (translate y)) as Hy.
  { intros y Hy Hin. apply Ht. rewrite <- (plain_translate _ _ Hx). unfold translate in *. apply in_map_iff in Hin. destruct Hin as (c & Ec & Hc).
    apply in_map_iff. exists c. auto. }
  destruct (group "content" gs) as [y|] eqn:Eg.
  - rewrite (Hd' (translate y)); [reflexivity|]. apply Hy. exact (re_match_group _ _ _ _ _ E Eg).
  - rewrite (Hd' (translate [])); [reflexivity|intros []].
Qed.
Print Assumptions C59_no_fragment.

Fixpoint cut_hash (t : pystr) : pystr * pystr :=
  match t with
  | [] => ([], [])
  | c :: t' => if (c =? chr "#")%N then ([], t') else let (u, f) := cut_hash t' in (c :: u, f)
  end.
Example C59_cut_example : cuts_at_hash cut_hash.
Proof.
  split.
  - induction u as [|c u IH]; intros f H; [reflexivity|]. cbn [app cut_hash].
    destruct (N.eqb_spec c (chr "#")) as [->|]; [destruct H; left; reflexivity|].
    change (u ++ chr "#" :: f) with (u ++ lit "#" ++ f). rewrite (IH f); [reflexivity|]. intros X. apply H. right. exact X.
  - induction u as [|c u IH]; intros H; [reflexivity|]. cbn [cut_hash].
    destruct (N.eqb_spec c (chr "#")) as [->|]; [destruct H; left; reflexivity|]. rewrite IH; [reflexivity|]. intros X. apply H. right. exact X.
Qed.
Example C59_example : forall loads, exists p, parse_xlref loads hash_defrag (lit "dir/b.xls#s!A1") = Ok p /\ px_url p = Some (lit "dir/b.xls")
  /\ p_sheet (px p) = Some (lit "s") /\ parse_xlref loads hash_defrag (lit "$A1:B2$") = Raise SyntaxError.
Proof. intros loads. eexists. split; [vm_compute; reflexivity|]. repeat split; vm_compute; reflexivity. Qed.
Example C51_keeps_last_example : keeps_last cut_hash.
Proof.
  intros u q Hq. induction u as [|c u IH].
  - left. cbn [app cut_hash]. destruct (q =? chr "#")%N; reflexivity.
  - cbn [app cut_hash]. destruct (c =? chr "#")%N; [right; exists u; reflexivity|]. destruct (cut_hash (u ++ [q])) as [x f]. exact IH.
Qed.
