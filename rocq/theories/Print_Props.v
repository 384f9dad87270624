(** * Property C107: printed edges, and when they are read back *)
From Coq Require Import String.
From Verif Require Import PyBase PyBase_Proofs Json Coords_Model Coords_Spec Coords_Proofs ExpMoves_Model Capture_Model Capture_Spec
  Parse_Model Parse_Spec Parse_Proofs Xlref_Proofs Parse_Props Print_Model Print_Spec Print_Proofs Lasso_Model.

Section Loads.
  Variable loads : pystr -> option json.

  Lemma parsed_texts : forall t p, parse_xlref_fragment loads t = Ok p ->
    (exists st s, p_st p = Some st /\ edge_text false s st)
    /\ (forall nd, p_nd p = Some nd -> exists s, edge_text true s nd)
    /\ (forall m, p_exp p = Some m -> m <> [] /\ only_of exp_char m).
  Proof.
    intros t p H. destruct (C28_accepted_parts loads t p H) as (f & A & _ & -> & -> & ->).
    assert (exists b, body_text b f) as (b & B).
    { destruct A as [A|(sp & b & _ & _ & B & _)]; [|eauto]. inversion A; subst; eauto. }
    assert (TL : edge_text false (lit "^" ++ lit "^") top_left).
    { apply Et_plain. apply (Ct_a1 false (lit "^") (lit "^")); right; left; reflexivity. }
    assert (BR : edge_text true (lit "_" ++ lit "_") bottom_right).
    { apply Et_plain. apply (Ct_a1 true (lit "_") (lit "_")); right; right; left; reflexivity. }
    inversion B as [sh a st e fl Ha Ht E1 E2|sh a st bb nd em e fl Ha Hb Ht E1 E2]; subst; cbn [meant_st meant_nd f_st f_nd f_colon f_exp].
    - split; [|split].
      + destruct st as [st|]; unfold meant_st; cbn [f_st]; eauto.
      + unfold meant_nd; cbn [f_st f_nd f_colon]. intros nd N. destruct st; [discriminate N|]. injection N as <-. eauto.
      + discriminate.
    - inversion Hb as [t0 nd0 u em0 Hn Hu E3]. subst. split; [|split].
      + destruct st as [st|]; unfold meant_st; cbn [f_st]; eauto.
      + unfold meant_nd; cbn [f_st f_nd f_colon]. intros nd' N. destruct nd as [nd|]; injection N as <-; [|eauto]. exists t0. exact Hn.
      + intros m ->. destruct Hu as (_ & X). exact X.
  Qed.

  (** A 1st edge that was read is printed so that it is read again, exactly if its column is a
      number or its cell fits the A1 style. *)
  Theorem C107_first_partial : forall t p st, parse_xlref_fragment loads t = Ok p -> p_st p = Some st ->
    (parse_xlref_fragment loads (edge_str st) = Ok (Parsed None (Some st) None None None None) <-> printable false st).
  Proof.
    intros t p st H E. destruct (parsed_texts t p H) as ((st' & s & E' & T) & _). rewrite E in E'. injection E' as <-.
    destruct (edge_str_text false s st T) as (I & N & O). split.
    - intros P. destruct (C28_accepted_parts loads _ _ P) as (f & A & _ & Es & _). cbn [p_st] in Es.
      destruct (accepted_alone _ f N O A) as (e & Ee & X). rewrite <- Es in Ee. injection Ee as <-. apply I. exact X.
    - intros P. apply one_edge_parse. apply I. exact P.
  Qed.

  (** The same for both edges and the expansions, whose letters come out in upper case. *)
  Theorem C107_both_partial : forall t p st nd, parse_xlref_fragment loads t = Ok p -> p_st p = Some st -> p_nd p = Some nd ->
    exists s, edges_str (Some st) (Some nd) (p_exp p) = Ok s
      /\ (parse_xlref_fragment loads s = Ok (Parsed None (Some st) (Some nd) (option_map upper (p_exp p)) None None)
          <-> printable false st /\ printable true nd).
  Proof.
    intros t p st nd H E1 E2. destruct (parsed_texts t p H) as ((st' & s1 & E' & T1) & X & Y). rewrite E1 in E'. injection E' as <-.
    destruct (X nd E2) as (s2 & T2). clear X.
    destruct (edge_str_text false s1 st T1) as (I1 & N1 & O1). destruct (edge_str_text true s2 nd T2) as (I2 & N2 & O2).
    set (x := match p_exp p with None | Some [] => [] | Some m => lit ":" ++ upper m end).
    exists (edge_str st ++ lit ":" ++ edge_str nd ++ x). split; [reflexivity|].
    assert (Hx : opt_text exp_text x (option_map upper (p_exp p))).
    { unfold x. destruct (p_exp p) as [m|]; [|reflexivity]. destruct (Y m eq_refl) as (Nm & Om). cbn [option_map opt_text].
      destruct m as [|c m]; [congruence|]. split; [reflexivity|]. split; [discriminate|].
      intros d I. unfold upper in I. apply in_map_iff in I. destruct I as (y & <- & I). apply Om in I. unfold exp_char in *. rewrite up_up. exact I. }
    assert (Hx' : x = [] \/ exists m, x = lit ":" ++ m /\ only_of exp_char m).
    { destruct (option_map upper (p_exp p)); cbn in Hx; [|auto]. right. destruct Hx as (-> & _ & Om). eauto. }
    split.
    - intros P. destruct (C28_accepted_parts loads _ _ P) as (f & A & _ & Es & En & _). cbn [p_st p_nd] in Es, En.
      destruct (accepted_pair _ _ x f N1 O1 N2 O2 Hx' A) as (a & b & Ea & Ta & Eb & Tb).
      rewrite <- Es in Ea. rewrite <- En in Eb. injection Ea as <-. injection Eb as <-. split; [apply I1; exact Ta|apply I2; exact Tb].
    - intros (P1 & P2). apply I1 in P1. apply I2 in P2.
      set (f := Frag None (Some st) true (Some nd) (option_map upper (p_exp p)) None).
      assert (B : body_text (edge_str st ++ lit ":" ++ edge_str nd ++ x) f).
      { pose proof (Bt_two None (edge_str st) (Some st) (lit ":" ++ edge_str nd ++ x) (Some nd) (option_map upper (p_exp p)) [] None P1
          (St_some _ (Some nd) _ _ P2 Hx) Tt_none) as B. rewrite app_nil_r in B. exact B. }
      rewrite (print_parse loads _ f).
      + reflexivity.
      + apply (Ft_none []); [intros ? []|exact B|reflexivity].
      + intros a b E _. exfalso. assert (I : In (chr "!") (edge_str st ++ lit ":" ++ edge_str nd ++ x)) by (rewrite E; apply in_or_app; right; left; reflexivity).
        apply in_app_or in I. destruct I as [I|I]; [apply O1 in I; discriminate I|].
        apply in_app_or in I. destruct I as [[I|[]]|I]; [discriminate I|]. apply in_app_or in I. destruct I as [I|I]; [apply O2 in I; discriminate I|].
        destruct Hx' as [->|(m & -> & Om)]; [destruct I|]. apply in_app_or in I. destruct I as [[I|[]]|I]; [discriminate I|]. apply Om in I. discriminate I.
  Qed.

  (** Not every edge is printed as it can be read. *)
  Theorem C107_printed_refuted : exists t p st, parse_xlref_fragment loads t = Ok p /\ p_st p = Some st
    /\ parse_xlref_fragment loads (edge_str st) = Raise SyntaxError.
  Proof.
    exists (lit "R-1C^"). eexists. eexists. split; [vm_compute; reflexivity|]. split; [reflexivity|]. vm_compute. reflexivity.
  Qed.

  (** Just with both edges or none there is a text for them: a lone 1st edge has none. *)
  Theorem C107_lone : forall t p, parse_xlref_fragment loads t = Ok p ->
    ((exists s, edges_str (p_st p) (p_nd p) (p_exp p) = Ok s) <-> (p_st p = None \/ p_nd p <> None)) /\
    (p_st p <> None -> p_nd p = None -> edges_str (p_st p) (p_nd p) (p_exp p) = Raise TypeError).
  Proof.
    intros t p _. unfold edges_str. destruct (p_st p) as [st|], (p_nd p) as [nd|]; (split; [split|]); try congruence; eauto.
    - intros _. right. discriminate.
    - intros (s & E). discriminate.
    - intros [E|N]; congruence.
  Qed.

  (** The error of an xl-ref whose edges cannot be resolved: that of making its text, if any. *)
  Lemma edges_error_of_str : forall SH (l : lasso SH),
    edges_error l = match edges_str (l_st_edge l) (l_nd_edge l) (l_exp l) with Ok _ => ValueError | Raise e => e end.
  Proof. intros SH l. unfold edges_error, edges_str. destruct (l_st_edge l), (l_nd_edge l); reflexivity. Qed.
End Loads.

Print Assumptions C107_first_partial.
Print Assumptions C107_both_partial.
Print Assumptions C107_lone.
Print Assumptions C107_printed_refuted.

(** Texts, and what they are read and printed as. *)
Definition again (t : string) : option (pystr * option (option pystr)) :=
  match parse_xlref_fragment (fun _ => None) (lit t) with
  | Ok p => match edges_str (p_st p) (p_nd p) (p_exp p) with
            | Ok s => Some (s, match parse_xlref_fragment (fun _ => None) s with
                               | Ok q => match edges_str (p_st q) (p_nd q) (p_exp q) with Ok s' => Some (Some s') | Raise _ => Some None end
                               | Raise _ => None end)
            | Raise _ => None
            end
  | Raise _ => None
  end.
Example C107_read_again :
  again "sheet!b3(dr+):r-2c7:lu?" = Some (lit "B3(DR+):R-2C7:LU?", Some (Some (lit "B3(DR+):R-2C7:LU?"))) /\
  again ":" = Some (lit "^^:__", Some (Some (lit "^^:__"))) /\
  again "A1:..(UL)" = Some (lit "A1:..(UL)", Some (Some (lit "A1:..(UL)"))) /\
  again "A1" = None /\
  again "R.C1:" = Some (lit "R.C1:__", Some (Some (lit "R.C1:__"))).
Proof. vm_compute. repeat split. Qed.
Example C107_not_again :
  again "R.C^:" = Some (lit "^.:__", None) /\
  again "A1:R-1C_" = Some (lit "A1:_-1", None).
Proof. vm_compute. repeat split. Qed.
Example C107_numbers_fit : printable false (Edge (Cell (CStr (lit "-2")) (CStr (lit "7"))) None None)
  /\ ~ printable false (Edge (Cell (CStr (lit "-1")) (CStr (lit "^"))) None None).
Proof.
  split.
  - left. exists (lit "7"). split; [reflexivity|]. left. exists (chr "7"), []. split; [reflexivity|]. split; [vm_compute; split; discriminate|intros ? []].
  - intros [(s & E & X)|(N & _)]; [|exact (N (lit "1") eq_refl)]. injection E as <-.
    destruct X as [(d & t & Y & D & _)|(t & Y & _)]; [injection Y as <- _; destruct D as (_ & D); vm_compute in D; congruence|discriminate Y].
Qed.
