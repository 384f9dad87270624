(** * Recursive lassos over files: proofs *)
From Coq Require Import String QArith.
From Verif Require Import PyBase PyBase_Proofs Json Regex Coords_Model Coords_Spec Coords_Proofs Capture_Model Capture_Spec Capture_Proofs Capture_Props.
From Verif Require Import Parse_Model Parse_Spec Xlref_Proofs Parse_Props ExpMoves_Model ExpMoves_Spec Lasso_Model Lasso_Spec Lasso_Proofs Ranger_Props Sheets_Model Sheets_Spec Sheets_Props.
From Verif Require Import OsPath_Model OsPath_Spec Url_Spec FileUrl_Model FileUrl_Spec FileUrl_Proofs FileUrl_Props ReadRect_Model ReadRect_Spec ReadRect_Props.
From Verif Require Import Dates_Model Dates_Spec Dates_Proofs Dates_Props Whole_Model Whole_Spec Whole_Proofs Whole_Props Meaning_Spec Meaning_Proofs Meaning_Props.
From Verif Require Import Regex_Proofs Calls_Proofs Recur_Model Recur_Spec.
Open Scope Z_scope.

(** ** Cells have one value *)

Lemma time_fun : forall ms t u, time_of_day ms t -> time_of_day ms u -> t = u.
Proof.
  intros ms [[[h m] s] us] [[[h' m'] s'] us'] (A1 & A2 & A3 & A4 & A5) (B1 & B2 & B3 & B4 & B5).
  assert (us = us') as -> by lia. assert (s = s') as -> by lia. assert (m = m') as -> by lia. assert (h = h') as -> by lia. reflexivity.
Qed.
Lemma shows_fun : forall x v w, (x_type x = XDate -> forall n m, serial_ms (x_num x) n -> serial_ms (x_num x) m -> n = m) ->
  shows x v -> shows x w -> v = w.
Proof.
  intros x v w U Hv Hw.
  destruct Hv as [x n T E|x T E|x T|x T E|x T E|x T|x v T M]; destruct Hw as [x' n' T' E'|x' T' E'|x' T'|x' T' E'|x' T' E'|x' T'|x' v' T' M'];
    try congruence; try contradiction; try (exfalso; match goal with E : forall n, ~ _, F : _ |- _ => exact (E _ F) end).
  - f_equal. rewrite E in E'. unfold Qeq in E'. cbn [Qnum Qden inject_Z] in E'. lia.
  - destruct M as (n & S & N & M), M' as (n' & S' & _ & M'). rewrite <- (U T n n' S S') in M'. clear n' S'.
    destruct M as [(D & t & -> & M)|(D & d & -> & M)], M' as [(D' & t' & -> & M')|(D' & d' & -> & M')]; try lia.
    + rewrite (time_fun _ _ _ M M'). reflexivity.
    + destruct M as (M1 & M2), M' as (M1' & M2'). pose proof (proj2 (C98_order _ _ _ _ M1 M1') eq_refl) as X. pose proof (time_fun _ _ _ M2 M2') as Y.
      destruct d as [dd dt], d' as [dd' dt']. cbn [d_date d_time] in X, Y. subst. reflexivity.
Qed.
Lemma cell_fun : forall s r c v w, sharp_sheet s -> xlrd_cell shows s r c v -> xlrd_cell shows s r c w -> v = w.
Proof.
  intros s r c v w S [(I & B & H)|(N & ->)] [(I' & B' & H')|(N' & ->)]; [|exfalso; apply N'; auto|exfalso; apply N; auto|reflexivity].
  exact (shows_fun _ _ _ (S r c I) H H').
Qed.
Lemma nth_error_ext {A} : forall (l m : list A), length l = length m -> (forall i x y, nth_error l i = Some x -> nth_error m i = Some y -> x = y) -> l = m.
Proof.
  induction l as [|x l IH]; intros [|y m] L H; try discriminate L; [reflexivity|].
  f_equal; [exact (H 0%nat x y eq_refl eq_refl)|]. apply IH; [injection L; auto|]. intros i. exact (H (S i)).
Qed.
Lemma placed_fun : forall s a b t u, sharp_sheet s -> placed (xlrd_cell shows s) a b t -> placed (xlrd_cell shows s) a b u -> t = u.
Proof.
  intros s a b t u S (L & H) (L' & H'). apply nth_error_ext; [congruence|]. intros i row row' E E'.
  destruct (H i row E) as (K & G), (H' i row' E') as (K' & G'). apply nth_error_ext; [congruence|]. intros j x y F F'.
  exact (cell_fun s _ _ _ _ S (G j x F) (G' j y F')).
Qed.
Lemma holds_fun : forall to_json no_empty s r v w, sharp_sheet s -> holds to_json no_empty s r v -> holds to_json no_empty s r w -> v = w.
Proof.
  intros tj ne s [[a [b|]]|e] v w S; cbn [holds].
  - intros (t & -> & P) (u & -> & Q). rewrite (placed_fun s a b t u S P Q). reflexivity.
  - intros (_ & x & -> & P) (_ & y & -> & Q). rewrite (cell_fun s _ _ x y S P Q). reflexivity.
  - destruct e; try contradiction. intros (_ & ->) (_ & ->). reflexivity.
Qed.

Section Recur.
  Variable lossy : list N -> pystr.
  Variable bad_host : pystr -> bool.
  Variable expandvars : pystr -> pystr.
  Variable expanduser_tilde : pystr -> pystr.
  Variable word_char : pychar -> bool.
  Variable set_list : list key -> list key.
  Variable disk : source -> option xbook.
  Variable to_json : xvalue -> json.
  Variable loads : pystr -> option json.
  Variable base_opts : dict.
  Variable folders : list pystr.
  Variable has_pandas : bool.
  Variable others : pystr -> option (Lasso_Model.filter xworld (nat * xl)).

  Hypothesis Hset : distinct_members set_list.
  Hypothesis Hdisk : forall s b, disk s = Some b -> NoDup (xb_names b).
  Hypothesis Hcwd : Forall name folders.
  Hypothesis Hcwd' : Forall (Forall scalar) folders.
  Variable effect : pystr -> list json -> list (pystr * json) -> json -> json -> Prop.
  (** The other filters have the effects told, and open no sheets. *)
  Hypothesis Hothers : forall name args kwds v v', effect name args kwds v v' -> exists f, others name = Some f /\
    forall l s, l_values l = v -> exists i, f_run f l args kwds s = (State (world s) i, Ok (inl (with_values v' l))).

  Notation cwd := (folder_path folders).
  Notation fetch := (fetch lossy bad_host expandvars expanduser_tilde word_char set_list disk cwd).
  Notation throw F := (do_lasso F base_opts loads (urldefrag bad_host) fetch states_of margins_of (read_of to_json)).
  Notation coherent := (coherent lossy bad_host expandvars expanduser_tilde word_char disk folders).
  Notation steady := (steady lossy bad_host expandvars expanduser_tilde word_char disk folders).
  Notation table := (table lossy bad_host expandvars expanduser_tilde word_char set_list disk to_json loads base_opts cwd has_pandas others).
  Notation stands := (stands (word word_char) cwd disk to_json loads (on (lit "no_empty") base_opts) (has_pandas = true) effect).
  Notation stands_by := (stands_by (word word_char) cwd disk to_json loads (on (lit "no_empty") base_opts)).
  Notation acts := (acts (word word_char) cwd disk to_json loads (on (lit "no_empty") base_opts) (has_pandas = true) effect).
  Notation refers := (refers (word word_char) cwd disk).
  Notation holds := (holds to_json (on (lit "no_empty") base_opts)).
  Notation filter := (Lasso_Model.filter xworld (nat * xl)).

  (** ** Parsing *)

  Lemma any_parse : forall p t f c, p = [] \/ (local_path p /\ no_quotes p /\ no_semicolon_end p) -> frag_text t f -> readable t f -> url_text t ->
    (f_filt f = None /\ c = None) \/ (exists js j, f_filt f = Some js /\ loads js = Some j /\ filters_of j None c) ->
    parse_xlref loads (urldefrag bad_host) (p ++ lit "#" ++ t)
    = Ok (ParsedXl (Parsed (f_sheet f) (meant_st f) (meant_nd f) (f_exp f) None c) (match p with [] => None | _ => Some p end) (p ++ lit "#" ++ t) None).
  Proof.
    intros p t f c PP F R (NE & (Q1' & Q2') & T) C.
    pose proof (C27_print_parse loads t f F R) as P.
    assert (P' : parse_xlref_fragment loads t = Ok (Parsed (f_sheet f) (meant_st f) (meant_nd f) (f_exp f) None c)).
    { destruct C as [(N & ->)|(js & j & N & L & FO)]; rewrite N in P; [exact P|]. exact (proj1 P j None c L FO). }
    assert (D : urldefrag bad_host (p ++ lit "#" ++ t) = (p, t)).
    { destruct PP as [ -> |(L & _ & S)].
      - pose proof (hash_alone bad_host loads t) as D. rewrite (strip_id t T) in D. exact D.
      - pose proof (defrag_local bad_host p t L S) as D. rewrite (strip_id t T) in D. exact D. }
    assert (Q : no_quotes (p ++ lit "#" ++ t)).
    { split; intros I; apply in_app_or in I; (destruct I as [I|I]; [destruct PP as [ -> |(_ & (Q1 & Q2) & _)]; contradiction|]); apply in_app_or in I; destruct I as [[I|[]]|I]; try discriminate I; contradiction. }
    exact (parse_of _ _ _ _ _ _ (translate_plain _ Q) D NE P').
  Qed.


  Lemma no_hash : forall x, ~ In (chr "#") x -> parse_xlref loads (urldefrag bad_host) x = Raise SyntaxError.
  Proof.
    intros x H. assert (Z : forall y, ~ In (chr "#") y -> parse_xlref0 loads (urldefrag bad_host) y = Raise SyntaxError).
    { intros y Hy. unfold parse_xlref0. rewrite (defrag_none bad_host _ (hash_stays _ Hy)). reflexivity. }
    unfold parse_xlref. rewrite (Z x H). destruct (re_match encase_regex x) as [gs|] eqn:E; [|reflexivity].
    destruct (group "content" gs) as [y|] eqn:Eg.
    - rewrite (Z y); [reflexivity|]. intros I. apply H. exact (re_match_group _ _ _ _ _ E Eg _ I).
    - rewrite (Z []); [reflexivity|intros []].
  Qed.

  (** ** The sheet *)

  Definition at_sheet (w : xworld) (sh : option (nat * xl)) (at_ : place) : Prop :=
    match at_ with
    | None => True
    | Some (b, j) => exists k o, sh = Some (k, o) /\ nth_error (x_sheets w) k = Some o /\ steady o /\ o_book o = b /\ o_index o = j
    end.

  Lemma fetch_same : forall k o w i, nth_error (x_sheets w) k = Some o -> fetch None None (Some (k, o)) (State w i) = (State w i, Ok (k, o)).
  Proof.
    intros k o w i E. unfold Whole_Model.fetch. cbn [world inter sheet_id option_map fst fetch_sheet]. rewrite Nat.eqb_refl. cbn [rbind]. rewrite E. destruct w; reflexivity.
  Qed.

  Lemma reaches : forall at_ p n b i sh w, refers at_ p n b i -> at_sheet w sh at_ -> coherent w ->
    exists w2 k o, (forall st, fetch (match p with [] => None | _ => Some p end) n sh (State w st) = (State w2 st, Ok (k, o))) /\
      coherent w2 /\ more_sheets w w2 /\ nth_error (x_sheets w2) k = Some o /\ steady o /\ o_book o = b /\ o_index o = i.
  Proof.
    intros at_ p n b i sh w [(B & D & N)|( -> & j & -> & N)] A C.
    - destruct (any_opens lossy bad_host expandvars expanduser_tilde word_char disk loads (fun _ => None) folders Hdisk Hcwd Hcwd' ltac:(discriminate) p b n i B D N) as (url & O).
      assert (match p with [] => None | _ => Some p end = Some p) as -> by (destruct B as ((_ & (c & q & -> & _) & _) & _); reflexivity).
      destruct (fetch_total lossy bad_host expandvars expanduser_tilde word_char set_list disk folders (Some p) n sh w) as (w2 & q & FT).
      destruct (fetch_spec lossy bad_host expandvars expanduser_tilde word_char set_list disk loads others folders Hset Hdisk Hcwd Hcwd' w None (Some p) n sh (State w2 None) q C (proj1 B) (FT None)) as (C2 & _ & MS & Y).
      change (opens_to lossy bad_host expandvars expanduser_tilde word_char disk cwd (Some p) (sheet_id n) sh)
        with (opens_to lossy bad_host expandvars expanduser_tilde word_char disk cwd (Some p) (sheet_id n) None) in Y.
      rewrite O in Y. destruct Y as (k & -> & G & ST). exists w2, k, (Xl url b i). repeat (split; [assumption|]). split; reflexivity.
    - destruct A as (k & o & -> & G & ST & OB & OI). destruct n as [n|].
      + destruct (fetch_total lossy bad_host expandvars expanduser_tilde word_char set_list disk folders None (Some n) (Some (k, o)) w) as (w2 & q & FT).
        destruct (fetch_spec lossy bad_host expandvars expanduser_tilde word_char set_list disk loads others folders Hset Hdisk Hcwd Hcwd' w None None (Some n) (Some (k, o)) (State w2 None) q C
          ltac:(split; [discriminate|split; assumption]) (FT None)) as (C2 & _ & MS & Y).
        destruct ST as (U & sh0 & E). destruct (open_url_book lossy bad_host expandvars expanduser_tilde word_char disk folders Hdisk _ _ _ E) as (_ & _ & ND & _).
        assert (O : open_in_book (o_url o) (o_book o) (SStr n) = Ok (Xl (o_url o) b i)).
        { unfold open_in_book. rewrite (open_named _ n i ND); [|rewrite OB; exact N]. rewrite OB. reflexivity. }
        cbn [opens_to sheet_id snd] in Y. rewrite O in Y. destruct Y as (k' & -> & G' & ST'). exists w2, k', (Xl (o_url o) b i).
        repeat (split; [assumption|]). split; reflexivity.
      + exists w, k, o. split; [intros st; apply fetch_same; exact G|]. split; [exact C|]. split; [intros x y X; exact X|]. subst i. auto.
  Qed.

  (** ** The values *)

  Lemma throw_reads : forall F at_ p t f c b i r v0 base ctx s, frag_text t f -> readable t f -> url_text t ->
    (f_filt f = None /\ c = None) \/ (exists js j, f_filt f = Some js /\ loads js = Some j /\ filters_of j None c) ->
    refers at_ p (f_sheet f) b i -> sound_sheet (xb_sheet b i) -> sharp_sheet (xb_sheet b i) -> captures (xb_sheet b i) f base r -> holds (xb_sheet b i) r v0 ->
    (forall a, base = Some a -> 0 <= fst a /\ 0 <= snd a) ->
    l_url ctx = None -> l_sheet_name ctx = None -> l_nd_edge ctx = None -> l_exp ctx = None -> l_call ctx = None -> l_base ctx = base ->
    coherent (world s) -> at_sheet (world s) (l_sheet ctx) at_ ->
    exists w2 k o lv, throw F (p ++ lit "#" ++ t) ctx s = run_filters F lv (at_stage w2 "read_rect" lv) /\ coherent w2 /\ more_sheets (world s) w2 /\
      nth_error (x_sheets w2) k = Some o /\ steady o /\ o_book o = b /\ o_index o = i /\
      l_sheet lv = Some (k, o) /\ l_st lv = start r /\ l_values lv = v0 /\ l_call lv = c /\ l_opts lv = base_opts /\ (forall a, start r = Some a -> 0 <= fst a /\ 0 <= snd a).
  Proof.
    intros F at_ p t f c b i r v0 base ctx s FT R T FL RF S SH CP HV NB N1 N2 N3 N4 N5 N6 C AT.
    destruct (reaches _ _ _ _ _ _ _ RF AT C) as (w2 & k & o & FE & C2 & MS & G & ST & OB & OI).
    assert (PP : p = [] \/ (local_path p /\ no_quotes p /\ no_semicolon_end p)).
    { destruct RF as [((B1 & B2 & B3 & _) & _)|( -> & _)]; [right|left]; auto. }
    pose proof (any_parse p t f c PP FT R T FL) as P.
    destruct CP as (m & up & e1 & M & U & E1 & I1 & I2 & X).
    set (sh := xb_sheet b i) in *.
    assert (OS : o_sheet o = sh) by (unfold o_sheet, sh; rewrite OB, OI; reflexivity).
    assert (MM : forall q, full m q <-> full (xlrd_states sh) q) by (intros q; rewrite C67_xlrd_full; apply M).
    pose proof S as (S1 & S2 & S3).
    pose proof (C67_xlrd sh S1 S2) as MG. pose proof (C67_xlrd_is_margin sh _ _ MG) as IM.
    assert (UP : first_of (xlrd_states sh) (fst (margin_coords (xlrd_states sh)))).
    { destruct (Target_Proofs.some_full_dec (xlrd_states sh)) as [Y|Y].
      - left. destruct (C19_tight_box _ Y) as (A1 & A2 & A3 & _). split; [intros q Q; destruct (A1 q Q); lia|]. auto.
      - right. split; [exact Y|]. rewrite (C19_empty _ Y). reflexivity. }
    assert (up = fst (margin_coords (xlrd_states sh))) as -> by exact (first_unique _ _ _ (first_same _ _ MM _ U) UP).
    assert (NU : 0 <= fst (fst (margin_coords (xlrd_states sh))) /\ 0 <= snd (fst (margin_coords (xlrd_states sh)))).
    { destruct UP as [(_ & (q & Q & <-) & (q' & Q' & <-))|(_ & ->)]; [|cbn; lia]. destruct (full_nonneg _ _ Q), (full_nonneg _ _ Q'). auto. }
    change (Z.of_nat (xs_rows sh) - 1, Z.of_nat (xs_cols sh) - 1) with (last_of sh) in *.
    apply (means_same _ _ MM) in X. destruct NU as (NU1 & NU2).
    destruct (frag_edges t f FT) as (e1' & E1' & W1 & W2). assert (e1' = e1) as -> by congruence.
    assert (RR : match r with Ok (a, b) => nonneg a /\ match b with Some b => sorted_rect a b | None => meant_nd f = None end | Raise _ => True end).
    { destruct r as [[a d]|]; [|exact Logic.I]. refine (means_rect (xlrd_states sh) _ _ base e1 _ _ W1 W2 IM (conj NU1 NU2) NB I1 I2 _ a d X).
      intros em Y. destruct (frag_expansion t f em FT Y) as (Y1 & Y2). split; [exact Y1|exact (exp_no_newline em Y2)]. }
    apply (C102_capture t f _ _ _ base e1 FT E1 IM NU1 NU2 NB I1 I2) in X.
    assert (exists l1, parse_and_merge loads (urldefrag bad_host) (p ++ lit "#" ++ t) (with_opts base_opts ctx) = Ok l1
      /\ l_url l1 = match p with [] => None | _ => Some p end
      /\ l_sheet_name l1 = f_sheet f /\ l_sheet l1 = l_sheet ctx /\ l_st_edge l1 = Some e1 /\ l_nd_edge l1 = meant_nd f /\ l_exp l1 = f_exp f /\ l_call l1 = c
      /\ l_base l1 = base /\ l_opts l1 = base_opts) as (l1 & M0 & M1 & M2 & M3 & M4 & M5 & M6 & M7 & M8 & M9).
    { unfold parse_and_merge. rewrite P. cbn [px_key px p_sheet p_st p_nd p_exp p_call p_opts px_url px_ref]. eexists. split; [reflexivity|].
      cbn [l_url l_sheet_name l_sheet l_st_edge l_nd_edge l_exp l_call l_base l_opts with_opts].
      rewrite E1, N1, N2, N3, N4, N5. split; [destruct p; reflexivity|]. destruct (f_sheet f), (meant_nd f), (f_exp f), c; repeat (split; [assumption || reflexivity|]); reflexivity. }
    (* the capture and the values *)
    assert (exists st nd, resolve_rect states_of margins_of (with_sheet (k, o) l1) (k, o) = Ok (st, nd) /\ st = start r /\ read (read_of to_json) (k, o) st nd = Ok v0)
      as (st & nd & RX & RS & RV).
    { unfold resolve_rect. cbn [with_sheet l_st_edge l_nd_edge l_exp l_base l_opts]. unfold states_of, margins_of. cbn [snd rbind]. rewrite OS, MG. cbn [rbind].
      rewrite M4, M5, M6, M8, M9, X. destruct r as [[a [d|]]|x].
      - exists (Some a), (Some d). split; [reflexivity|]. split; [reflexivity|]. destruct (xlrd_shows sh a d S (proj2 RR)) as (tb & E & PL).
        unfold read, read_of, wrapped_read_rect. cbn [snd w_sheet w_epoch1904]. rewrite OS, E. cbn [rbind json_of].
        f_equal. apply (holds_fun to_json (on (lit "no_empty") base_opts) sh (Ok (a, Some d)) _ _ SH); [|exact HV]. exists tb. split; [|exact PL]. unfold rows_of. rewrite map_map. reflexivity.
      - exists (Some a), None. split; [reflexivity|]. split; [reflexivity|]. destruct RR as (A & _).
        pose proof HV as (DI & _). rewrite <- OS in S, DI. destruct (taken_read to_json k o a None S A DI) as (v & E & T').
        unfold read. cbn [option_map] in E. rewrite E. f_equal. apply (holds_fun to_json (on (lit "no_empty") base_opts) sh (Ok (a, None)) _ _ SH); [|exact HV]. rewrite <- OS. exact T'.
      - destruct x; try contradiction. destruct HV as (NO & ->). exists None, None.
        destruct (opt "no_empty" base_opts) eqn:OP; [apply opt_on in OP; contradiction|]. auto. }
    exists w2, k, o, (with_values v0 (with_rect st nd (with_sheet (k, o) l1))).
    split. { rewrite do_lasso_eq. cbv zeta. rewrite M0. unfold open_sheet, catching, at_stage. rewrite M1, M2, M3, FE. cbn beta iota. rewrite RX, RV. reflexivity. }
    repeat (split; [assumption|]). split; [reflexivity|]. split; [exact RS|]. split; [reflexivity|]. split; [exact M7|]. split; [exact M9|].
    intros a A. destruct r as [[a' d]|]; [|discriminate A]. injection A as ->. exact (proj1 RR).
  Qed.

  (** ** Arguments *)

  Lemma sdel_without : forall k (d : dict), sdel k d = without k d.
  Proof.
    intros k d. unfold without. induction d as [|[k' x] d IH]; [reflexivity|]. unfold sdel. cbn [ddel List.filter fst]. change (ddel str_eqb k d) with (sdel k d). rewrite IH.
    rewrite (str_eqb_sym k k'). destruct (str_eqb k' k); reflexivity.
  Qed.
  Lemma sget_without : forall k n (d : dict), k <> n -> sget n (without k d) = sget n d.
  Proof.
    intros k n d H. unfold without, sget. induction d as [|[k' x] d IH]; [reflexivity|]. cbn [List.filter fst].
    destruct (str_eqb k' k) eqn:E; cbn [negb dget]; rewrite IH; [|reflexivity]. apply str_eqb_eq in E. subst k'.
    destruct (str_eqb n k) eqn:E'; [apply str_eqb_eq in E'; congruence|reflexivity].
  Qed.
  Lemma in_without : forall k n x (d : dict), In (n, x) (without k d) <-> In (n, x) d /\ n <> k.
  Proof.
    intros k n x d. unfold without. rewrite filter_In. cbn [fst]. destruct (str_eqb n k) eqn:E; cbn [negb].
    - apply str_eqb_eq in E. subst. intuition discriminate.
    - intuition. apply str_eqb_neq in E. contradiction.
  Qed.

  Lemma bind_gen : forall args names (kw : dict), (length args <= length names)%nat ->
    forallb (fun kv => existsb (str_eqb (fst kv)) (skipn (length args) names)) kw = true -> bind_names names args kw = Some (combine names args ++ kw).
  Proof.
    intros args. induction args as [|a args IH]; intros names kw L F.
    - cbn [skipn length] in F. destruct names; cbn [bind_names combine app]; rewrite F; reflexivity.
    - destruct names as [|n names]; [cbn in L; lia|]. cbn [length skipn] in F, L. cbn [bind_names combine app]. rewrite IH; [reflexivity|lia|exact F].
  Qed.
  Lemma nth_skipn : forall A k (l : list A) i, nth_error (skipn k l) i = nth_error l (k + i)%nat.
  Proof. intros A k. induction k as [|k IH]; intros [|x l] i; try reflexivity; [destruct i; reflexivity|]. cbn [skipn plus nth_error]. apply IH. Qed.
  Lemma bound : forall c, known c -> exists d, bind_names parameters (cs_args c) (without (lit "lax") (cs_kwds c)) = Some d /\
    forall i n v, nth_error names_in_order i = Some n -> given c i n v -> sget (lit n) d = v.
  Proof.
    intros [f args kw] (L & K). cbn [cs_args cs_kwds] in *. exists (combine parameters args ++ without (lit "lax") kw). split.
    - apply bind_gen; [exact L|]. apply forallb_forall. intros [k x] I. apply in_without in I. destruct I as (I & N). destruct (K k x I) as [E|(i & n & Li & E & ->)]; [contradiction|].
      apply existsb_exists. exists (lit n). split; [|apply str_eqb_refl]. cbn [fst]. unfold parameters. change ([lit "filters"; lit "include"; lit "exclude"; lit "depth"]) with (map lit names_in_order).
      apply nth_error_In with (i - length args)%nat. rewrite nth_skipn. replace (length args + (i - length args))%nat with i by lia. rewrite (map_nth_error lit _ _ E). reflexivity.
    - intros i n v E G. unfold given in G. cbn [cs_args cs_kwds] in G.
      assert (W : sget (lit n) (without (lit "lax") kw) = sget (lit n) kw).
      { apply sget_without. intros X. destruct i as [|[|[|[|i]]]]; cbn in E; try (destruct i; discriminate E); injection E as <-; discriminate X. }
      revert E G W. generalize (without (lit "lax") kw) as kw'. intros kw' E G W.
      assert (X : sget (lit n) (combine parameters args ++ kw') = match nth_error args i with Some v => Some v | None => sget (lit n) kw' end).
      { destruct args as [|a0 [|a1 [|a2 [|a3 [|a4 args]]]]]; [| | | | |cbn in L; lia]; (destruct i as [|[|[|[|i]]]]; cbn in E; try (destruct i; discriminate E)); injection E as <-; reflexivity. }
      rewrite X, W. destruct v as [v|].
      + destruct G as [ -> |(Li & G)]; [reflexivity|]. rewrite (proj2 (nth_error_None args i)) by exact Li. exact G.
      + destruct G as (Li & G). rewrite (proj2 (nth_error_None args i)) by exact Li. exact G.
  Qed.

  Definition told (default : json) (j : option json) : json := match j with Some v => v | None => default end.
  Lemma keys_texts : forall j ks, keys_told j ks -> exists o, texts_of (told JNull j) = Some o /\ ((o = None /\ ks = []) \/ o = Some ks).
  Proof.
    intros [[| | |s|l|]|] ks H; cbn [keys_told told] in *; try contradiction.
    - exists None. auto.
    - destruct H as [( -> & ->)|(N & ->)]; [exists None; auto|]. exists (Some [s]). destruct s; [contradiction|]. auto.
    - subst l. exists (Some ks). split; [|auto]. cbn [texts_of]. induction ks as [|k ks IH]; [reflexivity|]. cbn [map]. rewrite IH. reflexivity.
    - exists None. auto.
  Qed.
  Lemma mem_str : forall k ks, existsb (str_eqb k) ks = true <-> In k ks.
  Proof.
    intros k ks. rewrite existsb_exists. split; [intros (x & I & E); apply str_eqb_eq in E; subst; exact I|intros I; exists k; split; [exact I|apply str_eqb_refl]].
  Qed.
  Lemma included_iff : forall oi oe inc exc k, (oi = None /\ inc = []) \/ oi = Some inc -> (oe = None /\ exc = []) \/ oe = Some exc ->
    is_included oi oe k = true <-> included inc exc k.
  Proof.
    intros oi oe inc exc k HI HE. unfold is_included, included. rewrite Bool.andb_true_iff.
    assert (A : match oi with None | Some [] => true | Some l => existsb (str_eqb k) l end = true <-> inc = [] \/ In k inc).
    { destruct HI as [( -> & ->)| -> ]; [intuition|]. destruct inc as [|x inc]; [intuition|]. rewrite mem_str. intuition discriminate. }
    assert (B : match oe with None | Some [] => true | Some l => negb (existsb (str_eqb k) l) end = true <-> ~ In k exc).
    { destruct HE as [( -> & ->)| -> ]; [intuition|]. destruct exc as [|x exc]; [intuition|]. rewrite <- mem_str. destruct (existsb (str_eqb k) (x :: exc)); intuition discriminate. }
    rewrite A, B. reflexivity.
  Qed.
  Lemma stops_iff : forall j n, 0 <= n -> stop (depth_of (told (JNum (-1)) j)) n = true <-> stops j n.
  Proof.
    intros [[|[|]|z| | |]|] n H; cbn [told depth_of stops]; unfold stop; rewrite ?Z.eqb_eq; intuition (discriminate || lia).
  Qed.
  Lemma calls_items : forall j cs, calls_told j cs -> exists l, items_of (told (JList []) j) = Some l /\ rmap parse_call_spec l = Ok cs.
  Proof.
    intros [[| | | |l|]|] cs H; cbn [calls_told told] in *; try contradiction.
    - exists l. split; [reflexivity|]. induction H as [|x c l cs X H IH]; [reflexivity|]. cbn [rmap]. rewrite (parse_call_spec_complete x c X). cbn [rbind]. rewrite IH. reflexivity.
    - subst cs. exists []. auto.
  Qed.

  (** ** Diving *)

  Definition good_base (base : option coords) : Prop := forall a, base = Some a -> 0 <= fst a /\ 0 <= snd a.
  Lemma good_upd : forall n base i, good_base base -> 0 <= i -> good_base (upd_base_coords has_pandas n base i).
  Proof.
    intros n [[r c]|] i H I a E; [|discriminate E]. destruct (H _ eq_refl) as (H1 & H2). cbn [fst snd] in *. unfold upd_base_coords in E.
    destruct has_pandas; [injection E as <-; cbn; lia|]. destruct (n =? 0); [injection E as <-; cbn; lia|]. destruct (n =? 1); injection E as <-; cbn; lia.
  Qed.
  Lemma upd_item : forall n base i, item_at (has_pandas = true) n base i (upd_base_coords has_pandas n base (Z.of_nat i)).
  Proof.
    intros n base i. unfold item_at. destruct has_pandas; (split; [intros H|intros H]); try discriminate H; try contradiction; destruct base as [[r c]|]; try reflexivity.
    cbn [upd_base_coords option_map fst snd]. destruct (n =? 0), (n =? 1); reflexivity.
  Qed.

  Definition inv (k : nat) (o : xl) (w w' : xworld) : Prop := coherent w' /\ nth_error (x_sheets w') k = Some o /\ more_sheets w w'.
  Lemma inv_refl : forall k o w, coherent w -> nth_error (x_sheets w) k = Some o -> inv k o w w.
  Proof. intros k o w C G. split; [exact C|]. split; [exact G|]. intros n x X. exact X. Qed.
  Lemma inv_trans : forall k o a b c, inv k o a b -> inv k o b c -> inv k o a c.
  Proof. intros k o a b c (_ & _ & M) (C & G & M'). split; [exact C|]. split; [exact G|]. intros n x X. apply M', M, X. Qed.

  Notation element F := (recurse_element F base_opts loads (urldefrag bad_host) fetch states_of margins_of (read_of to_json)).

  Section Dive.
    Variable F : pystr -> option filter.
    Variable lv : lasso (nat * xl).
    Variable R : option coords -> pystr -> json -> Prop.
    Variables (k : nat) (o : xl).
    Variable cs : list call_spec.
    Definition like_cs (cs' : list call_spec) : Prop := map pop_lax cs' = map pop_lax cs.
    Variables (inc : pystr -> Prop) (oi oe : option (list pystr)) (od : option Z) (stp : Z -> Prop).
    Hypothesis Hinc : forall key, is_included oi oe key = true <-> inc key.
    Hypothesis Hstop : forall n, 0 <= n -> stop od n = true <-> stp n.
    Hypothesis step : forall base t v s cs', good_base base -> R base t v -> coherent (world s) -> nth_error (x_sheets (world s)) k = Some o -> like_cs cs' ->
      exists s' cs'', call_element_func F (element F) lv (JStr t) base (s, cs') = ((s', cs''), Ok (Some v)) /\ inv k o (world s) (world s') /\ like_cs cs''.
    Notation dv := (dive F (element F) has_pandas lv oi oe od).
    Notation elems := (dive_elems F (element F) has_pandas lv oi oe od).
    Notation ditems := (dive_items F (element F) has_pandas lv oi oe od).

    Lemma stop_cases : forall n, 0 <= n -> (stop od n = true /\ stp n) \/ (stop od n = false /\ ~ stp n).
    Proof. intros n H. pose proof (Hstop n H) as X. destruct (stop od n); [left; split; [reflexivity|apply X; reflexivity]|right; split; [reflexivity|intros Y; apply X in Y; discriminate Y]]. Qed.

    Definition dives (n : Z) (base : option coords) (x y : json) : Prop := good_base base -> 0 <= n ->
      forall s cs', coherent (world s) -> nth_error (x_sheets (world s)) k = Some o -> like_cs cs' ->
      exists s' cs'', dv x n base (s, cs') = ((s', cs''), y, None) /\ inv k o (world s) (world s') /\ like_cs cs''.

    Lemma elems_walk : forall n b xs ys i0 s cs', good_base b -> 0 <= n -> 0 <= i0 -> length xs = length ys ->
      (forall j x y, nth_error xs j = Some x -> nth_error ys j = Some y -> dives (n + 1) (upd_base_coords has_pandas n b (i0 + Z.of_nat j)) x y) ->
      coherent (world s) -> nth_error (x_sheets (world s)) k = Some o -> like_cs cs' ->
      exists s' cs'', elems n b xs i0 (s, cs') = ((s', cs''), ys, None) /\ inv k o (world s) (world s') /\ like_cs cs''.
    Proof.
      intros n b xs. induction xs as [|x xs IH]; intros [|y ys] i0 s cs' B N I0 L H C G LC; try discriminate L.
      - exists s, cs'. split; [reflexivity|]. split; [apply inv_refl; assumption|exact LC].
      - cbn [dive_elems]. pose proof (H 0%nat x y eq_refl eq_refl) as X. cbn [Z.of_nat] in X. rewrite Z.add_0_r in X.
        destruct (X ltac:(apply good_upd; assumption) ltac:(lia) s cs' C G LC) as (s1 & c1 & E & I1 & LC1). rewrite E.
        pose proof I1 as (C1 & G1 & M1). destruct (IH ys (i0 + 1) s1 c1) as (s2 & c2 & E2 & I2 & LC2); try assumption; [lia|injection L; auto| |].
        + intros j x' y' X' Y'. replace (i0 + 1 + Z.of_nat j) with (i0 + Z.of_nat (S j)) by lia. exact (H (S j) x' y' X' Y').
        + rewrite E2. exists s2, c2. split; [reflexivity|]. split; [apply inv_trans with (world s1); assumption|exact LC2].
    Qed.
    Lemma items_walk : forall n d d' s cs', 0 <= n -> map fst d = map fst d' ->
      (forall i key x y, nth_error d i = Some (key, x) -> nth_error d' i = Some (key, y) -> inc key -> dives (n + 1) None x y) ->
      (forall i key x y, nth_error d i = Some (key, x) -> nth_error d' i = Some (key, y) -> ~ inc key -> y = x) ->
      coherent (world s) -> nth_error (x_sheets (world s)) k = Some o -> like_cs cs' ->
      exists s' cs'', ditems n d (s, cs') = ((s', cs''), d', None) /\ inv k o (world s) (world s') /\ like_cs cs''.
    Proof.
      intros n d. induction d as [|[key x] d IH]; intros [|[key' y] d'] s cs' N L H1 H2 C G LC; try discriminate L.
      - exists s, cs'. split; [reflexivity|]. split; [apply inv_refl; assumption|exact LC].
      - cbn [map fst] in L. injection L as <- L. cbn [dive_items].
        assert (REST : forall s1 c1, coherent (world s1) -> nth_error (x_sheets (world s1)) k = Some o -> like_cs c1 ->
          exists s' cs'', ditems n d (s1, c1) = ((s', cs''), d', None) /\ inv k o (world s1) (world s') /\ like_cs cs'').
        { intros s1 c1 C1 G1 LC1. apply IH; try assumption.
          - intros i. exact (H1 (S i)).
          - intros i. exact (H2 (S i)). }
        pose proof (Hinc key) as HI. destruct (is_included oi oe key).
        + destruct (H1 0%nat key x y eq_refl eq_refl (proj1 HI eq_refl) ltac:(discriminate) ltac:(lia) s cs' C G LC) as (s1 & c1 & E & I1 & LC1). rewrite E.
          pose proof I1 as (C1 & G1 & M1). destruct (REST s1 c1 C1 G1 LC1) as (s2 & c2 & E2 & I2 & LC2). rewrite E2.
          exists s2, c2. split; [reflexivity|]. split; [apply inv_trans with (world s1); assumption|exact LC2].
        + assert (y = x) as -> by (apply (H2 0%nat key x y eq_refl eq_refl); intros Y; apply HI in Y; discriminate Y).
          destruct (REST s cs' C G LC) as (s2 & c2 & E2 & I2 & LC2). rewrite E2. exists s2, c2. auto.
    Qed.

    Lemma dive_spread : forall n base x y, spread (has_pandas = true) R inc stp n base x y -> dives n base x y.
    Proof.
      intros n base x y H. induction H as [n base x H|n base x H|n base t y N H|n base xs ys N L H IH|n base d d' N L H IH H2]; intros B Z s cs' C G LC.
      - destruct (stop_cases n Z) as [(E & _)|(_ & X)]; [|contradiction]. rewrite dive_stop by exact E. exists s, cs'. split; [reflexivity|]. split; [apply inv_refl; assumption|exact LC].
      - destruct (stop_cases n Z) as [(E & _)|(E & X)].
        + rewrite dive_stop by exact E. exists s, cs'. split; [reflexivity|]. split; [apply inv_refl; assumption|exact LC].
        + rewrite dive_other by (try exact E; intros (d & D); subst x; exact H). unfold call_element_func, catching.
          destruct x as [| | |t|l|d]; cbn [kept] in H; try contradiction.
          1-3: exists s, cs'; split; [reflexivity|]; split; [apply inv_refl; assumption|exact LC].
          unfold recurse_element. rewrite do_lasso_eq. cbv zeta. unfold parse_and_merge. rewrite (no_hash t H).
          do 2 eexists. split; [reflexivity|]. split; [apply inv_refl; assumption|exact LC].
      - destruct (stop_cases n Z) as [(_ & X)|(E & _)]; [contradiction|]. rewrite dive_other by (try exact E; intros (d & D); discriminate D).
        destruct (step base t y s cs' B H C G LC) as (s' & cs'' & E' & I & LC'). rewrite E'. exists s', cs''. auto.
      - destruct (stop_cases n Z) as [(_ & X)|(E & _)]; [contradiction|]. rewrite dive_other by (try exact E; intros (d & D); discriminate D).
        change (call_element_func F (element F) lv (JList xs) base (s, cs')) with ((s, cs'), Ok (None : option json)). cbv iota.
        destruct (elems_walk n base xs ys 0 s cs' B Z ltac:(lia) L) as (s' & cs'' & E' & I & LC'); try assumption.
        + intros j x y X Y. cbn [Z.add]. apply (IH j x y _ X Y). apply upd_item.
        + rewrite E'. exists s', cs''. auto.
      - destruct (stop_cases n Z) as [(_ & X)|(E & _)]; [contradiction|]. rewrite dive_dict by exact E.
        destruct (items_walk n d d' s cs' Z L IH H2 C G LC) as (s' & cs'' & E' & I & LC'). rewrite E'. exists s', cs''. auto.
    Qed.
  End Dive.

  (** ** Calls *)

  Definition acted (F : pystr -> option filter) (A : xbook * nat -> option coords -> call_spec -> json -> json -> Prop) : Prop := forall to st c v v' l s,
    A to st c v v' -> l_values l = v -> l_st l = st -> good_base st -> at_sheet (world s) (l_sheet l) (Some to) -> coherent (world s) ->
    exists s', make_call F (inl l) c s = (s', Ok (inl (with_values v' l))) /\ coherent (world s') /\ more_sheets (world s) (world s').
  Definition laxless (A : xbook * nat -> option coords -> call_spec -> json -> json -> Prop) : Prop :=
    forall to st c c' v v', pop_lax c = pop_lax c' -> A to st c v v' -> A to st c' v v'.

  Lemma at_more : forall w w' sh at_, at_sheet w sh at_ -> more_sheets w w' -> at_sheet w' sh at_.
  Proof. intros w w' sh [[b i]|] H M; [|exact H]. destruct H as (k & o & E & G & H). exists k, o. split; [exact E|]. split; [apply M; exact G|exact H]. Qed.
  Lemma more_refl : forall w, more_sheets w w.
  Proof. intros w n x X. exact X. Qed.
  Lemma more_trans : forall a b c, more_sheets a b -> more_sheets b c -> more_sheets a c.
  Proof. intros a b c H1 H2 n x X. apply H2, H1, X. Qed.

  Lemma call_ok : forall (F : pystr -> option filter) f l c s s' l', F (cs_func c) = Some f ->
    f_run f l (cs_args c) (without (lit "lax") (cs_kwds c)) (State (world s) (Some (cs_func c, l))) = (s', Ok (inl l')) -> make_call F (inl l) c s = (s', Ok (inl l')).
  Proof. intros F f l c s s' l' E R. unfold make_call, bind, relasso. rewrite E. cbv beta iota zeta. rewrite sdel_without, R. reflexivity. Qed.

  Lemma chain_run : forall F A to st cs v v', acted F A -> laxless A -> chain (A to st) cs v v' -> good_base st -> forall l s cs', l_values l = v -> l_st l = st ->
    at_sheet (world s) (l_sheet l) (Some to) -> coherent (world s) -> map pop_lax cs' = map pop_lax cs ->
    exists s', run_specs F (inl l) cs' s = (s', Ok (inl (with_values v' l))) /\ coherent (world s') /\ more_sheets (world s) (world s').
  Proof.
    intros F A to st cs v v' HA HL H GB. induction H as [v|c cs v v1 v2 H1 H2 IH]; intros l s cs' V ST AT C E.
    - destruct cs' as [|c' cs']; [|discriminate E]. exists s. split; [|split; [exact C|apply more_refl]]. cbn [run_specs]. unfold ret. rewrite <- V. destruct l; reflexivity.
    - destruct cs' as [|c' cs']; [discriminate E|]. cbn [map] in E. injection E as E E1 E2 EE. cbn [run_specs]. unfold bind.
      assert (H1' : A to st c' v v1). { apply (HL to st c); [|exact H1]. unfold pop_lax. rewrite E, E1, E2. reflexivity. }
      destruct (HA to st c' v v1 l s H1' V ST GB AT C) as (s1 & R & C1 & M1). rewrite R.
      destruct (IH (with_values v1 l) s1 cs') as (s2 & R2 & C2 & M2); try assumption; try reflexivity.
      { apply (at_more (world s)); assumption. }
      exists s2. rewrite R2. split; [reflexivity|]. split; [exact C2|]. apply more_trans with (world s1); assumption.
  Qed.
  Lemma pipe_run : forall F A to st cs v v', acted F A -> chain (A to st) cs v v' -> good_base st -> forall js l s, Forall2 call_of js cs -> l_values l = v -> l_st l = st ->
    at_sheet (world s) (l_sheet l) (Some to) -> coherent (world s) ->
    exists s', pipe_filter F (inl l) js s = (s', Ok (inl (with_values v' l))) /\ coherent (world s') /\ more_sheets (world s) (world s').
  Proof.
    intros F A to st cs v v' HA H GB. induction H as [v|c cs v v1 v2 H1 H2 IH]; intros js l s J V ST AT C.
    - inversion J. exists s. split; [|split; [exact C|apply more_refl]]. cbn [pipe_filter]. unfold ret. rewrite <- V. destruct l; reflexivity.
    - inversion J as [|j c' js' cs' J1 J2]. cbn [pipe_filter]. unfold bind, lift. rewrite (parse_call_spec_complete j c J1).
      destruct (HA to st c v v1 l s H1 V ST GB AT C) as (s1 & R & C1 & M1). rewrite R.
      destruct (IH js' (with_values v1 l) s1) as (s2 & R2 & C2 & M2); try assumption; try reflexivity.
      { apply (at_more (world s)); assumption. }
      exists s2. rewrite R2. split; [reflexivity|]. split; [exact C2|]. apply more_trans with (world s1); assumption.
  Qed.

  (** ** Texts *)

  Definition thrown (F : pystr -> option filter) (A : xbook * nat -> option coords -> call_spec -> json -> json -> Prop) : Prop := forall at_ base t to st v ctx s,
    stands_by A at_ base t to st v -> good_base base ->
    l_url ctx = None -> l_sheet_name ctx = None -> l_nd_edge ctx = None -> l_exp ctx = None -> l_call ctx = None -> l_base ctx = base ->
    coherent (world s) -> at_sheet (world s) (l_sheet ctx) at_ ->
    exists s' l, throw F t ctx s = (s', Ok (inl l)) /\ l_values l = v /\ l_st l = st /\ good_base st /\ at_sheet (world s') (l_sheet l) (Some to) /\
      coherent (world s') /\ more_sheets (world s) (world s').

  Lemma throws : forall F A, acted F A -> thrown F A.
  Proof.
    intros F A HA at_ base t [b i] st v ctx s ST GB N1 N2 N3 N4 N5 N6 C AT.
    destruct ST as (p & tf & f & r & v0 & -> & FT & RD & UT & (RF & _ & S & SH & CP & HV) & -> & FL).
    assert (exists c, ((f_filt f = None /\ c = None) \/ (exists js j, f_filt f = Some js /\ loads js = Some j /\ filters_of j None c)) /\
      match c with None => v = v0 | Some c => A (b, i) (start r) c v0 v end) as (c & FL' & CC).
    { destruct FL as [(X & Y)|(js & j & c & X1 & X2 & X3 & X4)]; [exists None|exists c]; eauto 10. }
    destruct (throw_reads F at_ p tf f c b i r v0 base ctx s FT RD UT FL' RF S SH CP HV GB N1 N2 N3 N4 N5 N6 C AT)
      as (w2 & k & o & lv & E & C2 & MS & G & ST & OB & OI & L1 & L2 & L3 & L4 & _ & GS).
    assert (AT2 : at_sheet w2 (l_sheet lv) (Some (b, i))) by (exists k, o; auto 10).
    rewrite E. unfold run_filters. rewrite L4. destruct c as [c|].
    - destruct (HA (b, i) (start r) c v0 v lv (at_stage w2 "read_rect" lv) CC L3 L2 GS AT2 C2) as (s' & R & C3 & M3).
      exists s', (with_values v lv). unfold catching. rewrite R. split; [reflexivity|]. split; [reflexivity|]. split; [exact L2|]. split; [exact GS|].
      split; [exact (at_more _ _ _ _ AT2 M3)|]. split; [exact C3|]. exact (more_trans _ _ _ MS M3).
    - subst v. exists (at_stage w2 "read_rect" lv), lv. split; [reflexivity|]. auto 10.
  Qed.

  (** ** All of it *)

  Lemma given_lax : forall c c' i n v, pop_lax c = pop_lax c' -> In n names_in_order -> given c i n v -> given c' i n v.
  Proof.
    intros c c' i n v E I G. unfold pop_lax in E. rewrite !sdel_without in E. injection E as _ E1 E2.
    assert (X : sget (lit n) (cs_kwds c) = sget (lit n) (cs_kwds c')).
    { assert (N : lit "lax" <> lit n) by (intros Y; cbn in I; destruct I as [<-|[<-|[<-|[<-|[]]]]]; discriminate Y).
      rewrite <- (sget_without (lit "lax") (lit n) (cs_kwds c) N), <- (sget_without (lit "lax") (lit n) (cs_kwds c') N), E2. reflexivity. }
    unfold given in *. rewrite <- X, <- E1. exact G.
  Qed.
  Lemma known_lax : forall c c', pop_lax c = pop_lax c' -> known c -> known c'.
  Proof.
    intros c c' E (L & K). unfold pop_lax in E. rewrite !sdel_without in E. injection E as _ E1 E2. unfold known. rewrite <- E1. split; [exact L|].
    intros k v I. destruct (str_eqb k (lit "lax")) eqn:N; [left; apply str_eqb_eq; exact N|]. apply str_eqb_neq in N.
    apply (K k v). apply (in_without (lit "lax") k v (cs_kwds c)). rewrite E2. apply in_without. auto.
  Qed.
  Lemma acts_laxless : forall n, laxless (acts n).
  Proof.
    intros n to st c c' v v' E H. assert (cs_func c = cs_func c' /\ cs_args c = cs_args c' /\ without (lit "lax") (cs_kwds c) = without (lit "lax") (cs_kwds c')) as (E0 & E1 & E2).
    { unfold pop_lax in E. rewrite !sdel_without in E. injection E as E0 E1 E2. auto. }
    destruct n as [|n]; cbn [Recur_Spec.acts] in H |- *; rewrite <- E0, <- E1, <- E2.
    - exact H.
    - destruct H as [H|[H|(F & K & jf & ji & je & jd & cs & inc & exc & G1 & H1 & G2 & H2 & G3 & H3 & G4 & H4)]]; [left; exact H|right; left; exact H|right; right].
      split; [exact F|]. split; [exact (known_lax _ _ E K)|]. exists jf, ji, je, jd, cs, inc, exc.
      split; [apply (given_lax c c' _ _ _ E); [cbn; auto|exact G1]|]. split; [exact H1|]. split; [apply (given_lax c c' _ _ _ E); [cbn; auto|exact G2]|]. split; [exact H2|].
      split; [apply (given_lax c c' _ _ _ E); [cbn; auto|exact G3]|]. split; [exact H3|]. split; [apply (given_lax c c' _ _ _ E); [cbn; auto 6|exact G4]|]. exact H4.
  Qed.

  Notation run F := (recurse_run lossy bad_host expandvars expanduser_tilde word_char set_list disk to_json loads base_opts cwd has_pandas F).
  (** The run, with the arguments told *)
  Lemma run_told : forall F c jf ji je jd cs inc exc, known c -> given c 0 "filters" jf -> calls_told jf cs -> given c 1 "include" ji -> keys_told ji inc ->
    given c 2 "exclude" je -> keys_told je exc -> given c 3 "depth" jd -> exists oi oe,
    (forall key, is_included oi oe key = true <-> included inc exc key) /\
    forall l s, run F l (cs_args c) (without (lit "lax") (cs_kwds c)) s =
      match dive F (element F) has_pandas l oi oe (depth_of (told (JNum (-1)) jd)) (l_values l) 0 (l_st l) (s, cs) with
      | ((s, _), v, Some e) => (s, Raise e)
      | ((s, _), v, None) => (s, Ok (inl (with_values v l)))
      end.
  Proof.
    intros F c jf ji je jd cs inc exc K G1 H1 G2 H2 G3 H3 G4. destruct (bound c K) as (d & B & GD).
    pose proof (GD 0%nat "filters"%string jf eq_refl G1) as D1. pose proof (GD 1%nat "include"%string ji eq_refl G2) as D2.
    pose proof (GD 2%nat "exclude"%string je eq_refl G3) as D3. pose proof (GD 3%nat "depth"%string jd eq_refl G4) as D4.
    destruct (calls_items jf cs H1) as (l0 & I1 & I2). destruct (keys_texts ji inc H2) as (oi & T1 & T2). destruct (keys_texts je exc H3) as (oe & T3 & T4).
    exists oi, oe. split; [intros key; apply included_iff; assumption|]. intros l s. unfold recurse_run. rewrite B. unfold argument. rewrite D1, D2, D3, D4.
    change (match jf with Some v => v | None => JList [] end) with (told (JList []) jf). change (match ji with Some v => v | None => JNull end) with (told JNull ji).
    change (match je with Some v => v | None => JNull end) with (told JNull je). change (match jd with Some v => v | None => JNum (-1) end) with (told (JNum (-1)) jd).
    rewrite I1, T1, T3. unfold recursive_filter, run_filter_elementwise. rewrite I2.
    destruct (dive F (element F) has_pandas l oi oe (depth_of (told (JNum (-1)) jd)) (l_values l) 0 (l_st l) (s, cs)) as [[[s' cs'] v] [e|]]; reflexivity.
  Qed.

  Lemma other_run : forall m c v v' l s, cs_func c <> lit "recurse" -> cs_func c <> lit "pipe" -> effect (cs_func c) (cs_args c) (without (lit "lax") (cs_kwds c)) v v' ->
    l_values l = v -> exists s', make_call (table m) (inl l) c s = (s', Ok (inl (with_values v' l))) /\ world s' = world s.
  Proof.
    intros m c v v' l s N1 N2 H V. destruct (Hothers _ _ _ _ _ H) as (f & E & R). destruct (R l (State (world s) (Some (cs_func c, l))) V) as (i & X).
    exists (State (world s) i). split; [|reflexivity]. apply (call_ok _ f); [|exact X].
    destruct m; cbn [Recur_Model.table]; (destruct (str_eqb (cs_func c) (lit "recurse")) eqn:Y; [apply str_eqb_eq in Y; contradiction|]);
      (destruct (str_eqb (cs_func c) (lit "pipe")) eqn:Y'; [apply str_eqb_eq in Y'; contradiction|]); exact E.
  Qed.

  Lemma acts_run : forall n m, (n <= m)%nat -> acted (table m) (acts n).
  Proof.
    intros n. induction n as [|n IH]; intros m LE [b i] st c v v' l s H V ST GB AT C; cbn [Recur_Spec.acts] in H; destruct H as [(N1 & N2 & H)|H].
    1,3: destruct (other_run m c v v' l s N1 N2 H V) as (s' & E & W); exists s'; rewrite W; split; [exact E|]; split; [exact C|apply more_refl].
    - destruct H.
    - destruct m as [|m]; [lia|]. assert (HA : acted (table m) (acts n)) by (apply IH; lia).
      destruct H as [(F & cs & J & CH)|(F & K & jf & ji & je & jd & cs & inc & exc & G1 & H1 & G2 & H2 & G3 & H3 & G4 & SP)].
      + destruct (pipe_run (table m) (acts n) (b, i) st cs v v' HA CH GB (cs_args c) l (State (world s) (Some (cs_func c, l))) J V ST AT C) as (s' & E & C' & M').
        exists s'. split; [|split; [exact C'|exact M']]. apply (call_ok _ (Filter (fun l args _ => pipe_filter (table m) (inl l) args) (Some (lit "doc")))); [rewrite F; reflexivity|exact E].
      + destruct (run_told (table m) c jf ji je jd cs inc exc K G1 H1 G2 H2 G3 H3 G4) as (oi & oe & HI & RT).
        pose proof AT as (k & o & A1 & A2 & A3 & A4 & A5).
        assert (D : exists s' cs'', dive (table m) (element (table m)) has_pandas l oi oe (depth_of (told (JNum (-1)) jd)) v 0 st (State (world s) (Some (cs_func c, l)), cs)
                     = ((s', cs''), v', None) /\ inv k o (world s) (world s') /\ like_cs cs cs'').
        { refine (dive_spread (table m) l _ k o cs (included inc exc) oi oe (depth_of (told (JNum (-1)) jd)) (stops jd) HI (stops_iff jd) _ 0 st v v' SP GB ltac:(lia) (State (world s) (Some (cs_func c, l))) cs C A2 eq_refl).
          intros base t y s1 cs' GB1 (to' & st' & v1 & SB & CH) C1 X1 LC.
          destruct (throws _ _ HA (Some (b, i)) base t to' st' v1 (context_of (Location (l_sheet l) (l_st l) (l_nd l) base)) s1 SB GB1) as (s2 & l2 & T & V2 & ST2 & GB2 & AT2 & C2 & M2);
            try reflexivity; [exact C1|cbn [context_of l_sheet x_sheet]; exists k, o; auto|].
          destruct (chain_run (table m) (acts n) to' st' cs v1 y HA (acts_laxless n) CH GB2 l2 s2 cs' V2 ST2 AT2 C2 LC) as (s3 & R & C3 & M3).
          exists s3, (map pop_lax cs'). split; [|split].
          -- unfold call_element_func, catching, recurse_element. rewrite T, R. reflexivity.
          -- split; [exact C3|]. split; [apply M3, M2, X1|exact (more_trans _ _ _ M2 M3)].
          -- unfold like_cs in *. rewrite <- LC, map_map. apply map_ext. intros [f a kw]. unfold pop_lax. cbn [cs_func cs_args cs_kwds]. rewrite !sdel_without. f_equal.
             unfold without. clear. induction kw as [|[x y] kw IH]; [reflexivity|]. cbn [List.filter fst]. destruct (negb (str_eqb x (lit "lax"))) eqn:E; cbn [List.filter fst]; rewrite ?E, IH; reflexivity.
          }
        destruct D as (s' & cs'' & E & (C' & _ & M') & _). exists s'. split; [|split; [exact C'|exact M']].
          apply (call_ok _ (Filter (run (table m)) (Some (lit "doc")))); [rewrite F; reflexivity|]. cbn [f_run]. rewrite RT, V, ST, E. reflexivity.
  Qed.

  Lemma deep : forall n m at_ base t v ctx s, (n <= m)%nat -> stands n at_ base t v -> good_base base ->
    l_url ctx = None -> l_sheet_name ctx = None -> l_nd_edge ctx = None -> l_exp ctx = None -> l_call ctx = None -> l_base ctx = base ->
    coherent (world s) -> at_sheet (world s) (l_sheet ctx) at_ ->
    exists s' l, throw (table m) t ctx s = (s', Ok (inl l)) /\ l_values l = v /\ coherent (world s') /\ more_sheets (world s) (world s').
  Proof.
    intros n m at_ base t v ctx s LE (to & st & H) GB N1 N2 N3 N4 N5 N6 C AT.
    destruct (throws _ _ (acts_run n m LE) at_ base t to st v ctx s H GB N1 N2 N3 N4 N5 N6 C AT) as (s' & l & E & V & _ & _ & _ & C' & M'). exists s', l. auto.
  Qed.

  (** ** Without an end *)

  Hypothesis Htext : forall t, to_json (VText t) = JStr t.

  Lemma call_run : forall (F : pystr -> option filter) rn c lv s s' x, F (cs_func c) = Some (Filter rn (Some (lit "doc"))) -> replaces c -> l_call lv = Some c -> l_opts lv = base_opts ->
    rn lv (cs_args c) (without (lit "lax") (cs_kwds c)) (State (world s) (Some (cs_func c, lv))) = (s', x) ->
    run_filters F lv s = (s', match x with Ok (inl l) => Ok (inl l) | Ok (inr y) => if opt "lax" base_opts then Ok (inr y) else Raise ValueError
                              | Raise _ => if opt "lax" base_opts then Ok (inl lv) else Raise ValueError end).
  Proof.
    intros F rn c lv s s' x E (_ & _ & NL & _) L O R. unfold run_filters. rewrite L. unfold catching, make_call, bind, relasso.
    rewrite E. cbn [f_run f_doc]. rewrite sdel_without, R, O. rewrite Bool.andb_false_r.
    assert (NG : sget (lit "lax") (cs_kwds c) = None).
    { destruct (sget (lit "lax") (cs_kwds c)) as [y|] eqn:Y; [|reflexivity]. exfalso. apply NL. exists y. revert Y. generalize (cs_kwds c) as d. intros d. unfold sget.
      induction d as [|[k z] d IH]; [discriminate|]. cbn [dget]. destruct (str_eqb (lit "lax") k) eqn:K; [|right; auto]. apply str_eqb_eq in K. intros Y. left. congruence. }
    rewrite NG. cbv iota. destruct x as [[l|y]|e]; [reflexivity| |]; destruct (opt "lax" base_opts); reflexivity.
  Qed.

  Lemma run_text : forall F c lv t s s' out, replaces c -> l_values lv = JStr t ->
    throw F t (context_of (Location (l_sheet lv) (l_st lv) (l_nd lv) (l_st lv))) s = (s', out) -> out <> Raise SyntaxError ->
    run F lv (cs_args c) (without (lit "lax") (cs_kwds c)) s = (s', match out with Ok (inl l) => Ok (inl (with_values (l_values l) lv)) | Ok (inr y) => Ok (inl (with_values y lv)) | Raise e => Raise ValueError end).
  Proof.
    intros F c lv t s s' out (_ & K & _ & jf & ji & je & jd & inc & exc & G1 & H1 & G2 & H2 & G3 & H3 & G4 & ND) V E NS.
    destruct (run_told F c jf ji je jd [] inc exc K G1 H1 G2 H2 G3 H3 G4) as (oi & oe & _ & RT). rewrite RT, V, dive_other.
    - unfold call_element_func, catching, recurse_element. rewrite E. destruct out as [[l|y]|e]; [reflexivity|reflexivity|]. destruct e; try reflexivity. congruence.
    - pose proof (stops_iff jd 0 ltac:(lia)) as X. destruct (stop (depth_of (told (JNum (-1)) jd)) 0); [exfalso; apply ND, X; reflexivity|reflexivity].
    - intros (d & D). discriminate D.
  Qed.

  Lemma without_end : forall T, endless (word word_char) cwd disk loads T -> forall m at_ base t ctx s, T at_ base t -> good_base base ->
    l_url ctx = None -> l_sheet_name ctx = None -> l_nd_edge ctx = None -> l_exp ctx = None -> l_call ctx = None -> l_base ctx = base ->
    coherent (world s) -> at_sheet (world s) (l_sheet ctx) at_ ->
    exists s' out, throw (table m) t ctx s = (s', out) /\
      (~ on (lit "lax") base_opts -> out = Raise ValueError) /\
      (on (lit "lax") base_opts -> exists l at' base' t', out = Ok (inl l) /\ l_values l = JStr t' /\ T at' base' t').
  Proof.
    intros T HT m. induction m as [|m IH]; intros at_ base t ctx s TT GB N1 N2 N3 N4 N5 N6 C AT;
      destruct (HT _ _ _ TT) as (p & tf & f & b & i & a & t' & js & j & c & -> & FT & RD & UT & RF & _ & S & SH & CP & DI & CE & FF & LO & FO & RC & TT').
    all: assert (HV : holds (xb_sheet b i) (Ok (a, None)) (JStr t')) by (split; [exact DI|]; exists (VText t'); split; [symmetry; apply Htext|exact CE]).
    all: assert (FL : (f_filt f = None /\ Some c = None) \/ (exists js j, f_filt f = Some js /\ loads js = Some j /\ filters_of j None (Some c)))
      by (right; exists js, j; auto).
    all: pose proof RC as (RN & _).
    - destruct (throw_reads (table 0) at_ p tf f (Some c) b i _ _ base ctx s FT RD UT FL RF S SH CP HV GB N1 N2 N3 N4 N5 N6 C AT)
        as (w2 & k & o & lv & E & C2 & MS & G & ST & OB & OI & L1 & L2 & L3 & L4 & L5 & GS).
      rewrite E, (call_run (table 0) (fun _ _ _ => raise recursion_error) c lv _ _ (Raise recursion_error) ltac:(rewrite RN; reflexivity) RC L4 L5 eq_refl).
      do 2 eexists. split; [reflexivity|]. rewrite <- opt_on. destruct (opt "lax" base_opts); split; intros X; try congruence; try reflexivity.
      exists lv, (Some (b, i)), (Some a), t'. auto.
    - destruct (throw_reads (table (Datatypes.S m)) at_ p tf f (Some c) b i _ _ base ctx s FT RD UT FL RF S SH CP HV GB N1 N2 N3 N4 N5 N6 C AT)
        as (w2 & k & o & lv & E & C2 & MS & G & ST & OB & OI & L1 & L2 & L3 & L4 & L5 & GS). rewrite E.
      destruct (IH (Some (b, i)) (Some a) t' (context_of (Location (l_sheet lv) (l_st lv) (l_nd lv) (l_st lv))) (State w2 (Some (cs_func c, lv))) TT')
        as (s' & out & E' & O1 & O2); try reflexivity; [exact GS|exact L2|exact C2|cbn [context_of l_sheet x_sheet]; exists k, o; auto|].
      assert (NS : out <> Raise SyntaxError).
      { intros ->. destruct (opt "lax" base_opts) eqn:OP.
        - apply opt_on in OP. destruct (O2 OP) as (l & at' & base' & t'' & X & _). discriminate X.
        - assert (X : ~ on (lit "lax") base_opts) by (intros X; apply opt_on in X; congruence). discriminate (O1 X). }
      rewrite (call_run (table (Datatypes.S m)) (run (table m)) c lv (at_stage w2 "read_rect" lv) _ _ ltac:(rewrite RN; reflexivity) RC L4 L5 (run_text (table m) c lv t' _ _ _ RC L3 E' NS)).
      do 2 eexists. split; [reflexivity|]. split; intros X.
      + rewrite (O1 X). rewrite <- opt_on in X. destruct (opt "lax" base_opts); [exfalso; apply X|]; reflexivity.
      + destruct (O2 X) as (l & at' & base' & t'' & -> & V & T''). exists (with_values (l_values l) lv), at', base', t''. auto.
  Qed.
End Recur.
