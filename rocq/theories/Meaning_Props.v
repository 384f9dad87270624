(** * Property C102: the cells that xl-refs stand for *)
From Coq Require Import String QArith.
From Verif Require Import PyBase PyBase_Proofs Json Coords_Model Coords_Spec Coords_Proofs Capture_Model Capture_Spec Capture_Proofs Capture_Props.
From Verif Require Import Parse_Model Parse_Spec Xlref_Proofs Parse_Props ExpMoves_Model ExpMoves_Spec Lasso_Model Lasso_Spec Lasso_Proofs Ranger_Props Sheets_Model Sheets_Spec Sheets_Props.
From Verif Require Import OsPath_Model OsPath_Spec Url_Spec FileUrl_Model FileUrl_Spec FileUrl_Proofs FileUrl_Props ReadRect_Model ReadRect_Spec ReadRect_Props.
From Verif Require Import Dates_Model Dates_Spec Whole_Model Whole_Spec Whole_Proofs Whole_Props Meaning_Spec Meaning_Proofs.
Open Scope Z_scope.

(** What is captured is what is meant, and that is always something. *)
Theorem C102_capture : forall t f m up dn base e1, frag_text t f -> meant_st f = Some e1 -> is_margin m dn ->
  0 <= fst up -> 0 <= snd up -> (forall b, base = Some b -> 0 <= fst b /\ 0 <= snd b) ->
  within dn e1 -> (forall e, meant_nd f = Some e -> within dn e) ->
  forall r, resolve_capture_rect m (up, dn) e1 (meant_nd f) (f_exp f) base = r <-> means m up dn base e1 (meant_nd f) (f_exp f) r.
Proof.
  intros t f m up dn base e1 H E M U1 U2 B I1 I2. destruct (frag_edges t f H) as (e & E' & W1 & W2).
  assert (e = e1) as -> by congruence. apply captured_iff; auto.
  - split; assumption.
  - intros em X. destruct (frag_expansion t f em H X) as (N & O). split; [exact N|exact (exp_no_newline em O)].
Qed.
Print Assumptions C102_capture.

Section Whole.
  Variable lossy : list N -> pystr.
  Variable bad_host : pystr -> bool.
  Variable expandvars : pystr -> pystr.
  Variable expanduser_tilde : pystr -> pystr.
  Variable word_char : pychar -> bool.
  Variable set_list : list key -> list key.
  Variable disk : source -> option xbook.
  Variable to_json : xvalue -> json.
  Variable loads : pystr -> option json.
  Variable base_opts : dict.
  Variable filters : pystr -> option (Lasso_Model.filter xworld (nat * xl)).
  Variable folders : list pystr.

  Hypothesis Hset : distinct_members set_list.
  (** Sheets of a book have different names. *)
  Hypothesis Hdisk : forall s b, disk s = Some b -> NoDup (xb_names b).
  Hypothesis Hcwd : Forall name folders.
  Hypothesis Hcwd' : Forall (Forall scalar) folders.
  (** Filters open no sheets. *)
  Hypothesis Hfilt : forall n f l args kwds s, filters n = Some f -> world (fst (f_run f l args kwds s)) = world s.

  Notation cwd := (folder_path folders).
  Notation fetch := (fetch lossy bad_host expandvars expanduser_tilde word_char set_list disk cwd).
  Notation throw := (do_lasso filters base_opts loads (urldefrag bad_host) fetch states_of margins_of (read_of to_json)).
  Notation lasso_files := (lasso_files lossy bad_host expandvars expanduser_tilde word_char set_list disk to_json loads base_opts filters cwd).
  Notation lassos := (lassos lossy bad_host expandvars expanduser_tilde word_char set_list disk to_json loads base_opts filters cwd).
  Notation coherent := (coherent lossy bad_host expandvars expanduser_tilde word_char disk folders).
  Notation table t := (JList (map (fun row => JList (map to_json row)) t)).

  Lemma any_opens : forall p b n i, book_path (word word_char) cwd p -> disk (File (abspath cwd p)) = Some b ->
    sheet_number b n i -> exists url, opens_to lossy bad_host expandvars expanduser_tilde word_char disk cwd (Some p) (sheet_id n) None = Ok (Xl url b i).
  Proof.
    intros p b n i (L & _ & _ & O & H & LEN & X) D N.
    destruct (C89_open lossy bad_host expandvars expanduser_tilde folders p false Hcwd Hcwd' L O H LEN) as (url & U & OB).
    pose proof (proj1 (C89_bid lossy bad_host expandvars expanduser_tilde word_char folders p false url Hcwd Hcwd' L O H LEN U) X) as BD.
    exists url. cbn [opens_to]. change (path2url bad_host expandvars expanduser_tilde cwd p false false) with (to_url bad_host expandvars expanduser_tilde cwd p) in U.
    rewrite U. cbn [rbind]. unfold open_url. rewrite (url_stays _ _ _ _ Hcwd Hcwd' _ _ L U). cbn [rbind]. rewrite BD. cbn [rbind]. rewrite OB. cbn [rbind].
    rewrite D. unfold open_in_book. destruct n as [n|]; cbn [sheet_id sheet_number] in *.
    - rewrite (open_named _ _ _ (Hdisk _ _ D) N). reflexivity.
    - destruct N as (-> & N). assert (open_by_name_or_index (xb_names b) (SInt (Z.of_nat 0)) = Ok 0%nat) as E.
      { apply open_indexed. destruct (xb_names b); [congruence|cbn; lia]. }
      change (open_by_name_or_index (xb_names b) SNone) with (open_by_name_or_index (xb_names b) (SInt (Z.of_nat 0))). rewrite E. reflexivity.
  Qed.

  Lemma text_parse : forall p t f, local_path p -> no_quotes p -> no_semicolon_end p -> frag_text t f -> readable t f -> f_filt f = None -> url_text t ->
    parse_xlref loads (urldefrag bad_host) (p ++ lit "#" ++ t)
    = Ok (ParsedXl (Parsed (f_sheet f) (meant_st f) (meant_nd f) (f_exp f) None None) (Some p) (p ++ lit "#" ++ t) None).
  Proof.
    intros p t f L (Q1 & Q2) S F R NF (NE & (Q1' & Q2') & T).
    pose proof (C27_print_parse loads t f F R) as P. rewrite NF in P.
    pose proof (defrag_local bad_host p t L S) as D. rewrite (strip_id t T) in D.
    assert (Q : no_quotes (p ++ lit "#" ++ t)).
    { split; intros I; apply in_app_or in I; (destruct I as [I|I]; [contradiction|]); apply in_app_or in I; destruct I as [[I|[]]|I]; try discriminate I; contradiction. }
    rewrite (parse_of _ _ _ _ _ _ (translate_plain _ Q) D NE P). destruct L as (_ & (c & r & -> & _) & _). reflexivity.
  Qed.

  Definition is_none {A} (o : option A) : bool := match o with Some _ => false | None => true end.
  (** What the lasso gives for what is captured; errors of a lone 1st edge are of another type. *)
  Definition gives (s : xsheet) (alone : bool) (r : res (coords * option coords)) (out : res json) : Prop :=
    match r with
    | Ok (a, Some b) => exists t, out = Ok (table t) /\ placed (xlrd_cell shows s) a b t
    | Ok (a, None) => (in_xsheet s (fst a) (snd a) -> exists v, out = Ok (to_json v) /\ xlrd_cell shows s (fst a) (snd a) v)
        /\ (~ in_xsheet s (fst a) (snd a) -> out = Raise IndexError)
    | Raise EmptyCapture => (on (lit "no_empty") base_opts -> out = Raise EmptyCapture) /\ (~ on (lit "no_empty") base_opts -> out = Ok (JList []))
    | Raise _ => out = Raise (if alone then TypeError else ValueError)
    end.

  (** Whatever was lassoed before with the same factory, an xl-ref with edges, moves and expansions
      gives the cells meant of the sheet in the file. *)
  Theorem C102_file : forall xs p b t f i mine m up e1 r, Forall local_ref xs ->
    book_path (word word_char) cwd p -> disk (File (abspath cwd p)) = Some b -> xb_1904 b = false ->
    frag_text t f -> readable t f -> f_filt f = None -> url_text t -> sheet_number b (f_sheet f) i -> sound_sheet (xb_sheet b i) ->
    cells_of (xb_sheet b i) m -> first_of m up -> meant_st f = Some e1 -> within (last_of (xb_sheet b i)) e1 ->
    (forall e, meant_nd f = Some e -> within (last_of (xb_sheet b i)) e) ->
    means m up (last_of (xb_sheet b i)) None e1 (meant_nd f) (f_exp f) r ->
    exists s out, lasso_files mine (p ++ lit "#" ++ t) no_context (State (lassos xs new_world) None) = (s, out) /\ gives (xb_sheet b i) (is_none (meant_nd f)) r out.
  Proof.
    intros xs p b t f i mine m up e1 r H B D _ F R NF T N S M U E1 I1 I2 X.
    set (sh := xb_sheet b i) in *.
    assert (MM : forall q, full m q <-> full (xlrd_states sh) q) by (intros q; rewrite C67_xlrd_full; apply M).
    destruct S as (S1 & S2 & S3).
    pose proof (C67_xlrd sh S1 S2) as MG. pose proof (C67_xlrd_is_margin sh _ _ MG) as IM.
    assert (UP : first_of (xlrd_states sh) (fst (margin_coords (xlrd_states sh)))).
    { destruct (Target_Proofs.some_full_dec (xlrd_states sh)) as [Y|Y].
      - left. destruct (C19_tight_box _ Y) as (A1 & A2 & A3 & _). split; [intros q Q; destruct (A1 q Q); lia|]. auto.
      - right. split; [exact Y|]. rewrite (C19_empty _ Y). reflexivity. }
    assert (up = fst (margin_coords (xlrd_states sh))) as -> by exact (first_unique _ _ _ (first_same _ _ MM _ U) UP).
    assert (NU : 0 <= fst (fst (margin_coords (xlrd_states sh))) /\ 0 <= snd (fst (margin_coords (xlrd_states sh)))).
    { destruct UP as [(_ & (q & Q & <-) & (q' & Q' & <-))|(_ & ->)]; [|cbn; lia]. destruct (full_nonneg _ _ Q), (full_nonneg _ _ Q'). auto. }
    change (Z.of_nat (xs_rows sh) - 1, Z.of_nat (xs_cols sh) - 1) with (last_of sh) in *.
    apply (means_same _ _ MM) in X. destruct NU as (NU1 & NU2).
    destruct (frag_edges t f F) as (e1' & E1' & W1 & W2). assert (e1' = e1) as -> by congruence.
    assert (RR : match r with Ok (a, b) => nonneg a /\ match b with Some b => sorted_rect a b | None => meant_nd f = None end | Raise _ => True end).
    { destruct r as [[a c]|]; [|exact I]. refine (means_rect (xlrd_states sh) _ _ None e1 _ _ W1 W2 IM (conj NU1 NU2) _ I1 I2 _ a c X); [discriminate|].
      intros em Y. destruct (frag_expansion t f em F Y) as (Y1 & Y2). split; [exact Y1|exact (exp_no_newline em Y2)]. }
    apply (C102_capture t f _ _ _ None e1 F E1 IM NU1 NU2 ltac:(discriminate) I1 I2) in X.
    (* the sheet fetched *)
    pose proof (lassos_ok lossy bad_host expandvars expanduser_tilde word_char set_list disk to_json loads base_opts filters folders Hset Hdisk Hcwd Hcwd' Hfilt xs H) as C.
    set (w := lassos xs new_world) in *. destruct (any_opens p b (f_sheet f) i B D N) as (url & O).
    destruct (fetch_total lossy bad_host expandvars expanduser_tilde word_char set_list disk folders (Some p) (f_sheet f) None w) as (w2 & q & FT).
    destruct (fetch_spec lossy bad_host expandvars expanduser_tilde word_char set_list disk loads filters folders Hset Hdisk Hcwd Hcwd' w None (Some p) (f_sheet f) None (State w2 None) q C (proj1 B) (FT None)) as (_ & _ & _ & Y).
    rewrite O in Y. destruct Y as (k & -> & _ & _).
    destruct B as (B1 & B2 & B3 & _). pose proof (text_parse p t f B1 B2 B3 F R NF T) as P.
    (* the lasso *)
    assert (exists l1, parse_and_merge loads (urldefrag bad_host) (p ++ lit "#" ++ t) (with_opts base_opts no_context) = Ok l1 /\ l_url l1 = Some p
      /\ l_sheet_name l1 = f_sheet f /\ l_sheet l1 = None /\ l_st_edge l1 = Some e1 /\ l_nd_edge l1 = meant_nd f /\ l_exp l1 = f_exp f /\ l_call l1 = None
      /\ l_base l1 = None /\ l_opts l1 = base_opts) as (l1 & M0 & M1 & M2 & M3 & M4 & M5 & M6 & M7 & M8 & M9).
    { unfold parse_and_merge. rewrite P. cbn [px_key px p_sheet p_st p_nd p_exp p_call p_opts px_url px_ref]. eexists. split; [reflexivity|].
      cbn [l_url l_sheet_name l_sheet l_st_edge l_nd_edge l_exp l_call l_base l_opts with_opts no_context].
      rewrite E1. destruct (f_sheet f), (meant_nd f), (f_exp f); repeat (split; [reflexivity|]); reflexivity. }
    assert (FT' : fetch (l_url l1) (l_sheet_name l1) (l_sheet l1) (at_stage (world (State w None : state xworld (nat * xl))) "parse" l1)
      = (State w2 (Some (lit "parse", l1)), Ok (k, Xl url b i))) by (rewrite M1, M2, M3; apply FT).
    clear FT. rename FT' into FT.
    rewrite <- M5, <- M6, <- M8 in X. 
    assert (OUT : forall s1 out1, throw (p ++ lit "#" ++ t) no_context (State w None) = (s1, out1) ->
      exists s2, lasso_files mine (p ++ lit "#" ++ t) no_context (State w None)
        = (s2, match out1 with Ok (inl l) => Ok (l_values l) | Ok (inr _) => Raise AttributeError | Raise e => Raise e end)).
    { intros s1 out1 E. unfold Whole_Model.lasso_files, lasso_values. rewrite E. destruct mine; cbn [close_all]; destruct out1 as [[l|j]|e]; eexists; reflexivity. }
    assert (GO : forall e, resolve_rect states_of margins_of (with_sheet (k, Xl url b i) l1) (k, Xl url b i) = Raise e ->
      exists s1, throw (p ++ lit "#" ++ t) no_context (State w None) = (s1, Raise e)).
    { intros e Z. rewrite do_lasso_eq. cbv zeta. rewrite M0. unfold open_sheet, catching. rewrite FT. cbn beta iota. rewrite Z. eexists. reflexivity. }
    destruct r as [[a c]|x].
    - destruct RR as (A & RR).
      assert (V : forall v, read_of to_json (k, Xl url b i) (Some a) c = Ok v ->
        exists s2, lasso_files mine (p ++ lit "#" ++ t) no_context (State w None) = (s2, Ok v)).
      { intros v Z. destruct (C66_values_read filters base_opts loads (urldefrag bad_host) fetch states_of margins_of (read_of to_json)
          (p ++ lit "#" ++ t) no_context (State w None) l1 (k, Xl url b i) _ _ _ e1 a c v M0 FT eq_refl MG M4 X Z M7) as (s1 & l & E & V & _).
        destruct (OUT _ _ E) as (s2 & L). exists s2. rewrite L, V. reflexivity. }
      destruct c as [c|].
      + destruct (xlrd_shows sh a c (conj S1 (conj S2 S3)) RR) as (tb & E & PL).
        destruct (V (table tb)) as (s2 & L). { unfold read_of, wrapped_read_rect. cbn [snd w_sheet w_epoch1904]. change (o_sheet (Xl url b i)) with sh. rewrite E. reflexivity. }
        exists s2, (Ok (table tb)). split; [exact L|]. exists tb. auto.
      + assert (DEC : in_xsheet sh (fst a) (snd a) \/ (Z.of_nat (xs_rows sh) <= fst a \/ Z.of_nat (xs_cols sh) <= snd a)).
        { unfold in_xsheet. destruct A. lia. }
        destruct DEC as [DI|DI].
        * destruct (taken_read to_json k (Xl url b i) a None (conj S1 (conj S2 S3)) A DI) as (v & E & _ & y & -> & Z).
          destruct (V _ E) as (s2 & L). exists s2, (Ok (to_json y)). split; [exact L|]. split; [|contradiction]. intros _. exists y. auto.
        * assert (E : read_of to_json (k, Xl url b i) (Some a) None = Raise IndexError).
          { unfold read_of, wrapped_read_rect. cbn [snd w_sheet w_epoch1904]. change (o_sheet (Xl url b i)) with sh.
            rewrite (proj2 (C39_xlrd_single xldate_as_datetime false sh a) DI). reflexivity. }
          assert (exists s1, throw (p ++ lit "#" ++ t) no_context (State w None) = (s1, Raise IndexError)) as (s1 & TH).
          { rewrite do_lasso_eq. cbv zeta. rewrite M0. unfold open_sheet, catching. rewrite FT. unfold resolve_rect.
            cbn [with_sheet l_st_edge l_nd_edge l_exp l_base l_opts]. unfold states_of, margins_of. cbn [snd rbind]. change (o_sheet (Xl url b i)) with sh.
            rewrite MG. cbn [rbind]. rewrite M4, X. unfold read. rewrite E. eexists. reflexivity. }
          destruct (OUT _ _ TH) as (s2 & L). exists s2, (Raise IndexError). split; [exact L|]. split; [|reflexivity].
          intros (Y1 & Y2). lia.
    - assert (RX : resolve_rect states_of margins_of (with_sheet (k, Xl url b i) l1) (k, Xl url b i)
        = match x with EmptyCapture => if opt "no_empty" base_opts then Raise EmptyCapture else Ok (None, None) | _ => Raise (if is_none (meant_nd f) then TypeError else ValueError) end).
      { unfold resolve_rect. cbn [with_sheet l_st_edge l_nd_edge l_exp l_base l_opts]. unfold states_of, margins_of. cbn [snd rbind].
        change (o_sheet (Xl url b i)) with sh. rewrite MG. cbn [rbind]. rewrite M4, X, M9. unfold edges_error. cbn [with_sheet l_st_edge l_nd_edge]. rewrite M4, M5. destruct (meant_nd f); reflexivity. }
      assert (x = EmptyCapture \/ x <> EmptyCapture) as [ -> |NX] by (destruct x; auto; right; discriminate).
      + destruct (C66_empty_capture filters base_opts loads (urldefrag bad_host) fetch states_of margins_of (read_of to_json)
          (p ++ lit "#" ++ t) no_context (State w None) l1 (k, Xl url b i) _ _ _ e1 M0 FT eq_refl MG M4 X M7) as (Y1 & Y2). rewrite M9 in Y1, Y2.
        destruct (opt "no_empty" base_opts) eqn:OP.
        * apply opt_on in OP. destruct (Y1 OP) as (s1 & TH). destruct (OUT _ _ TH) as (s2 & L). exists s2, (Raise EmptyCapture).
          split; [exact L|]. split; [reflexivity|contradiction].
        * assert (NO : ~ on (lit "no_empty") base_opts) by (intros Y; apply opt_on in Y; congruence).
          destruct (Y2 NO) as (s1 & l & TH & V & _). destruct (OUT _ _ TH) as (s2 & L). exists s2, (Ok (JList [])).
          split; [rewrite L, V; reflexivity|]. split; [contradiction|reflexivity].
      + assert (RV : resolve_rect states_of margins_of (with_sheet (k, Xl url b i) l1) (k, Xl url b i) = Raise (if is_none (meant_nd f) then TypeError else ValueError)).
        { rewrite RX. destruct x; congruence. }
        destruct (GO _ RV) as (s1 & TH). destruct (OUT _ _ TH) as (s2 & L). exists s2, (Raise (if is_none (meant_nd f) then TypeError else ValueError)). split; [exact L|].
        destruct x; try reflexivity. congruence.
  Qed.

  (** A colon alone stands for all cells from the first row and column with data to the last of the sheet. *)
  Theorem C102_all : forall xs p b n i mine m up, Forall local_ref xs ->
    book_path (word word_char) cwd p -> disk (File (abspath cwd p)) = Some b -> xb_1904 b = false ->
    nth_error (xb_names b) i = Some n -> nameable n -> sound_sheet (xb_sheet b i) -> cells_of (xb_sheet b i) m -> first_of m up ->
    exists s t, lasso_files mine (p ++ lit "#" ++ n ++ lit "!:") no_context (State (lassos xs new_world) None) = (s, Ok (table t))
      /\ placed (xlrd_cell shows (xb_sheet b i)) up (last_of (xb_sheet b i)) t.
  Proof.
    intros xs p b n i mine m up H B D E N NM S M U. pose proof NM as ((NE & NB) & (Q1 & Q2) & T & SP).
    set (f := Frag (Some n) None true None None None). set (dn := last_of (xb_sheet b i)).
    assert (F : frag_text (n ++ lit "!:") f).
    { change (n ++ lit "!:") with ([] ++ n ++ lit "!" ++ lit ":"). apply Ft_sheet; [intros c []|split; assumption| |reflexivity].
      change (lit ":") with ([] ++ lit ":" ++ []). apply (Bt_two (Some n) [] None (lit ":") None None [] None); [reflexivity| |constructor].
      change (lit ":") with (lit ":" ++ [] ++ []). apply (St_some [] None [] None); reflexivity. }
    assert (R : readable (n ++ lit "!:") f).
    { cbn [readable f f_sheet]. destruct n as [|c n']; [congruence|]. exists c, n'. split; [reflexivity|]. exact (SP c n' eq_refl). }
    assert (UT : url_text (n ++ lit "!:")).
    { split; [destruct n; discriminate|]. split.
      - split; intros I; apply in_app_or in I; destruct I as [I|[I|[I|[]]]]; try discriminate I; contradiction.
      - apply Forall_app. split; [exact T|]. repeat constructor; intros [I|[I|[I|[]]]]; discriminate I. }
    assert (W : forall s, s = lit "^" \/ s = lit "_" -> within dn (Edge (Cell (CStr s) (CStr s)) None None)).
    { intros s K. split; cbn [land c_row c_col]; intros z [Z|(s' & Z & PI)]; try discriminate Z; injection Z as <-; destruct K as [ -> | -> ]; discriminate PI. }
    assert (UD : fst up <= fst dn /\ snd up <= snd dn).
    { destruct U as [(_ & (q & Q & <-) & (q' & Q' & <-))|(_ & ->)].
      - apply M in Q, Q'. destruct Q as ((A1 & A2) & _), Q' as ((B1 & B2) & _). unfold dn, last_of. cbn [fst snd]. lia.
      - destruct S as (S1 & S2 & _). unfold dn, last_of. cbn [fst snd]. lia. }
    destruct (C102_file xs p b (n ++ lit "!:") f i mine m up top_left (Ok (corners_of (box up dn)))) as (s & out & L & t & -> & P); auto.
    - apply W. auto.
    - intros e X. injection X as <-. apply W. auto.
    - apply (Me_rect m up dn None top_left (Some bottom_right) None up bottom_right dn); [| reflexivity| |reflexivity].
      + apply Fi_there; [|reflexivity]. split; [constructor|]. apply Dc_same. constructor.
      + constructor. apply Fi_there; [|reflexivity]. split; [constructor|]. apply Dc_same. constructor.
    - exists s, t. split; [exact L|]. cbn [box r1 c1 r2 c2] in P. rewrite !Z.min_l, !Z.max_r in P by lia. destruct up, dn. exact P.
  Qed.
End Whole.
Print Assumptions C102_file.
Print Assumptions C102_all.

(** ** A sheet *)

(** Some blank cells around data *)
Definition sparse : list (list xcell) :=
  [ [none; none; none; none];
    [none; txt "x"; txt "y"; none];
    [none; num 1; num 2; none];
    [none; num 3; none; none];
    [none; none; none; num 9] ].
Definition sparse_book : xbook := book_of [(lit "In", sparse); (lit "Out", [[txt "o"]])].
Definition see (x : string) : res json := alone [("/a/b.xls", sparse_book)%string] "/a" (lit x).
Definition rows_of (t : list (list json)) : res json := Ok (JList (map JList t)).

Example C102_example :
  see "b.xls#In!A1(RD):..(RD)" = rows_of [[JStr (lit "x"); JStr (lit "y")]; [JNum 1; JNum 2]; [JNum 3; JNull]] /\
  see "b.xls#A1(DR)" = Ok (JStr (lit "x")) /\
  see "b.xls#^^:.." = rows_of [[JStr (lit "x")]] /\
  see "b.xls#R-2C2:..:U1R?" = rows_of [[JNum 1; JNum 2]; [JNum 3; JNull]] /\
  see "b.xls#Out!:" = rows_of [[JStr (lit "o")]] /\
  see "b.xls#In!" = rows_of [[JStr (lit "x"); JStr (lit "y"); JNull]; [JNum 1; JNum 2; JNull]; [JNum 3; JNull; JNull]; [JNull; JNull; JNum 9]] /\
  see "b.xls#A1(U)" = Ok (JList []) /\
  see "b.xls#B2:..:1L" = Raise ValueError /\
  see "b.xls#R.C.:A1" = Raise ValueError /\
  see "b.xls#R.C." = Raise TypeError.
Proof. vm_compute. repeat (split; [reflexivity|]). reflexivity. Qed.

(** The hypotheses hold of the 1st one. *)
Definition first_text : pystr := lit "In!A1(RD):..(RD)".
Definition first_edge : edge := Edge (Cell (CStr (lit "1")) (CStr (lit "A"))) (Some (lit "RD")) None.
Definition second_edge : edge := Edge (Cell (CStr (lit ".")) (CStr (lit "."))) (Some (lit "RD")) None.
Definition first_frag : frag := Frag (Some (lit "In")) (Some first_edge) true (Some second_edge) None None.
Example C102_hypotheses :
  frag_text first_text first_frag /\ readable first_text first_frag /\ url_text first_text /\ sheet_number sparse_book (f_sheet first_frag) 0 /\
  sound_sheet (xb_sheet sparse_book 0) /\ cells_of (xb_sheet sparse_book 0) (xlrd_states (xb_sheet sparse_book 0)) /\
  first_of (xlrd_states (xb_sheet sparse_book 0)) (1, 1) /\ within (last_of (xb_sheet sparse_book 0)) first_edge /\ within (last_of (xb_sheet sparse_book 0)) second_edge /\
  means (xlrd_states (xb_sheet sparse_book 0)) (1, 1) (last_of (xb_sheet sparse_book 0)) None first_edge (Some second_edge) None (Ok ((1, 1), Some (3, 2))).
Proof.
  assert (F : frag_text first_text first_frag).
  { change first_text with ([] ++ lit "In" ++ lit "!" ++ (lit "A1(RD)" ++ (lit ":" ++ lit "..(RD)" ++ []) ++ [])).
    apply Ft_sheet; [intros c []| | |reflexivity].
    - split; [discriminate|]. intros c I. vm_compute in I. intuition; subst c; reflexivity.
    - apply Bt_two; [| |constructor].
      + change (lit "A1(RD)") with ((lit "A" ++ lit "1") ++ lit "(" ++ lit "RD" ++ [] ++ lit ")").
        apply (Et_moves false _ _ [dR; dD]); [|constructor|reflexivity|left; auto].
        * apply (Ct_a1 false (lit "A") (lit "1")); left.
          -- split; [discriminate|]. intros c I. vm_compute in I. destruct I as [<-|[]]. reflexivity.
          -- exists 49%N, []. split; [reflexivity|]. split; [lia|]. intros c [].
        * right. split; [intros [X|X]; discriminate X|right; reflexivity].
      + apply St_some; [|reflexivity]. change (lit "..(RD)") with ((lit "." ++ lit ".") ++ lit "(" ++ lit "RD" ++ [] ++ lit ")").
        apply (Et_moves true _ _ [dR; dD]); [|constructor|reflexivity|left; auto].
        * apply (Ct_a1 true (lit ".") (lit ".")); right; right; right; auto.
        * right. split; [intros [X|X]; discriminate X|right; reflexivity]. }
  assert (CO : cells_of (xb_sheet sparse_book 0) (xlrd_states (xb_sheet sparse_book 0))) by (intros q; apply C67_xlrd_full).
  assert (FO : first_of (xlrd_states (xb_sheet sparse_book 0)) (1, 1)).
  { left. pose proof (C19_tight_box (xlrd_states (xb_sheet sparse_book 0))) as T. destruct T as (A1 & A2 & A3 & _).
    - exists (1, 1). split; [cbn; lia|]. split; [cbn; lia|]. reflexivity.
    - change (fst (margin_coords (xlrd_states (xb_sheet sparse_book 0)))) with (1, 1) in *. split; [|split; assumption].
      intros q Q. destruct (A1 q Q) as ((X1 & _) & (X2 & _)). auto. }
  assert (W1 : within (last_of (xb_sheet sparse_book 0)) first_edge).
  { split; intros z [Z|(t & Z & PI)]; try discriminate Z; injection Z as <-.
    - assert (P1 : py_int (lit "1") = Some 1) by reflexivity. rewrite P1 in PI. assert (1 = - z) by congruence. cbn. lia.
    - vm_compute in PI. discriminate PI. }
  assert (W2 : within (last_of (xb_sheet sparse_book 0)) second_edge).
  { split; intros z [Z|(t & Z & PI)]; try discriminate Z; injection Z as <-; vm_compute in PI; discriminate PI. }
  split; [exact F|]. split. { exists 73%N, (lit "n"). split; reflexivity. }
  split. { split; [discriminate|]. split; [split; vm_compute; intuition discriminate|]. apply Forall_forall. intros c I. vm_compute in I. cbn [In]. intuition; subst c; discriminate. }
  split; [reflexivity|]. split.
  { split; [cbn; lia|]. split; [cbn; lia|]. intros r c (R & C). cbn in R, C.
    assert (r = 0 \/ r = 1 \/ r = 2 \/ r = 3 \/ r = 4) as Y by lia. assert (c = 0 \/ c = 1 \/ c = 2 \/ c = 3) as Y' by lia.
    repeat (destruct Y as [ -> |Y]; [|]); repeat (destruct Y' as [ -> |Y']); subst; (split; [discriminate|intros E; discriminate E]). }
  split; [exact CO|]. split; [exact FO|]. split; [exact W1|]. split; [exact W2|].
  pose proof (C67_xlrd (xb_sheet sparse_book 0) ltac:(cbn; lia) ltac:(cbn; lia)) as MG.
  apply (C102_capture first_text first_frag _ (1, 1) (last_of (xb_sheet sparse_book 0)) None first_edge F eq_refl (C67_xlrd_is_margin _ _ _ MG));
    try (cbn; lia); try discriminate; try exact W1.
  - intros e E. injection E as <-. exact W2.
  - vm_compute. reflexivity.
Qed.

(** Counting back beyond the first row may start again from the last one. *)
Theorem C102_before_refuted : exists e r, means (xlrd_states (xb_sheet sparse_book 0)) (1, 1) (last_of (xb_sheet sparse_book 0)) None e None None r /\
  r = Raise EmptyCapture /\ e = Edge (Cell (CStr (lit "-6")) (CStr (lit "4"))) (Some (lit "R")) None /\ see "b.xls#R-6C4(R)" = Ok (JNum 9).
Proof.
  exists (Edge (Cell (CStr (lit "-6")) (CStr (lit "4"))) (Some (lit "R")) None), (Raise EmptyCapture). split; [|split; [reflexivity|split; [reflexivity|vm_compute; reflexivity]]].
  assert (NF : forall q, fst q < 0 -> ~ full (xlrd_states (xb_sheet sparse_book 0)) q) by (intros q Q (A & _); lia).
  apply Me_fail1. apply (Fi_moves _ _ _ _ _ _ (-1, 3) [dR]); [|reflexivity|].
  - split; cbn [land c_row c_col fst snd option_map].
    + change (-1) with (4 - (6 - 1)). apply Dn_neg; [reflexivity|lia].
    + apply Dc_same. change 3 with (4 - 1). apply Dn_pos; [reflexivity|lia].
  - apply En_empty; [apply NF; cbn; lia|]. intros j i t S. cbn [swept] in S. destruct j; [|discriminate S]. injection S as <-. apply NF. cbn [moved fst]. lia.
Qed.
Print Assumptions C102_before_refuted.
