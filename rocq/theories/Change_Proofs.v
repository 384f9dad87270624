(** * Lassoing the cells of files that change: proofs *)
From Coq Require Import String QArith.
From Verif Require Import PyBase PyBase_Proofs Json Coords_Model Capture_Model Parse_Model Parse_Spec Lasso_Model Ranger_Props Sheets_Model Sheets_Spec Sheets_Proofs.
From Verif Require Import OsPath_Model OsPath_Spec Url_Spec Url_Model FileUrl_Model FileUrl_Spec FileUrl_Proofs FileUrl_Props ReadRect_Model.
From Verif Require Import Dates_Model Whole_Model Whole_Spec Whole_Proofs Meaning_Spec Meaning_Props.
From Verif Require Import Change_Model Change_Spec.
Open Scope nat_scope.

Section Change.
  Variable lossy : list N -> pystr.
  Variable bad_host : pystr -> bool.
  Variable expandvars : pystr -> pystr.
  Variable expanduser_tilde : pystr -> pystr.
  Variable word_char : pychar -> bool.
  Variable set_list : list key -> list key.
  Variable to_json : xvalue -> json.
  Variable loads : pystr -> option json.
  Variable base_opts : dict.
  Variable filters : pystr -> option (Lasso_Model.filter xworld (nat * xl)).
  Variable folders : list pystr.

  Hypothesis Hset : distinct_members set_list.
  Hypothesis Hcwd : Forall name folders.
  Hypothesis Hcwd' : Forall (Forall scalar) folders.
  Hypothesis Hfilt : forall n f l args kwds s, filters n = Some f -> world (fst (f_run f l args kwds s)) = world s.

  Notation cwd := (folder_path folders).
  Notation disks := (source -> option xbook).
  Notation to_url := (to_url bad_host expandvars expanduser_tilde cwd).
  Notation open_url := (fun disk => open_url lossy bad_host expandvars expanduser_tilde word_char disk cwd).
  Notation opens_to := (fun disk => opens_to lossy bad_host expandvars expanduser_tilde word_char disk cwd).
  Notation fetch := (fun disk => fetch lossy bad_host expandvars expanduser_tilde word_char set_list disk cwd).
  Notation steady := (fun disk => steady lossy bad_host expandvars expanduser_tilde word_char disk folders).
  Notation lasso_at := (lasso_at lossy bad_host expandvars expanduser_tilde word_char set_list to_json loads base_opts filters cwd).
  Notation history := (history lossy bad_host expandvars expanduser_tilde word_char set_list to_json loads base_opts filters cwd).
  Notation now := (now lossy bad_host expandvars expanduser_tilde word_char set_list to_json loads base_opts filters cwd).
  Notation throw := (fun disk => do_lasso filters base_opts loads (urldefrag bad_host) (fetch disk) states_of margins_of (read_of to_json)).

  (** Every key leads to the sheet that was opened by it at some moment, and so does the key
      with the URL of the sheet.  Sheets are numbered as they were opened. *)
  Definition dated (past : list disks) (ts : list nat) (w : xworld) : Prop :=
    length ts = length (x_sheets w) /\
    (forall n t, nth_error ts n = Some t -> t < length past) /\
    (forall n m t u, n <= m -> nth_error ts n = Some t -> nth_error ts m = Some u -> t <= u) /\
    proper_dicts (x_factory w) /\
    forall wb sh n, cache_get (x_factory w) (wb, sh) = Some n ->
      exists o t d, nth_error (x_sheets w) n = Some o /\ nth_error ts n = Some t /\ nth_error past t = Some d /\
        steady d o /\ to_url wb = Ok (o_url o) /\ open_url d (o_url o) sh = Ok o /\
        cache_get (x_factory w) (o_url o, sh) = Some n.

  Lemma dated_new : forall past, dated past [] new_world.
  Proof.
    intros past. split; [reflexivity|]. split; [intros [|n] t E; discriminate E|]. split; [intros [|n] m t u L E; discriminate E|].
    split; [split; [constructor|intros wb d []]|]. intros wb sh n E. discriminate E.
  Qed.

  Lemma dated_later : forall past ts w d, dated past ts w -> dated (past ++ [d]) ts w.
  Proof.
    intros past ts w d (H1 & H2 & H3 & H4 & H5). split; [exact H1|]. split; [intros n t E; rewrite app_length; cbn [length]; specialize (H2 n t E); lia|].
    split; [exact H3|]. split; [exact H4|]. intros wb sh n E. destruct (H5 wb sh n E) as (o & t & d' & A & B & C & D). exists o, t, d'.
    split; [exact A|]. split; [exact B|]. split; [|exact D]. rewrite nth_error_app1; [exact C|]. apply nth_error_Some. congruence.
  Qed.

  (** What is fetched, and what becomes of the cache *)
  Lemma fetch_step : forall past ts w d p name i s' r, dated past ts w -> unique_names d -> local_path p ->
    fetch d (Some p) name None (State w i) = (s', r) ->
    exists ts', dated (past ++ [d]) ts' (world s') /\ inter s' = i /\
      (forall n t, nth_error ts n = Some t -> nth_error ts' n = Some t) /\
      (forall k n, cache_get (x_factory (world s')) k = Some n -> cache_get (x_factory w) k = Some n \/ (n = length ts /\ to_url (fst k) = to_url p)) /\
      (forall n o, nth_error (x_sheets w) n = Some o -> nth_error (x_sheets (world s')) n = Some o) /\
      (forall wb sh n, cache_get (x_factory w) (wb, sh) = Some n -> to_url wb <> to_url p \/ (wb = p /\ sh = sheet_id name) ->
         cache_get (x_factory (world s')) (wb, sh) = Some n) /\
      match r with
      | Ok (n, o) => nth_error (x_sheets (world s')) n = Some o /\ cache_get (x_factory (world s')) (p, sheet_id name) = Some n /\
          (cache_get (x_factory w) (p, sheet_id name) = None -> opens_to d (Some p) (sheet_id name) None = Ok o) /\ exists t d', nth_error ts' n = Some t /\ nth_error (past ++ [d]) t = Some d' /\ opens_to d' (Some p) (sheet_id name) None = Ok o /\
          to_url p = Ok (o_url o) /\ cache_get (x_factory (world s')) (o_url o, sheet_id name) = Some n
      | Raise _ => exists e, opens_to d (Some p) (sheet_id name) None = Raise e
      end.
  Proof.
    intros past ts w d p name i s' r C UD LP F. unfold Whole_Model.fetch in F. cbn [world inter] in F.
    pose proof (dated_later past ts w d C) as C'.
    cbn [Whole_Model.opens_to]. destruct (to_url p) as [url|e] eqn:U; cbn [rbind] in *.
    2: { injection F as <- <-. exists ts. split; [exact C'|]. split; [reflexivity|]. do 4 (split; [auto|]). exists e. reflexivity. }
    assert (NE : p <> []). { destruct LP as (_ & (c & q & -> & _) & _). discriminate. }
    assert (U' : to_url url = Ok url) by exact (url_stays _ _ _ _ Hcwd Hcwd' _ _ LP U).
    cbn [Whole_Model.opens_to option_map fetch_sheet] in F. rewrite U in F. cbn [rbind] in F.
    destruct C as (H1 & H2 & H3 & H4 & H5).
    destruct (cache_get (x_factory w) (p, sheet_id name)) as [n|] eqn:G.
    - rewrite Nat.eqb_refl in F. destruct (H5 _ _ _ G) as (o & t & d' & G1 & G2 & G3 & G4 & G5 & G6 & G7). cbn [rbind] in F. rewrite G1 in F.
      injection F as <- <-. cbn [world inter x_factory x_sheets]. exists ts. split; [destruct w; exact C'|]. split; [reflexivity|]. do 4 (split; [auto|]).
      split; [exact G1|]. split; [exact G|]. split; [congruence|]. rewrite U in G5. injection G5 as ->. exists t, d'. split; [exact G2|]. split; [rewrite nth_error_app1; [exact G3|]; apply nth_error_Some; congruence|]. auto.
    - destruct (open_url d url (sheet_id name)) as [o|e] eqn:E; cbn [rbind] in F; unfold open_and_add in F.
      + destruct (open_url_book _ _ _ _ _ _ _ UD _ _ _ E) as (NU & OU & ND & _ & _ & _).
        assert (S : steady d o) by (split; rewrite OU; [exact U'|exists (sheet_id name); exact E]).
        set (sheets := x_sheets w ++ [o]) in *. set (k0 := length (x_sheets w)) in *.
        assert (L : nth_error sheets k0 = Some o) by (unfold sheets, k0; rewrite nth_error_app2, Nat.sub_diag by lia; reflexivity).
        assert (IK : forall wb sh, id_of (ids_in sheets) k0 (One (Some p)) (One (sheet_id name)) (wb, sh) <->
          (wb = url \/ wb = p) /\ wb <> [] /\ (In sh (snd (o_ids o)) \/ sh = sheet_id name)).
        { intros wb sh. unfold id_of. cbn [fst snd among]. unfold ids_in. rewrite L. unfold o_ids. cbn [snd]. rewrite OU. split.
          - intros (wb0 & shs & I1 & I2 & I3 & I4). injection I1 as <- <-. split; [destruct I2 as [I2|I2]; [auto|right; congruence]|]. auto.
          - intros (I2 & I3 & I4). do 2 eexists. split; [reflexivity|]. split; [destruct I2 as [ -> | -> ]; auto|]. auto. }
        destruct (add_sheet_iff set_list (ids_in sheets) Hset k0 (One (Some p)) (One (sheet_id name)) (opened (x_factory w))) as (f1 & A1).
        { exists (p, sheet_id name). apply IK. auto. }
        pose proof (add_sheet_opens set_list (ids_in sheets) k0 (One (Some p)) (One (sheet_id name)) (opened (x_factory w))) as X.
        rewrite A1 in F, X. cbn [fst opened Sheets_Model.opens] in X.
        assert (Nat.eqb (Sheets_Model.opens f1) (Sheets_Model.opens (x_factory w)) = false) as Y by (apply Nat.eqb_neq; lia). rewrite Y in F. clear X Y.
        cbn [rbind] in F. rewrite L in F. injection F as <- <-. cbn [world inter x_factory x_sheets].
        assert (AG := fun k x => add_sheet_get set_list (ids_in sheets) Hset k0 (One (Some p)) (One (sheet_id name)) (opened (x_factory w)) f1 H4 A1 k x).
        assert (T : nth_error (ts ++ [length past]) k0 = Some (length past)).
        { rewrite nth_error_app2 by (unfold k0; lia). replace (k0 - length ts) with 0 by (unfold k0; lia). reflexivity. }
        exists (ts ++ [length past]). split.
        { split; [cbn [x_sheets]; unfold sheets; rewrite !app_length, H1; reflexivity|].
          split. { intros n t Q. rewrite app_length. cbn [length]. destruct (Nat.lt_ge_cases n (length ts)) as [Q'|Q'].
                   - rewrite nth_error_app1 in Q by exact Q'. specialize (H2 n t Q). lia.
                   - rewrite nth_error_app2 in Q by exact Q'. destruct (n - length ts) as [|m]; [injection Q as <-; lia|]. destruct m; discriminate Q. }
          split. { intros n m t u LE Q1 Q2. destruct (Nat.lt_ge_cases m (length ts)) as [Q'|Q'].
                   - rewrite nth_error_app1 in Q1, Q2 by lia. exact (H3 n m t u LE Q1 Q2).
                   - rewrite nth_error_app2 in Q2 by exact Q'. destruct (m - length ts) as [|m']; [injection Q2 as <-|destruct m'; discriminate Q2].
                     destruct (Nat.lt_ge_cases n (length ts)) as [Q|Q].
                     + rewrite nth_error_app1 in Q1 by exact Q. specialize (H2 n t Q1). lia.
                     + rewrite nth_error_app2 in Q1 by exact Q. destruct (n - length ts) as [|n']; [injection Q1 as <-; lia|destruct n'; discriminate Q1]. }
          split. { change f1 with (fst (f1, @Ok unit tt)). rewrite <- A1. apply add_sheet_proper. exact H4. }
          intros wb' sh' n Q. cbn [x_factory x_sheets] in *. apply AG in Q. destruct Q as [(Q & ->)|(Q & Q1 & Q2)].
          - apply IK in Q. destruct Q as (Q1 & Q2 & Q3). exists o, (length past), d. split; [exact L|]. split; [exact T|].
            split; [rewrite nth_error_app2, Nat.sub_diag by lia; reflexivity|]. split; [exact S|].
            split; [rewrite OU; destruct Q1 as [ -> | -> ]; assumption|]. split.
            + destruct Q3 as [Q3| -> ]; [|rewrite OU; exact E]. apply steady_ids; [exact UD|exact S|exact Q3].
            + apply AG. left. split; [|reflexivity]. rewrite OU. apply IK. auto.
          - destruct (H5 _ _ _ Q1) as (o' & t & d' & G1 & G2 & G3 & G4 & G5 & G6 & G7). exists o', t, d'.
            assert (n < length ts) by (apply nth_error_Some; congruence).
            split; [apply grows; exact G1|]. split; [rewrite nth_error_app1 by assumption; exact G2|].
            split; [rewrite nth_error_app1; [exact G3|]; apply nth_error_Some; congruence|]. split; [exact G4|]. split; [exact G5|]. split; [exact G6|].
            assert (NK : n <> k0) by (unfold k0; lia). apply AG. right. split; [|split; [exact G7|exact Q2]].
            intros Q3. exact (Q2 NK _ Q3 G7). }
        split; [reflexivity|]. split; [intros n t Q; apply grows; exact Q|]. split.
        { intros [wb sh] n Q. apply AG in Q. destruct Q as [(Q & ->)|(_ & Q & _)]; [right|left; exact Q]. split; [unfold k0; lia|].
          apply IK in Q. cbn [fst]. destruct Q as ([ -> | -> ] & _); congruence. }
        split. { intros n o' Q. apply grows. exact Q. }
        split. { intros wb sh n Q [Q'|(-> & ->)]; [|congruence]. apply AG. right.
                 assert (Z : forall wb' sh', id_of (ids_in sheets) k0 (One (Some p)) (One (sheet_id name)) (wb', sh') -> to_url wb' = Ok url).
                 { intros wb' sh' I. apply IK in I. destruct I as ([ -> | -> ] & _); congruence. }
                 split; [intros I; apply Q'; exact (Z _ _ I)|]. split; [exact Q|]. intros _ [wb' sh'] I Q1. specialize (Z _ _ I). apply Q'.
                 destruct (H5 _ _ _ Q) as (o1 & _ & _ & R1 & _ & _ & _ & R2 & _). destruct (H5 _ _ _ Q1) as (o2 & _ & _ & R3 & _ & _ & _ & R4 & _). congruence. }
        split; [exact L|]. split; [apply AG; left; split; [|reflexivity]; apply IK; auto|]. split; [reflexivity|].
        exists (length past), d. split; [exact T|]. split; [rewrite nth_error_app2, Nat.sub_diag by lia; reflexivity|]. split; [exact E|].
        split; [rewrite OU; reflexivity|]. apply AG. left. split; [|reflexivity]. rewrite OU. apply IK. auto.
      + cbn [opened Sheets_Model.opens] in F. assert (Nat.eqb (Datatypes.S (Sheets_Model.opens (x_factory w))) (Sheets_Model.opens (x_factory w)) = false) as Y by (apply Nat.eqb_neq; lia).
        rewrite Y in F. injection F as <- <-. cbn [world inter x_factory x_sheets]. exists ts. split; [exact C'|]. split; [reflexivity|]. do 4 (split; [auto|]). exists e. reflexivity.
  Qed.

  (** Without filters, the result is that of the sheet. *)
  Definition look (l : lasso (nat * xl)) (o : xl) : res json :=
    match resolve_rect states_of margins_of (with_sheet (0, o) l) (0, o) with
    | Raise e => Raise e
    | Ok (st, nd) => read (read_of to_json) (0, o) st nd
    end.

  Lemma throw_look : forall d x s l1, parse_and_merge loads (urldefrag bad_host) x (with_opts base_opts no_context) = Ok l1 -> l_call l1 = None ->
    forall s2 r, fetch d (l_url l1) (l_sheet_name l1) (l_sheet l1) (at_stage (world s) "parse" l1) = (s2, r) ->
    world (fst (throw d x no_context s)) = world s2 /\
    forall mine, snd (lasso_at d mine x no_context s) = match r with Ok (_, o) => look l1 o | Raise _ => Raise ValueError end.
  Proof.
    intros d x s l1 P NC s2 r F. unfold Change_Model.lasso_at, lasso_files, lasso_values. rewrite do_lasso_eq. cbv zeta. rewrite P.
    unfold open_sheet, catching. rewrite F. destruct r as [[n o]|e]; cbn beta iota; [|split; [reflexivity|intros [|]; reflexivity]].
    unfold look.
    change (resolve_rect states_of margins_of (with_sheet (n, o) l1) (n, o)) with (resolve_rect states_of margins_of (with_sheet (0, o) l1) (0, o)).
    destruct (resolve_rect states_of margins_of (with_sheet (0, o) l1) (0, o)) as [[st nd]|e]; [|split; [reflexivity|intros [|]; reflexivity]].
    change (read (read_of to_json) (n, o) st nd) with (read (read_of to_json) (0, o) st nd).
    destruct (read (read_of to_json) (0, o) st nd) as [v|e]; [|split; [reflexivity|intros [|]; reflexivity]].
    unfold run_filters. change (l_call (with_values v (with_rect st nd (with_sheet (n, o) l1)))) with (l_call l1). rewrite NC.
    split; [reflexivity|intros [|]; reflexivity].
  Qed.

  Lemma ref_parse : forall x p n, refers_to x p n -> local_path p /\ exists l1,
    parse_and_merge loads (urldefrag bad_host) x (with_opts base_opts no_context) = Ok l1 /\ l_call l1 = None /\
    l_url l1 = Some p /\ l_sheet_name l1 = n /\ l_sheet l1 = None.
  Proof.
    intros x p n (t & f & -> & L & Q & S & F & R & NF & T & <-). split; [exact L|].
    unfold parse_and_merge. rewrite (text_parse bad_host loads p t f L Q S F R NF T). cbn [px_key px p_sheet p_st p_nd p_exp p_call p_opts px_url px_ref].
    eexists. split; [reflexivity|]. cbn. destruct (f_sheet f); auto.
  Qed.

  (** The result of a new factory *)
  Lemma now_look : forall d x p n l1, unique_names d -> local_path p ->
    parse_and_merge loads (urldefrag bad_host) x (with_opts base_opts no_context) = Ok l1 -> l_call l1 = None ->
    l_url l1 = Some p -> l_sheet_name l1 = n -> l_sheet l1 = None ->
    now d x = match opens_to d (Some p) (sheet_id n) None with Ok o => look l1 o | Raise _ => Raise ValueError end.
  Proof.
    intros d x p n l1 UD L P NC E1 E2 E3. unfold Change_Model.now.
    destruct (fetch d (l_url l1) (l_sheet_name l1) (l_sheet l1) (at_stage (world (State new_world None : state xworld (nat * xl))) "parse" l1)) as [s2 r] eqn:F.
    rewrite (proj2 (throw_look d x (State new_world None) l1 P NC s2 r F) true). rewrite E1, E2, E3 in F.
    destruct (fetch_spec lossy bad_host expandvars expanduser_tilde word_char set_list d loads filters folders Hset UD Hcwd Hcwd' new_world _ (Some p) n None _ _ (coherent_new _ _ _ _ _ _ _) L F) as (_ & _ & _ & Y).
    destruct (opens_to d (Some p) (sheet_id n) None) as [o|e]; [destruct Y as (k & -> & _); reflexivity|destruct Y as (e' & ->); reflexivity].
  Qed.

  (** One lasso of the history *)
  Lemma lasso_step : forall past ts w d x, dated past ts w -> unique_names d -> local_ref x ->
    exists ts', dated (past ++ [d]) ts' (world (fst (lasso_at d false x no_context (State w None)))) /\
      (forall n t, nth_error ts n = Some t -> nth_error ts' n = Some t) /\
      (forall k n, cache_get (x_factory (world (fst (lasso_at d false x no_context (State w None))))) k = Some n -> cache_get (x_factory w) k = Some n \/ n = length ts).
  Proof.
    intros past ts w d x C UD L.
    assert (W : world (fst (lasso_at d false x no_context (State w None))) = world (fst (throw d x no_context (State w None)))).
    { unfold Change_Model.lasso_at, lasso_files, lasso_values. destruct (throw d x no_context (State w None)) as [s [[l|j]|e]]; reflexivity. }
    rewrite W. clear W. rewrite do_lasso_eq. cbv zeta.
    assert (X : forall w', w' = w -> exists ts', dated (past ++ [d]) ts' w' /\ (forall n t, nth_error ts n = Some t -> nth_error ts' n = Some t) /\
      (forall k n, cache_get (x_factory w') k = Some n -> cache_get (x_factory w) k = Some n \/ n = length ts)).
    { intros w' ->. exists ts. split; [apply dated_later; exact C|auto]. }
    destruct (parse_and_merge loads (urldefrag bad_host) x (with_opts base_opts no_context)) as [l1|e] eqn:P; [|apply X; reflexivity]. clear X.
    unfold parse_and_merge in P. destruct (parse_xlref loads (urldefrag bad_host) x) as [p|e] eqn:E; [|destruct e; discriminate P].
    destruct (px_key p) eqn:K; [discriminate P|]. destruct (local_ref_url _ _ _ _ L E K) as (u & U & LU).
    assert (l_url l1 = Some u /\ l_sheet l1 = None) as (U1 & U2) by (injection P as <-; cbn [l_url]; rewrite U; split; reflexivity). clear P.
    unfold open_sheet, catching. rewrite U1, U2.
    destruct (fetch d (Some u) (l_sheet_name l1) None (at_stage (world (State w None : state xworld (nat * xl))) "parse" l1)) as [s2 r] eqn:F.
    destruct (fetch_step past ts w d u (l_sheet_name l1) _ s2 r C UD LU F) as (ts' & C2 & _ & M & G0 & _).
    assert (G : forall k n, cache_get (x_factory (world s2)) k = Some n -> cache_get (x_factory w) k = Some n \/ n = length ts) by (intros k n Q; destruct (G0 k n Q) as [|(? & _)]; auto).
    assert (Z : forall w', w' = world s2 -> exists ts', dated (past ++ [d]) ts' w' /\ (forall n t, nth_error ts n = Some t -> nth_error ts' n = Some t) /\
      (forall k n, cache_get (x_factory w') k = Some n -> cache_get (x_factory w) k = Some n \/ n = length ts)).
    { intros w' ->. exists ts'. auto. }
    destruct r as [sh|e]; [|apply Z; reflexivity].
    destruct (resolve_rect states_of margins_of (with_sheet sh l1) sh) as [[st nd]|e]; [|apply Z; reflexivity].
    destruct (read (read_of to_json) sh st nd) as [v|e]; [|apply Z; reflexivity].
    apply Z. rewrite run_filters_world by exact Hfilt. reflexivity.
  Qed.

  Lemma ref_step : forall past ts w d x p n l1, dated past ts w -> unique_names d -> local_path p -> Forall unique_names past ->
    parse_and_merge loads (urldefrag bad_host) x (with_opts base_opts no_context) = Ok l1 -> l_call l1 = None ->
    l_url l1 = Some p -> l_sheet_name l1 = n -> l_sheet l1 = None ->
    exists ts' m d', dated (past ++ [d]) ts' (world (fst (lasso_at d false x no_context (State w None)))) /\
      (forall n t, nth_error ts n = Some t -> nth_error ts' n = Some t) /\
      (forall k n, cache_get (x_factory (world (fst (lasso_at d false x no_context (State w None))))) k = Some n -> cache_get (x_factory w) k = Some n \/ n = length ts) /\
      nth_error (past ++ [d]) m = Some d' /\ snd (lasso_at d false x no_context (State w None)) = now d' x /\
      match to_url p with
      | Ok url => (m = length past /\ exists e, snd (lasso_at d false x no_context (State w None)) = Raise e) \/
          exists k, nth_error ts' k = Some m /\ cache_get (x_factory (world (fst (lasso_at d false x no_context (State w None))))) (url, sheet_id n) = Some k
      | Raise _ => exists e, snd (lasso_at d false x no_context (State w None)) = Raise e
      end.
  Proof.
    intros past ts w d x p n l1 C UD L UP P NC E1 E2 E3.
    destruct (fetch d (l_url l1) (l_sheet_name l1) (l_sheet l1) (at_stage (world (State w None : state xworld (nat * xl))) "parse" l1)) as [s2 r] eqn:F.
    destruct (throw_look d x (State w None) l1 P NC s2 r F) as (W & V).
    assert (W' : world (fst (lasso_at d false x no_context (State w None))) = world s2).
    { rewrite <- W. unfold Change_Model.lasso_at, lasso_files, lasso_values. destruct (throw d x no_context (State w None)) as [s [[l|j]|e]]; reflexivity. }
    rewrite W', V. rewrite E1, E2, E3 in F.
    destruct (fetch_step past ts w d p n _ s2 r C UD L F) as (ts' & C2 & _ & M & G0 & _ & _ & Y).
    assert (G : forall k n, cache_get (x_factory (world s2)) k = Some n -> cache_get (x_factory w) k = Some n \/ n = length ts) by (intros k' n' Q; destruct (G0 k' n' Q) as [|(? & _)]; auto).
    destruct r as [[k o]|e].
    - destruct Y as (_ & _ & _ & t & d' & Y1 & Y2 & Y3 & Y4 & Y5). exists ts', t, d'. split; [exact C2|]. split; [exact M|]. split; [exact G|]. split; [exact Y2|]. split.
      + rewrite (now_look d' x p n l1); try assumption; [rewrite Y3; reflexivity|].
        apply nth_error_In in Y2. apply in_app_or in Y2. destruct Y2 as [Y2|[<-|[]]]; [|exact UD]. rewrite Forall_forall in UP. exact (UP _ Y2).
      + rewrite Y4. right. exists k. auto.
    - destruct Y as (e' & Y). exists ts', (length past), d. split; [exact C2|]. split; [exact M|]. split; [exact G|].
      split; [rewrite nth_error_app2, Nat.sub_diag by lia; reflexivity|]. split; [rewrite (now_look d x p n l1), Y; auto|].
      destruct (to_url p); [left; split; [reflexivity|]|]; eexists; reflexivity.
  Qed.

  Lemma any_step : forall past ts w d x, dated past ts w -> unique_names d -> local_ref x -> Forall unique_names past ->
    exists ts' m, dated (past ++ [d]) ts' (world (fst (lasso_at d false x no_context (State w None)))) /\
      (forall n t, nth_error ts n = Some t -> nth_error ts' n = Some t) /\
      (forall k n, cache_get (x_factory (world (fst (lasso_at d false x no_context (State w None))))) k = Some n -> cache_get (x_factory w) k = Some n \/ n = length ts) /\
      m <= length past /\
      forall p n, refers_to x p n ->
        (exists d', nth_error (past ++ [d]) m = Some d' /\ snd (lasso_at d false x no_context (State w None)) = now d' x) /\
        match to_url p with
        | Ok url => (m = length past /\ exists e, snd (lasso_at d false x no_context (State w None)) = Raise e) \/
            exists k, nth_error ts' k = Some m /\ cache_get (x_factory (world (fst (lasso_at d false x no_context (State w None))))) (url, sheet_id n) = Some k
        | Raise _ => exists e, snd (lasso_at d false x no_context (State w None)) = Raise e
        end.
  Proof.
    intros past ts w d x C UD L UP.
    destruct (parse_and_merge loads (urldefrag bad_host) x (with_opts base_opts no_context)) as [l1|e] eqn:P.
    2: { destruct (lasso_step past ts w d x C UD L) as (ts' & A & B & D). exists ts', (length past). split; [exact A|]. split; [exact B|]. split; [exact D|]. split; [lia|].
         intros p n R. destruct (ref_parse x p n R) as (_ & l1 & P' & _). congruence. }
    destruct (l_call l1) as [c|] eqn:NC.
    { destruct (lasso_step past ts w d x C UD L) as (ts' & A & B & D). exists ts', (length past). split; [exact A|]. split; [exact B|]. split; [exact D|]. split; [lia|].
      intros p n R. destruct (ref_parse x p n R) as (_ & l1' & P' & NC' & _). congruence. }
    assert (exists p, l_url l1 = Some p /\ local_path p /\ l_sheet l1 = None) as (p & E1 & LP & E3).
    { unfold parse_and_merge in P. destruct (parse_xlref loads (urldefrag bad_host) x) as [q|e] eqn:E; [|destruct e; discriminate P].
      destruct (px_key q) eqn:K; [discriminate P|]. destruct (local_ref_url _ _ _ _ L E K) as (u & U & LU). exists u.
      injection P as <-. cbn [l_url l_sheet]. rewrite U. auto. }
    destruct (ref_step past ts w d x p (l_sheet_name l1) l1 C UD LP UP P NC E1 eq_refl E3) as (ts' & m & d' & A & B & D & F & G & H).
    exists ts', m. split; [exact A|]. split; [exact B|]. split; [exact D|].
    split. { assert (m < length (past ++ [d])) as X by (apply nth_error_Some; congruence). rewrite app_length in X. cbn [length] in X. lia. }
    intros p' n R. destruct (ref_parse x p' n R) as (_ & l1' & P' & _ & E1' & E2' & _). assert (l1' = l1) as -> by congruence.
    assert (p' = p) as -> by congruence. subst n. split; [exists d'; auto|exact H].
  Qed.

  Definition lower (w : xworld) (url : pystr) (sh : sid) (k : nat) : Prop := forall n, cache_get (x_factory w) (url, sh) = Some n -> k <= n.
  Definition related (x y : pystr) : Prop := exists p q n url, refers_to x p n /\ refers_to y q n /\ to_url p = Ok url /\ to_url q = Ok url.

  Lemma run : forall h past ts w, dated past ts w -> Forall unique_names past ->
    Forall (fun m : moment => unique_names (fst m) /\ local_ref (snd m)) h ->
    exists ms, length ms = length h /\ length (history h w) = length h /\
      (forall i d x m, nth_error h i = Some (d, x) -> nth_error ms i = Some m -> m <= length past + i /\
         forall p n, refers_to x p n -> exists d', nth_error (past ++ map fst h) m = Some d' /\ nth_error (history h w) i = Some (now d' x)) /\
      forward related h (history h w) ms /\
      (forall url sh k t, nth_error ts k = Some t -> lower w url sh k ->
         forall i d x m p n, nth_error h i = Some (d, x) -> refers_to x p n -> to_url p = Ok url -> sheet_id n = sh -> nth_error ms i = Some m -> t <= m).
  Proof.
    induction h as [|[d x] h IH]; intros past ts w C UP H.
    { exists []. split; [reflexivity|]. split; [reflexivity|]. split; [intros [|i] d x m E; discriminate E|].
      split; [intros [|i] j di dj xi xj mi mj v L E; discriminate E|]. intros url sh k t _ _ [|i] d x m p n E; discriminate E. }
    inversion H as [|y l (UD & LR) H']; subst. cbn [fst snd] in UD, LR.
    destruct (any_step past ts w d x C UD LR UP) as (ts' & m0 & A & B & D & E & F).
    cbn [Change_Model.history]. destruct (lasso_at d false x no_context (State w None)) as [s r] eqn:LS. cbn [fst snd] in A, D, F.
    assert (UP' : Forall unique_names (past ++ [d])) by (apply Forall_app; auto).
    destruct (IH (past ++ [d]) ts' (world s) A UP' H') as (ms & M1 & M2 & M3 & M4 & M5).
    assert (TS : forall n t, nth_error ts n = Some t -> t < length past) by apply C.
    exists (m0 :: ms). split; [cbn [length]; congruence|]. split; [cbn [length]; congruence|]. split; [|split].
    - intros [|i] d1 x1 m Q1 Q2; cbn [nth_error] in Q1, Q2.
      + injection Q1 as <- <-. injection Q2 as <-. split; [lia|]. intros p n R. destruct (F p n R) as ((d' & F1 & F2) & _). exists d'.
        split; [|cbn [nth_error]; congruence]. cbn [map fst].
        change (d :: map fst h) with ([d] ++ map fst h). rewrite app_assoc, nth_error_app1; [exact F1|]. apply nth_error_Some. congruence.
      + destruct (M3 i d1 x1 m Q1 Q2) as (N1 & N2). split; [rewrite app_length in N1; cbn [length] in N1; lia|].
        intros p n R. destruct (N2 p n R) as (d' & N3 & N4). exists d'. split; [|exact N4]. cbn [map fst].
        change (d :: map fst h) with ([d] ++ map fst h). rewrite app_assoc. exact N3.
    - intros [|i] [|j] di dj xi xj mi mj v L Q1 Q2 R Q3 Q4 Q5; cbn [nth_error] in Q1, Q2, Q3, Q4, Q5.
      + injection Q4 as <-. injection Q5 as <-. lia.
      + injection Q1 as <- <-. injection Q3 as ->. injection Q4 as <-. destruct R as (p & q & n & url & R1 & R2 & U1 & U2).
        destruct (F p n R1) as (_ & F2). rewrite U1 in F2. destruct F2 as [(_ & e & F2)|(k & F3 & F4)]; [discriminate F2|].
        refine (M5 url (sheet_id n) k m0 F3 _ j dj xj mj q n Q2 R2 U2 eq_refl Q5). intros n' G. assert (n' = k) by congruence. lia.
      + lia.
      + exact (M4 i j di dj xi xj mi mj v ltac:(lia) Q1 Q2 R Q3 Q4 Q5).
    - intros url sh k t T LW [|i] d1 x1 m p n Q1 R U <- Q2; cbn [nth_error] in Q1, Q2.
      + injection Q1 as <- <-. injection Q2 as <-. destruct (F p n R) as (_ & F2). rewrite U in F2.
        destruct F2 as [(-> & _)|(k' & F3 & F4)]; [specialize (TS k t T); lia|].
        assert (k <= k') as LK. { destruct (D _ _ F4) as [G| ->]; [exact (LW _ G)|]. assert (k < length ts) by (apply nth_error_Some; congruence). lia. }
        destruct A as (_ & _ & A & _). exact (A k k' t m0 LK (B _ _ T) F3).
      + refine (M5 url (sheet_id n) k t (B _ _ T) _ i d1 x1 m p n Q1 R U eq_refl Q2). intros n' G.
        destruct (D _ _ G) as [G'| ->]; [exact (LW _ G')|]. assert (k < length ts) by (apply nth_error_Some; congruence). lia.
  Qed.

  Lemma quoted_same : forall l a b, Forall2 (fun u n => quote n = Ok u) a l -> Forall2 (fun u n => quote n = Ok u) b l -> a = b.
  Proof.
    induction l as [|n l IH]; intros a b A B; inversion A; inversion B; subst; [reflexivity|]. f_equal; [congruence|apply IH; assumption].
  Qed.

  Lemma same_way_url : forall p q, local_path p -> local_path q -> same_way p q -> exists url, to_url p = Ok url /\ to_url q = Ok url.
  Proof.
    intros p q LP LQ (NP & NQ & W).
    destruct (local_result bad_host expandvars expanduser_tilde folders p false Hcwd Hcwd' LP) as (a & A1 & _ & _ & A2).
    destruct (local_result bad_host expandvars expanduser_tilde folders q false Hcwd Hcwd' LQ) as (b & B1 & _ & _ & B2).
    assert (b = a) as -> by exact (quoted_same _ _ _ B1 A1).
    assert (forall p, ~ of_folder p -> dirlike (last (split_on 47%N p) []) = false) as X.
    { intros p0 N. unfold dirlike, of_folder in *. destruct (str_eqb_spec (last (split_on 47%N p0) []) []) as [E|E]; [exfalso; apply N; rewrite E; left; reflexivity|].
      destruct (dots (last (split_on 47%N p0) [])) eqn:Y; [|reflexivity]. exfalso. apply N. unfold dots in Y.
      apply Bool.orb_true_iff in Y. destruct Y as [Y|Y]; apply str_eqb_eq in Y; rewrite Y; cbn; auto. }
    rewrite (X p NP) in A2. rewrite (X q NQ) in B2. rewrite <- W in B2. eauto.
  Qed.

  (** ** Files lassoed for the first time, or again *)

  Lemma url_apart : forall p q, book_path (word word_char) cwd p -> book_path (word word_char) cwd q -> abspath cwd p <> abspath cwd q -> to_url p <> to_url q.
  Proof.
    intros p q (L & _ & _ & O & H & LEN & _) (L' & _ & _ & O' & H' & LEN' & _) N E.
    destruct (C89_open lossy bad_host expandvars expanduser_tilde folders p false Hcwd Hcwd' L O H LEN) as (url & U & OB).
    destruct (C89_open lossy bad_host expandvars expanduser_tilde folders q false Hcwd Hcwd' L' O' H' LEN') as (url' & U' & OB').
    unfold Whole_Model.to_url in E. rewrite U, U' in E. injection E as ->. rewrite OB in OB'. injection OB' as X. contradiction.
  Qed.

  (** One lasso, with the cache before and after it *)
  Lemma ref_cached : forall past ts w d x p n, dated past ts w -> unique_names d -> refers_to x p n ->
    exists ts', dated (past ++ [d]) ts' (world (fst (lasso_at d false x no_context (State w None)))) /\
      let w' := world (fst (lasso_at d false x no_context (State w None))) in
      (forall k m, cache_get (x_factory w') k = Some m -> cache_get (x_factory w) k = Some m \/ to_url (fst k) = to_url p) /\
      (forall m o, nth_error (x_sheets w) m = Some o -> nth_error (x_sheets w') m = Some o) /\
      (forall wb sh m, cache_get (x_factory w) (wb, sh) = Some m -> to_url wb <> to_url p \/ (wb = p /\ sh = sheet_id n) ->
         cache_get (x_factory w') (wb, sh) = Some m) /\
      (cache_get (x_factory w) (p, sheet_id n) = None -> snd (lasso_at d false x no_context (State w None)) = now d x) /\
      (forall v, snd (lasso_at d false x no_context (State w None)) = Ok v -> exists m o, cache_get (x_factory w') (p, sheet_id n) = Some m /\
         nth_error (x_sheets w') m = Some o /\ (cache_get (x_factory w) (p, sheet_id n) = None -> opens_to d (Some p) (sheet_id n) None = Ok o)) /\
      (forall m o, cache_get (x_factory w) (p, sheet_id n) = Some m -> nth_error (x_sheets w) m = Some o ->
         forall d', unique_names d' -> opens_to d' (Some p) (sheet_id n) None = Ok o -> snd (lasso_at d false x no_context (State w None)) = now d' x).
  Proof.
    intros past ts w d x p n C UD R. destruct (ref_parse x p n R) as (L & l1 & P & NC & E1 & E2 & E3).
    destruct (fetch d (l_url l1) (l_sheet_name l1) (l_sheet l1) (at_stage (world (State w None : state xworld (nat * xl))) "parse" l1)) as [s2 r] eqn:F.
    destruct (throw_look d x (State w None) l1 P NC s2 r F) as (W & V).
    assert (W' : world (fst (lasso_at d false x no_context (State w None))) = world s2).
    { rewrite <- W. unfold Change_Model.lasso_at, lasso_files, lasso_values. destruct (throw d x no_context (State w None)) as [s [[l|j]|e]]; reflexivity. }
    rewrite W', V. rewrite E1, E2, E3 in F.
    destruct (fetch_step past ts w d p n _ s2 r C UD L F) as (ts' & C2 & _ & _ & G & S & K & Y). exists ts'. split; [exact C2|]. cbv zeta.
    split; [intros k m Q; destruct (G k m Q) as [Q'|(_ & Q')]; auto|]. split; [exact S|]. split; [exact K|].
    split; [|split].
    - intros N. rewrite (now_look d x p n l1 UD L P NC E1 E2 E3). destruct r as [[k o]|e].
      + destruct Y as (_ & _ & Y & _). rewrite (Y N). reflexivity.
      + destruct Y as (e' & Y). rewrite Y. reflexivity.
    - intros v Q. destruct r as [[k o]|e]; [|discriminate Q]. destruct Y as (Y1 & Y2 & Y3 & _). exists k, o. auto.
    - intros m o G1 G2 d' UD' O. rewrite (now_look d' x p n l1 UD' L P NC E1 E2 E3), O. destruct r as [[k o']|e].
      + destruct Y as (Y1 & Y2 & _). rewrite (K _ _ _ G1 (or_intror (conj eq_refl eq_refl))) in Y2. injection Y2 as ->. rewrite (S _ _ G2) in Y1. injection Y1 as ->. reflexivity.
      + exfalso. unfold Whole_Model.fetch in F. cbn [world inter at_stage] in F. cbn [Whole_Model.opens_to] in O.
        destruct (to_url p) as [url|e'] eqn:U; [|discriminate O]. cbn [rbind option_map fetch_sheet] in F. rewrite G1, Nat.eqb_refl in F. cbn [rbind] in F.
        rewrite G2 in F. discriminate F.
  Qed.

  Fixpoint world_of (h : list moment) (w : xworld) : xworld :=
    match h with [] => w | (d, x) :: rest => world_of rest (world (fst (lasso_at d false x no_context (State w None)))) end.

  Lemma history_app : forall h1 h2 w, history (h1 ++ h2) w = history h1 w ++ history h2 (world_of h1 w).
  Proof.
    induction h1 as [|[d x] h1 IH]; intros h2 w; [reflexivity|]. cbn [app Change_Model.history world_of].
    destruct (lasso_at d false x no_context (State w None)) as [s r] eqn:E. cbn [app fst]. rewrite IH. reflexivity.
  Qed.

  Lemma untouched : forall h past ts w p, dated past ts w ->
    (forall d x, In (d, x) h -> unique_names d /\ exists q n, refers_to x q n /\ to_url q <> to_url p) ->
    (forall wb sh m, cache_get (x_factory w) (wb, sh) = Some m -> to_url wb <> to_url p) ->
    exists past' ts', dated past' ts' (world_of h w) /\ forall wb sh m, cache_get (x_factory (world_of h w)) (wb, sh) = Some m -> to_url wb <> to_url p.
  Proof.
    induction h as [|[d x] h IH]; intros past ts w p C H N; [exists past, ts; auto|].
    destruct (H d x (or_introl eq_refl)) as (UD & q & n & R & Q).
    destruct (ref_cached past ts w d x q n C UD R) as (ts' & C' & G & _).
    apply (IH _ _ _ p C'); [intros d' x' I; apply H; right; exact I|].
    intros wb sh m Y. destruct (G _ _ Y) as [Y'|Y']; [exact (N _ _ _ Y')|]. cbn [fst] in Y'. congruence.
  Qed.

  Lemma kept : forall h past ts w p n k o, dated past ts w ->
    (forall d x, In (d, x) h -> unique_names d /\ exists q n', refers_to x q n' /\ (to_url q <> to_url p \/ (q = p /\ n' = n))) ->
    cache_get (x_factory w) (p, sheet_id n) = Some k -> nth_error (x_sheets w) k = Some o ->
    exists past' ts', dated past' ts' (world_of h w) /\ cache_get (x_factory (world_of h w)) (p, sheet_id n) = Some k /\ nth_error (x_sheets (world_of h w)) k = Some o.
  Proof.
    induction h as [|[d x] h IH]; intros past ts w p n k o C H N O; [exists past, ts; auto|].
    destruct (H d x (or_introl eq_refl)) as (UD & q & n' & R & Q).
    destruct (ref_cached past ts w d x q n' C UD R) as (ts' & C' & _ & S & K & _).
    apply (IH _ _ _ p n k o C'); [intros d' x' I; apply H; right; exact I| |apply S; exact O].
    apply K; [exact N|]. destruct Q as [Q|(-> & ->)]; [left; congruence|right; auto].
  Qed.

  Lemma new_untouched : forall p wb sh m, cache_get (x_factory new_world) (wb, sh) = Some m -> to_url wb <> to_url p.
  Proof. intros p wb sh m E. discriminate E. Qed.

  Lemma last_result : forall h d x w, nth_error (history (h ++ [(d, x)]) w) (length h) = Some (snd (lasso_at d false x no_context (State (world_of h w) None))).
  Proof.
    intros h d x w. rewrite history_app. assert (length (history h w) = length h) as L.
    { revert w. induction h as [|[d' x'] h IH]; intros w; [reflexivity|]. cbn [Change_Model.history]. destruct (lasso_at _ _ _ _ _) as [s r]. cbn [length]. f_equal. apply IH. }
    rewrite nth_error_app2, L, Nat.sub_diag by lia. cbn [Change_Model.history]. destruct (lasso_at d false x no_context (State (world_of h w) None)); reflexivity.
  Qed.

  Lemma first_time : forall h d x p n, unique_names d -> refers_to x p n ->
    (forall d' x', In (d', x') h -> unique_names d' /\ exists q n', refers_to x' q n' /\ to_url q <> to_url p) ->
    nth_error (history (h ++ [(d, x)]) new_world) (length h) = Some (now d x).
  Proof.
    intros h d x p n UD R H. rewrite last_result. f_equal.
    destruct (untouched h [] [] new_world p (dated_new []) H (new_untouched p)) as (past & ts & C & N).
    destruct (ref_cached past ts _ d x p n C UD R) as (_ & _ & _ & _ & _ & X & _). apply X.
    destruct (cache_get _ (p, sheet_id n)) as [m|] eqn:G; [|reflexivity]. exfalso. exact (N _ _ _ G eq_refl).
  Qed.

  Lemma again : forall h1 h2 d0 x0 d x p n v, unique_names d0 -> unique_names d -> refers_to x0 p n -> refers_to x p n ->
    (forall d' x', In (d', x') h1 -> unique_names d' /\ exists q n', refers_to x' q n' /\ to_url q <> to_url p) ->
    (forall d' x', In (d', x') h2 -> unique_names d' /\ exists q n', refers_to x' q n' /\ (to_url q <> to_url p \/ (q = p /\ n' = n))) ->
    now d0 x0 = Ok v ->
    nth_error (history ((h1 ++ (d0, x0) :: h2) ++ [(d, x)]) new_world) (length (h1 ++ (d0, x0) :: h2)) = Some (now d0 x).
  Proof.
    intros h1 h2 d0 x0 d x p n v UD0 UD R0 R H1 H2 V. rewrite last_result. f_equal.
    destruct (untouched h1 [] [] new_world p (dated_new []) H1 (new_untouched p)) as (past & ts & C & N).
    assert (WA : forall a b w, world_of (a ++ b) w = world_of b (world_of a w)).
    { induction a as [|[d1 x1] a IH]; intros b w; [reflexivity|]. cbn [app]. apply IH. }
    rewrite WA. set (w := world_of h1 new_world) in *.
    assert (CN : cache_get (x_factory w) (p, sheet_id n) = None).
    { destruct (cache_get _ (p, sheet_id n)) as [m|] eqn:G; [|reflexivity]. exfalso. exact (N _ _ _ G eq_refl). }
    destruct (ref_cached past ts w d0 x0 p n C UD0 R0) as (ts1 & C1 & _ & _ & _ & X & Y & _). rewrite (X CN) in Y.
    destruct (Y v V) as (k & o & G1 & G2 & G3). specialize (G3 CN).
    destruct (kept h2 _ _ _ p n k o C1 H2 G1 G2) as (past' & ts' & C2 & K1 & K2).
    destruct (ref_cached past' ts' _ d x p n C2 UD R) as (_ & _ & _ & _ & _ & _ & _ & Z). exact (Z k o K1 K2 d0 UD0 G3).
  Qed.
End Change.
