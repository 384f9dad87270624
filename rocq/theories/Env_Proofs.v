From Coq Require Import String.
From Verif Require Import PyBase PyBase_Proofs OsPath_Model Utils_Model.
From Verif Require Bump_Model Bump_Spec Bump_Proofs.
From Verif Require Import Env_Model Env_Spec.

(** ** Variables *)

Lemma is_word_iff : forall c, is_word c = true <-> word c.
Proof.
  intros c. unfold is_word, word, is_alpha, is_upper, is_lower, is_digit.
  rewrite !orb_true_iff, !andb_true_iff, !N.leb_le, N.eqb_eq. intuition lia.
Qed.

Lemma span_word_spec : forall s a b, span_word s = (a, b) ->
  s = a ++ b /\ Forall word a /\ ~ starts_word b.
Proof.
  induction s as [|c s IH]; intros a b E; cbn [span_word] in E.
  - injection E as <- <-. repeat split; auto. intros (c & r & H & _). discriminate.
  - destruct (is_word c) eqn:W.
    + destruct (span_word s) as [a' b'] eqn:Es. injection E as <- <-.
      destruct (IH a' b' eq_refl) as (-> & H1 & H2). repeat split; auto.
      constructor; [apply is_word_iff; exact W|exact H1].
    + injection E as <- <-. repeat split; auto.
      intros (d & r & H & Wd). injection H as <- <-. apply is_word_iff in Wd. congruence.
Qed.

Lemma span_word_app : forall name s, Forall word name -> ~ starts_word s -> span_word (name ++ s) = (name, s).
Proof.
  induction name as [|c name IH]; intros s H1 H2.
  - cbn [app]. destruct s as [|d s]; [reflexivity|]. cbn [span_word].
    destruct (is_word d) eqn:W; [|reflexivity]. exfalso. apply H2. exists d, s.
    split; [reflexivity|apply is_word_iff; exact W].
  - inversion H1 as [|? ? Wc Wn]; subst. cbn [app span_word].
    apply is_word_iff in Wc. rewrite Wc, IH by assumption. reflexivity.
Qed.

Lemma to_brace_spec : forall s name, to_brace s = Some name <->
  ~ In 125%N name /\ exists r, s = name ++ 125%N :: r.
Proof.
  induction s as [|c s IH]; intros name; cbn [to_brace].
  - split; [discriminate|]. intros (_ & r & E). destruct name; discriminate.
  - destruct (c =? 125)%N eqn:C.
    + apply N.eqb_eq in C. subst c. split.
      * intros E. injection E as <-. split; [intros []|]. exists s. reflexivity.
      * intros (H & r & E). destruct name as [|d name]; [reflexivity|].
        injection E as <- _. exfalso. apply H. left. reflexivity.
    + apply N.eqb_neq in C. split.
      * destruct (to_brace s) as [n|] eqn:E; [|discriminate]. intros X. injection X as <-.
        destruct (proj1 (IH n) eq_refl) as (H & r & ->). split.
        -- intros [->|I]; [congruence|exact (H I)].
        -- exists r. reflexivity.
      * intros (H & r & E). destruct name as [|d name]; [injection E as -> _; congruence|].
        injection E as <- E. replace (to_brace s) with (Some name); [reflexivity|].
        symmetry. apply IH. split; [intros I; apply H; right; exact I|]. exists r. exact E.
Qed.

Section Vars.
  Variable env : pystr -> option pystr.

  Lemma expand_skip : forall a s, expandvars_from env (a ++ s) (length a) = expandvars_from env s 0.
  Proof. induction a as [|c a IH]; intros s; [reflexivity|exact (IH s)]. Qed.

  Lemma expand_nth : forall s n, expandvars_from env s n = expandvars_from env (skipn n s) 0.
  Proof.
    induction s as [|c s IH]; intros [|n]; try reflexivity. cbn [expandvars_from skipn]. apply IH.
  Qed.

  Lemma expand_dollar : forall s, expandvars_from env (36%N :: s) 0 =
    match var_here s with
    | Some (name, n) =>
        match env name with
        | Some v => v ++ expandvars_from env s n
        | None => 36%N :: firstn n s ++ expandvars_from env s n
        end
    | None => 36%N :: expandvars_from env s 0
    end.
  Proof. reflexivity. Qed.

  Lemma expand_complete : forall s t, expands env s t -> expandvars env s = t.
  Proof.
    unfold expandvars. intros s t H. induction H as
      [|c s t Hc _ IH|name s v t Hn Hw Hs Hv _ IH|name s t Hn Hw Hs Hv _ IH|name s v t Hb Hv _ IH
      |name s t Hb Hv _ IH|s t Hs Hb _ IH].
    - reflexivity.
    - cbn [expandvars_from]. apply N.eqb_neq in Hc. rewrite Hc, IH. reflexivity.
    - rewrite expand_dollar. unfold var_here. rewrite span_word_app by assumption.
      destruct name as [|c name]; [congruence|]. rewrite Hv, expand_skip, IH. reflexivity.
    - rewrite expand_dollar. unfold var_here. rewrite span_word_app by assumption.
      destruct name as [|c name]; [congruence|]. rewrite Hv, expand_skip, IH.
      rewrite firstn_app, firstn_all, Nat.sub_diag. cbn [firstn]. rewrite app_nil_r. reflexivity.
    - rewrite expand_dollar. unfold var_here. cbn [span_word].
      change (is_word 123) with false. cbv iota beta. rewrite N.eqb_refl.
      replace (to_brace (name ++ 125%N :: s)) with (Some name)
        by (symmetry; apply to_brace_spec; eauto).
      rewrite Hv. replace (length name + 2) with (length (123%N :: name ++ [125%N]))
        by (cbn [length]; rewrite app_length; simpl; lia).
      replace (123%N :: name ++ 125%N :: s) with ((123%N :: name ++ [125%N]) ++ s)
        by (cbn [app]; rewrite <- app_assoc; reflexivity).
      rewrite expand_skip, IH. reflexivity.
    - rewrite expand_dollar. unfold var_here. cbn [span_word].
      change (is_word 123) with false. cbv iota beta. rewrite N.eqb_refl.
      replace (to_brace (name ++ 125%N :: s)) with (Some name)
        by (symmetry; apply to_brace_spec; eauto).
      rewrite Hv. replace (length name + 2) with (length (123%N :: name ++ [125%N]))
        by (cbn [length]; rewrite app_length; simpl; lia).
      replace (123%N :: name ++ 125%N :: s) with ((123%N :: name ++ [125%N]) ++ s)
        by (cbn [app]; rewrite <- app_assoc; reflexivity).
      rewrite expand_skip, IH.
      rewrite firstn_app, firstn_all, Nat.sub_diag. cbn [firstn]. rewrite app_nil_r.
      cbn [app]. rewrite <- app_assoc. reflexivity.
    - rewrite expand_dollar.
      assert (V : var_here s = None).
      { unfold var_here. destruct (span_word s) as [a b] eqn:E.
        apply span_word_spec in E. destruct E as (-> & W & _).
        destruct a as [|c a].
        - destruct b as [|c r]; [reflexivity|]. destruct (c =? 123)%N eqn:C; [|reflexivity].
          apply N.eqb_eq in C. subst c. destruct (to_brace r) as [name|] eqn:B; [|reflexivity].
          apply to_brace_spec in B. destruct B as (_ & r' & ->). exfalso. apply Hb. exists name, r'. reflexivity.
        - exfalso. apply Hs. inversion W; subst. exists c, (a ++ b). split; [reflexivity|assumption]. }
      rewrite V, IH. reflexivity.
  Qed.

  Lemma expand_sound : forall s, expands env s (expandvars env s).
  Proof.
    unfold expandvars. intros s. remember (length s) as n eqn:En. assert (L : length s <= n) by lia.
    clear En. revert s L. induction n as [|n IH]; intros s L.
    - destruct s; [constructor|simpl in L; lia].
    - destruct s as [|c s]; [constructor|]. simpl in L.
      destruct (c =? 36)%N eqn:C.
      + apply N.eqb_eq in C. subst c. rewrite expand_dollar. unfold var_here.
        destruct (span_word s) as [a b] eqn:E. pose proof (span_word_spec s a b E) as (-> & W & Nb).
        rewrite app_length in L.
        destruct a as [|x a].
        * cbn [app]. destruct b as [|d r].
          { apply ex_dollar; [exact Nb| |apply IH; simpl in *; lia].
            intros (name & r & X). discriminate. }
          destruct (d =? 123)%N eqn:D.
          -- apply N.eqb_eq in D. subst d. destruct (to_brace r) as [name|] eqn:B.
             ++ pose proof (proj1 (to_brace_spec r name) B) as (Hb & r' & ->).
                assert (Len : length r' <= n).
                { cbn [app length] in L. rewrite app_length in L. simpl in L. lia. }
                replace (length name + 2) with (length (123%N :: name ++ [125%N]))
                  by (cbn [length]; rewrite app_length; simpl; lia).
                assert (Eq : 123%N :: name ++ 125%N :: r' = (123%N :: name ++ [125%N]) ++ r')
                  by (cbn [app]; rewrite <- app_assoc; reflexivity).
                destruct (env name) as [v|] eqn:Ev.
                ** rewrite Eq, expand_skip, <- Eq. apply ex_brace; auto.
                ** rewrite Eq, expand_skip, firstn_app, firstn_all, Nat.sub_diag. cbn [firstn].
                   rewrite app_nil_r. rewrite <- Eq. cbn [app]. rewrite <- app_assoc.
                   apply ex_brace_unset; auto.
             ++ apply ex_dollar; [exact Nb| |apply IH; simpl in *; lia].
                intros (name & r' & X). injection X as ->.
                clear -B. revert B. induction name as [|y name IHn]; cbn [app to_brace].
                ** rewrite N.eqb_refl. discriminate.
                ** destruct (y =? 125)%N; [discriminate|].
                   destruct (to_brace (name ++ 125%N :: r')); [discriminate|]. intros _. apply IHn. reflexivity.
          -- apply ex_dollar; [exact Nb| |apply IH; simpl in *; lia].
             intros (name & r' & X). injection X as -> _. discriminate.
        * rewrite expand_skip. destruct (env (x :: a)) as [v|] eqn:Ev.
          -- apply (ex_name env (x :: a) b v); auto; [discriminate|]. apply IH. simpl in L. lia.
          -- rewrite firstn_app, firstn_all, Nat.sub_diag. cbn [firstn]. rewrite app_nil_r.
             apply (ex_name_unset env (x :: a) b); auto; [discriminate|]. apply IH. simpl in L. lia.
      + cbn [expandvars_from]. rewrite C. apply ex_char; [apply N.eqb_neq; exact C|]. apply IH. lia.
  Qed.

  Lemma expand_plain : forall p s, ~ In 36%N p -> expandvars_from env (p ++ s) 0 = p ++ expandvars_from env s 0.
  Proof.
    induction p as [|c p IH]; intros s H; [reflexivity|]. cbn [app expandvars_from].
    destruct (c =? 36)%N eqn:C; [apply N.eqb_eq in C; subst; exfalso; apply H; left; reflexivity|].
    rewrite IH; [reflexivity|]. intros I. apply H. right. exact I.
  Qed.
End Vars.

(** ** [convpath] *)

Import Bump_Model.

Lemma replace_skip_plain : forall o old new p s, ~ In o p ->
  replace_from (o :: old) new (p ++ s) 0 = p ++ replace_from (o :: old) new s 0.
Proof.
  induction p as [|c p IH]; intros s H; [reflexivity|]. cbn [app replace_from].
  destruct (starts_with (o :: old) (c :: p ++ s)) eqn:E.
  - apply Bump_Proofs.starts_with_app in E. destruct E as [r E]. injection E as -> _.
    exfalso. apply H. left. reflexivity.
  - rewrite IH; [reflexivity|]. intros I. apply H. right. exact I.
Qed.

Lemma replace_skip : forall old new a s, replace_from old new (a ++ s) (length a) = replace_from old new s 0.
Proof. induction a as [|c a IH]; intros s; [reflexivity|exact (IH s)]. Qed.

Lemma replace_hit : forall old new s, old <> [] ->
  replace_from old new (old ++ s) 0 = new ++ replace_from old new s 0.
Proof.
  intros old new s H. destruct old as [|c old]; [congruence|]. cbn [app replace_from].
  replace (starts_with (c :: old) (c :: old ++ s)) with true
    by (symmetry; apply Bump_Proofs.starts_with_app; exists s; reflexivity).
  cbn [length]. rewrite Nat.sub_succ, Nat.sub_0_r, replace_skip. reflexivity.
Qed.

Lemma absent : forall old new s, old <> [] -> ~ occurs old s -> replace old new s = s.
Proof. intros old new s H1 H2. apply Bump_Proofs.replace_absent; [exact H1|exact H2]. Qed.

Definition finish (cwd : pystr) (abs : bool) (p : pystr) : pystr :=
  if abs then abspath cwd p else normpath p.

Section Conv.
  Variable env : pystr -> option pystr.
  Variable own : option pystr.
  Variable home_of : pystr -> option pystr.
  Variable cwd : pystr.

  Lemma conv_expanded : forall p q t (abs user : bool),
    q = (if user then expanduser env own home_of p else p) ->
    ~ occurs (lit "$\") q -> expands env q t -> ~ occurs unc_mark t ->
    convpath env own home_of cwd p abs user true = finish cwd abs t.
  Proof.
    intros p q t abs user Eq H1 H2 H3. unfold convpath. rewrite <- Eq.
    rewrite (absent (lit "$\")) by (try discriminate; exact H1).
    rewrite (expand_complete env q t H2).
    rewrite (absent unc_mark) by (try discriminate; exact H3). reflexivity.
  Qed.

  Lemma conv_unc : forall p q t (abs user : bool),
    (if user then expanduser env own home_of (p ++ lit "$\" ++ q) else p ++ lit "$\" ++ q)
      = p ++ lit "$\" ++ q ->
    ~ In 36%N p -> ~ In 95%N p -> ~ occurs (lit "$\") q -> expands env q t -> ~ occurs unc_mark t ->
    convpath env own home_of cwd (p ++ lit "$\" ++ q) abs user true = finish cwd abs (p ++ lit "$\" ++ t).
  Proof.
    intros p q t abs user Eq Hd Hu H1 H2 H3. unfold convpath. rewrite Eq.
    assert (E1 : replace (lit "$\") unc_mark (p ++ lit "$\" ++ q) = p ++ unc_mark ++ q).
    { unfold replace. etransitivity; [exact (replace_skip_plain 36%N [92%N] unc_mark p (lit "$\" ++ q) Hd)|].
      f_equal. change (36%N :: [92%N]) with (lit "$\"). rewrite replace_hit by discriminate.
      fold (replace (lit "$\") unc_mark q). rewrite (absent (lit "$\")) by (try discriminate; exact H1).
      reflexivity. }
    assert (E2 : expandvars env (p ++ unc_mark ++ q) = p ++ unc_mark ++ t).
    { unfold expandvars. rewrite expand_plain by exact Hd.
      rewrite expand_plain by (vm_compute; intuition discriminate).
      fold (expandvars env q). rewrite (expand_complete env q t H2). reflexivity. }
    assert (E3 : replace unc_mark (lit "$\") (p ++ unc_mark ++ t) = p ++ lit "$\" ++ t).
    { unfold replace. etransitivity; [exact (replace_skip_plain 95%N (tl unc_mark) (lit "$\") p (unc_mark ++ t) Hu)|].
      f_equal. change (95%N :: tl unc_mark) with unc_mark. rewrite replace_hit by discriminate.
      fold (replace unc_mark (lit "$\") t). rewrite (absent unc_mark) by (try discriminate; exact H3).
      reflexivity. }
    rewrite E1, E2, E3.
    reflexivity.
  Qed.

  Lemma span_name_spec : forall s a b, span_name s = (a, b) ->
    s = a ++ b /\ ~ In 47%N a /\ (b = [] \/ exists r, b = 47%N :: r).
  Proof.
    induction s as [|c s IH]; intros a b E; cbn [span_name] in E.
    - injection E as <- <-. repeat split; auto.
    - destruct (c =? 47)%N eqn:C.
      + apply N.eqb_eq in C. subst c. injection E as <- <-. repeat split; [intros []|].
        right. eauto.
      + destruct (span_name s) as [a' b'] eqn:Es. injection E as <- <-.
        destruct (IH a' b' eq_refl) as (-> & H1 & H2). repeat split; [|exact H2].
        intros [->|I]; [discriminate|exact (H1 I)].
  Qed.
  Lemma span_name_app : forall a b, ~ In 47%N a -> b = [] \/ (exists r, b = 47%N :: r) ->
    span_name (a ++ b) = (a, b).
  Proof.
    induction a as [|c a IH]; intros b H1 H2.
    - destruct H2 as [->|[r ->]]; reflexivity.
    - cbn [app span_name]. destruct (c =? 47)%N eqn:C;
        [apply N.eqb_eq in C; subst; exfalso; apply H1; left; reflexivity|].
      rewrite IH; [reflexivity| |exact H2]. intros I. apply H1. right. exact I.
  Qed.

  Lemma no_tilde : forall p, (forall r, p <> 126%N :: r) -> expanduser env own home_of p = p.
  Proof.
    intros [|c p] H; [reflexivity|]. unfold expanduser.
    destruct (c =? chr "~")%N eqn:C; [|reflexivity]. apply N.eqb_eq in C.
    exfalso. apply (H p). rewrite C. reflexivity.
  Qed.
End Conv.

Lemma rstrip_slash_spec : forall h, exists k, h = rstrip_slash h ++ repeat 47%N k.
Proof.
  intros h. unfold rstrip_slash.
  assert (D : forall s, exists k, s = repeat 47%N k ++ drop_while (N.eqb 47) s).
  { induction s as [|c s (k & IH)]; [exists 0; reflexivity|]. cbn [drop_while].
    destruct (47 =? c)%N eqn:C.
    - apply N.eqb_eq in C. subst c. exists (S k). cbn [repeat app]. congruence.
    - exists 0. reflexivity. }
  destruct (D (rev h)) as [k E]. exists k.
  set (d := drop_while (N.eqb 47) (rev h)) in *. clearbody d. clear D.
  rewrite <- (rev_involutive h). rewrite E, rev_app_distr. f_equal. clear.
  clear. induction k as [|k IH]; [reflexivity|]. cbn [repeat rev]. rewrite IH.
  clear. induction k as [|k IH]; [reflexivity|]. cbn [repeat app]. rewrite IH. reflexivity.
Qed.

(** ** Programs *)

Lemma unquote_spec : forall s, exists a b,
  s = repeat 34%N a ++ unquote_folder s ++ repeat 34%N b /\
  (unquote_folder s = [] \/
   ((forall r, unquote_folder s <> 34%N :: r) /\ (forall r, unquote_folder s <> r ++ [34%N]))).
Proof.
  intros s. unfold unquote_folder.
  assert (D : forall s, exists k, s = repeat 34%N k ++ drop_while (N.eqb 34) s /\
     forall r, drop_while (N.eqb 34) s <> 34%N :: r).
  { clear. induction s as [|c s (k & IH & IH2)]; [exists 0; split; [reflexivity|discriminate]|].
    cbn [drop_while]. destruct (34 =? c)%N eqn:C.
    - apply N.eqb_eq in C. subst c. exists (S k). cbn [repeat app]. split; [congruence|exact IH2].
    - exists 0. split; [reflexivity|]. intros r E. injection E as -> _. discriminate. }
  destruct (D s) as (a & E1 & F1). set (u := drop_while (N.eqb 34) s) in *.
  destruct (D (rev u)) as (b & E2 & F2). set (w := drop_while (N.eqb 34) (rev u)) in *.
  assert (Eu : u = rev w ++ repeat 34%N b).
  { rewrite <- (rev_involutive u), E2, rev_app_distr. f_equal.
    clear. induction b as [|k IH]; [reflexivity|]. cbn [repeat rev]. rewrite IH.
    clear. induction k as [|k IH]; [reflexivity|]. cbn [repeat app]. rewrite IH. reflexivity. }
  exists a, b. split; [rewrite <- Eu; exact E1|].
  clearbody w. clear E2. destruct w as [|x w0]; [left; reflexivity|]. right. split.
  - intros r E. rewrite E in Eu. exact (F1 _ Eu).
  - intros r E. apply (f_equal (@rev N)) in E. rewrite rev_involutive, rev_app_distr in E.
    cbn [rev app] in E. exact (F2 _ E).
Qed.

Lemma unquote_app : forall a b f, f <> [] -> (forall r, f <> 34%N :: r) -> (forall r, f <> r ++ [34%N]) ->
  unquote_folder (repeat 34%N a ++ f ++ repeat 34%N b) = f.
Proof.
  intros a b f Hf H1 H2. unfold unquote_folder.
  assert (D : forall k s, (forall r, s <> 34%N :: r) -> drop_while (N.eqb 34) (repeat 34%N k ++ s) = s).
  { clear. induction k as [|k IH]; intros s H.
    - cbn [repeat app]. destruct s as [|c s]; [reflexivity|]. cbn [drop_while].
      destruct (34 =? c)%N eqn:C; [|reflexivity]. apply N.eqb_eq in C. subst. exfalso. exact (H s eq_refl).
    - cbn [repeat app drop_while]. apply IH. exact H. }
  rewrite D.
  2:{ intros r E. destruct f as [|c f]; [congruence|]. injection E as -> _. exact (H1 f eq_refl). }
  rewrite rev_app_distr.
  assert (R : rev (repeat 34%N b) = repeat 34%N b).
  { clear. induction b as [|k IH]; [reflexivity|]. cbn [repeat rev]. rewrite IH.
    clear. induction k as [|k IH]; [reflexivity|]. cbn [repeat app]. rewrite IH. reflexivity. }
  rewrite R, D.
  - apply rev_involutive.
  - intros r E. apply (f_equal (@rev N)) in E. rewrite rev_involutive in E. cbn [rev] in E. exact (H2 _ E).
Qed.

Lemma listed_iff : forall sep path folder,
  listed sep path folder <-> folder <> [] /\ exists piece, In piece (split_on sep path) /\ unquote_folder piece = folder.
Proof.
  intros sep path folder. split.
  - intros (Hf & piece & I & a & b & E & H1 & H2). split; [exact Hf|]. exists piece. split; [exact I|].
    subst piece. apply unquote_app; assumption.
  - intros (Hf & piece & I & E). split; [exact Hf|].
    destruct (unquote_spec piece) as (a & b & Ep & H). rewrite E in Ep, H.
    destruct H as [H|[H1 H2]]; [congruence|]. exists piece. split; [exact I|]. exists a, b. auto.
Qed.

Section Programs.
  Variable nt : bool.
  Variable pathsep : pychar.
  Variable joined : pystr -> pystr -> pystr.
  Variable runnable : pystr -> bool.

  (** The candidates in a folder, in order. *)
  Definition candidates (program folder : pystr) : list pystr :=
    match unquote_folder folder with
    | [] => []
    | c :: r => joined (c :: r) program :: map (app (joined (c :: r) program)) winprog_exts
    end.

  Lemma where_eq : forall path program c p, path = c :: p -> forall var,
    py_where nt pathsep joined runnable var program (Some path) =
    Ok (filter (is_exec nt runnable) (flat_map (candidates program) (split_on pathsep path))).
  Proof.
    intros path program c p -> var. unfold py_where. cbn [rbind]. f_equal.
    induction (split_on pathsep (c :: p)) as [|f fs IH]; [reflexivity|].
    cbn [flat_map]. rewrite filter_app, IH. f_equal.
    unfold candidates. destruct (unquote_folder f); reflexivity.
  Qed.

  Lemma candidates_iff : forall path program f,
    In f (flat_map (candidates program) (split_on pathsep path)) <->
    exists folder e, listed pathsep path folder /\ In e [""; ".bat"; "com"; ".exe"]%string /\
      f = joined folder program ++ lit e.
  Proof.
    intros path program f. rewrite in_flat_map. split.
    - intros (piece & I & J). unfold candidates in J.
      destruct (unquote_folder piece) as [|c r] eqn:E; [destruct J|].
      assert (L : listed pathsep path (c :: r)) by (apply listed_iff; split; [discriminate|eauto]).
      destruct J as [<-|J].
      + exists (c :: r), ""%string. split; [exact L|]. split; [left; reflexivity|].
        rewrite app_nil_r. reflexivity.
      + apply in_map_iff in J. destruct J as (e & <- & J). unfold winprog_exts in J.
        apply in_map_iff in J. destruct J as (e' & <- & J).
        exists (c :: r), e'. split; [exact L|]. split; [right; exact J|reflexivity].
    - intros (folder & e & L & I & ->). apply listed_iff in L. destruct L as (Hf & piece & J & E).
      exists piece. split; [exact J|]. unfold candidates. rewrite E.
      destruct folder as [|c r]; [congruence|].
      destruct I as [<-|I].
      + left. rewrite app_nil_r. reflexivity.
      + right. apply in_map. apply (in_map lit) in I. exact I.
  Qed.
End Programs.

(** ** Folders *)

Lemma path_eqb_eq : forall a b, path_eqb a b = true <-> a = b.
Proof.
  intros a b. unfold path_eqb. destruct (list_eq_dec (list_eq_dec N.eq_dec) a b); split; congruence.
Qed.

Definition is_folder (t : tree) (p : list pystr) : Prop := exists m, at_path t p = Some (Folder m).

Lemma at_set_eq : forall t p n, p <> [] -> at_path (dset path_eqb p n t) p = Some n.
Proof.
  intros t [|x p] n H; [congruence|]. unfold at_path. apply dget_dset_eq. exact path_eqb_eq.
Qed.
Lemma at_set_neq : forall t p n q, p <> q -> at_path (dset path_eqb p n t) q = at_path t q.
Proof.
  intros t p n [|x q] H; [reflexivity|]. unfold at_path. apply dget_dset_neq; [exact path_eqb_eq|congruence].
Qed.

Section Folders.
  Variable umask : N.
  Variable writable : list pystr -> bool.

  Lemma mkdir_ok : forall p mode t t', mkdir umask writable p mode t = (t', None) ->
    at_path t p = None /\ at_path t' p = Some (Folder (N.ldiff mode umask)) /\
    is_folder t (tl p) /\
    (forall q, q <> p -> at_path t' q = at_path t q).
  Proof.
    intros [|x p] mode t t' E; cbn [mkdir] in E; [discriminate|].
    destruct (at_path t p) as [[m|]|] eqn:Ep; try discriminate.
    unfold exists_at in E. destruct (at_path t (x :: p)) eqn:Ex; [discriminate|].
    destruct (writable p); [|discriminate]. injection E as <-. repeat split.
    - apply at_set_eq. discriminate.
    - exists m. exact Ep.
    - intros q Hq. apply at_set_neq. congruence.
  Qed.
  Lemma mkdir_err : forall p mode t t' e, mkdir umask writable p mode t = (t', Some e) ->
    t' = t /\ (e = EEXIST -> at_path t p <> None).
  Proof.
    intros [|x p] mode t t' e E; cbn [mkdir] in E.
    - injection E as <- <-. split; [reflexivity|]. discriminate.
    - destruct (at_path t p) as [[m|]|] eqn:Ep; try (injection E as <- <-; split; [reflexivity|discriminate]).
      unfold exists_at in E. destruct (at_path t (x :: p)) eqn:Ex.
      + injection E as <- <-. split; [reflexivity|]. congruence.
      + destruct (writable p); [discriminate|]. injection E as <- <-. split; [reflexivity|discriminate].
  Qed.

  (** Only missing things on the way are created, as folders. *)
  Definition grown (p : list pystr) (t t' : tree) : Prop :=
    forall q, at_path t' q = at_path t q \/
      (on_the_way q p /\ at_path t q = None /\ is_folder t' q).

  Lemma grown_refl : forall p t, grown p t t.
  Proof. intros p t q. left. reflexivity. Qed.

  Lemma mkdir_grown : forall p mode t t' r, mkdir umask writable p mode t = (t', r) -> grown p t t'.
  Proof.
    intros p mode t t' [e|] E.
    - apply mkdir_err in E. destruct E as [-> _]. apply grown_refl.
    - apply mkdir_ok in E. destruct E as (H1 & H2 & _ & H3). intros q.
      destruct (list_eq_dec (list_eq_dec N.eq_dec) q p) as [->|Hq].
      + right. split; [exists []; reflexivity|]. split; [exact H1|]. eexists. exact H2.
      + left. apply H3. exact Hq.
  Qed.

  Lemma grown_trans : forall x p t t1 t2, grown p t t1 -> grown (x :: p) t1 t2 -> grown (x :: p) t t2.
  Proof.
    intros x p t t1 t2 H1 H2 q. destruct (H2 q) as [E2|(W2 & N2 & F2)].
    - destruct (H1 q) as [E1|(W1 & N1 & (m & F1))].
      + left. congruence.
      + right. split; [destruct W1 as [b ->]; exists (x :: b); reflexivity|]. split; [exact N1|].
        exists m. congruence.
    - destruct (H1 q) as [E1|(W1 & N1 & (m & F1))].
      + right. split; [exact W2|]. split; [congruence|exact F2].
      + congruence.
  Qed.

  Lemma makedirs_spec : forall p mode t t' r, makedirs umask writable p mode t = (t', r) ->
    grown p t t' /\
    (r = None -> at_path t p = None /\ at_path t' p = Some (Folder (N.ldiff mode umask))) /\
    (r = Some EEXIST -> at_path t' p <> None).
  Proof.
    induction p as [|x p IH]; intros mode t t' r E.
    - cbn [makedirs] in E. injection E as <- <-. split; [apply grown_refl|]. split; [discriminate|].
      intros _. discriminate.
    - cbn [makedirs] in E. destruct (exists_at t p) eqn:X.
      + split; [exact (mkdir_grown _ _ _ _ _ E)|]. split.
        * intros ->. apply mkdir_ok in E. destruct E as (H1 & H2 & _). auto.
        * intros ->. apply mkdir_err in E. destruct E as [-> H]. auto.
      + destruct (makedirs umask writable p 511 t) as [t1 r1] eqn:E1.
        destruct (IH 511%N t t1 r1 E1) as (G1 & _ & _).
        assert (K : mkdir umask writable (x :: p) mode t1 = (t', r) ->
          grown (x :: p) t t' /\
          (r = None -> at_path t (x :: p) = None /\ at_path t' (x :: p) = Some (Folder (N.ldiff mode umask))) /\
          (r = Some EEXIST -> at_path t' (x :: p) <> None)).
        { intros E2. split; [exact (grown_trans _ _ _ _ _ G1 (mkdir_grown _ _ _ _ _ E2))|]. split.
          - intros ->. apply mkdir_ok in E2. destruct E2 as (H1 & H2 & _). split; [|exact H2].
            destruct (G1 (x :: p)) as [Eq|((b & W) & _)]; [congruence|].
            exfalso. apply (f_equal (@length pystr)) in W. rewrite app_length in W. simpl in W. lia.
          - intros ->. apply mkdir_err in E2. destruct E2 as [-> H]. auto. }
        destruct r1 as [[]|]; try (apply K; exact E);
        injection E as <- <-; (split; [|split; discriminate]);
        intros q; destruct (G1 q) as [Eq|((b & W) & H)]; auto;
        right; (split; [exists (x :: b); rewrite W; reflexivity|exact H]).
  Qed.
End Folders.

(** ** Texts *)

Lemma format_width : forall indent k v, 0 < indent ->
  exists spaces, format_item indent k v = k ++ repeat 32%N spaces ++ lit " = " ++ v /\
  exists tabs, length k + spaces = tabs * indent /\ 0 < tabs /\
    forall n, 0 < n -> length k <= n * indent -> tabs <= n.
Proof.
  intros indent k v Hi. unfold format_item.
  set (nk := length k). set (ntabs := Nat.max 1 (nk / indent + (if nk mod indent =? 0 then 0 else 1))).
  exists (ntabs * indent - nk). split; [reflexivity|]. exists ntabs.
  pose proof (Nat.div_mod nk indent ltac:(lia)) as D.
  pose proof (Nat.mod_upper_bound nk indent ltac:(lia)) as B.
  assert (L : nk <= ntabs * indent).
  { unfold ntabs. destruct (nk mod indent =? 0) eqn:Z.
    - apply Nat.eqb_eq in Z.
      transitivity (nk / indent * indent); [nia|]. apply Nat.mul_le_mono_r. lia.
    - transitivity ((nk / indent + 1) * indent); [nia|]. apply Nat.mul_le_mono_r. lia. }
  split; [lia|]. split; [unfold ntabs; lia|].
  intros n Hn Hk. unfold ntabs. apply Nat.max_lub; [lia|].
  destruct (nk mod indent =? 0) eqn:Z.
  - apply Nat.eqb_eq in Z. nia.
  - apply Nat.eqb_neq in Z. nia.
Qed.
