(** * C91 - C94: paths with variables, programs, folders and pairs. *)
From Coq Require Import String.
From Verif Require Import PyBase PyBase_Proofs OsPath_Model Utils_Model Utils_Spec Texts_Proofs.
From Verif Require Import Env_Model Env_Spec Env_Proofs.

Definition final (cwd : pystr) (abs : bool) (p : pystr) : pystr :=
  if abs then abspath cwd p else normpath p.

(** ** C91: [convpath] *)

(** Variables are expanded once, from the left. *)
Theorem C91_vars : forall env s t, expandvars env s = t <-> expands env s t.
Proof.
  intros env s t. split; [intros <-; apply expand_sound|apply expand_complete].
Qed.

(** Without flags paths are only normalized. *)
Theorem C91_flags : forall env own home_of cwd p abs,
  convpath env own home_of cwd p abs false false = final cwd abs p.
Proof. reflexivity. Qed.

(** So are, whatever the flags, those with nothing to expand. *)
Theorem C91_plain : forall env own home_of cwd p abs user vars,
  (forall r, p <> 126%N :: r) -> ~ In 36%N p -> ~ occurs (lit "_UNC_PATH_HERE_") p ->
  convpath env own home_of cwd p abs user vars = final cwd abs p.
Proof.
  intros env own home_of cwd p abs user vars Ht Hd Hm.
  pose proof (no_tilde env own home_of p Ht) as Hu.
  destruct vars.
  - apply conv_expanded with (q := p).
    + destruct user; congruence.
    + intros (l & r & ->). apply Hd. apply in_or_app. right. left. reflexivity.
    + rewrite <- C91_vars. unfold expandvars. rewrite <- (app_nil_r p) at 1.
      rewrite expand_plain by exact Hd. apply app_nil_r.
    + exact Hm.
  - unfold convpath. destruct user; [rewrite Hu|]; reflexivity.
Qed.

(** Variables are expanded, and the result normalized. *)
Theorem C91_expanded : forall env own home_of cwd p t abs user,
  user = false \/ (forall r, p <> 126%N :: r) ->
  ~ occurs (lit "$\") p -> expands env p t -> ~ occurs (lit "_UNC_PATH_HERE_") t ->
  convpath env own home_of cwd p abs user true = final cwd abs t.
Proof.
  intros env own home_of cwd p t abs user Hu H1 H2 H3.
  apply conv_expanded with (q := p); auto.
  destruct user; [|reflexivity]. destruct Hu as [Hu|Hu]; [discriminate|].
  symmetry. apply no_tilde. exact Hu.
Qed.

(** The dollar of a share of Windows is no variable. *)
Theorem C91_share : forall env own home_of cwd p q t abs user,
  user = false \/ (forall r, p <> 126%N :: r) ->
  ~ In 36%N p -> ~ In 95%N p -> ~ occurs (lit "$\") q -> expands env q t ->
  ~ occurs (lit "_UNC_PATH_HERE_") t ->
  convpath env own home_of cwd (p ++ lit "$\" ++ q) abs user true = final cwd abs (p ++ lit "$\" ++ t).
Proof.
  intros env own home_of cwd p q t abs user Hu Hd Hs H1 H2 H3. apply conv_unc; auto.
  destruct user; [|reflexivity]. destruct Hu as [Hu|Hu]; [discriminate|].
  apply no_tilde. intros r E. destruct p as [|c p]; [discriminate|].
  injection E as -> _. exact (Hu p eq_refl).
Qed.

(** A leading tilde is the home of the user, without its last slashes. *)
Theorem C91_home : forall env own home_of cwd name tail h abs,
  ~ In 47%N name -> tail = [] \/ (exists r, tail = 47%N :: r) ->
  (name = [] /\ (env (lit "HOME") = Some h \/ env (lit "HOME") = None /\ own = Some h) \/
   name <> [] /\ home_of name = Some h) ->
  exists h0 k, h = h0 ++ repeat 47%N k /\ (forall r, h0 <> r ++ [47%N]) /\
    convpath env own home_of cwd (126%N :: name ++ tail) abs true false =
    final cwd abs (if list_eq_dec N.eq_dec (h0 ++ tail) [] then lit "/" else h0 ++ tail).
Proof.
  intros env own home_of cwd name tail h abs Hn Ht Hh.
  destruct (rstrip_slash_spec h) as [k E]. exists (rstrip_slash h), k.
  split; [exact E|]. split.
  - intros r X. unfold rstrip_slash in X. apply (f_equal (@rev N)) in X.
    rewrite rev_involutive, rev_app_distr in X. cbn [rev app] in X.
    assert (D : forall s r, drop_while (N.eqb 47) s <> 47%N :: r).
    { clear. induction s as [|c s IH]; intros r X; [discriminate|]. cbn [drop_while] in X.
      destruct (47 =? c)%N eqn:C; [exact (IH _ X)|]. injection X as -> _. discriminate. }
    exact (D _ _ X).
  - unfold convpath, expanduser. change (126 =? chr "~")%N with true. cbv iota beta.
    rewrite span_name_app by assumption.
    assert (Eh : match name with
                 | [] => match env (lit "HOME") with Some h => Some h | None => own end
                 | _ :: _ => home_of name
                 end = Some h).
    { destruct Hh as [(-> & [->|(-> & ->)])|(Hne & ->)]; try reflexivity.
      destruct name; [congruence|reflexivity]. }
    rewrite Eh. unfold final.
    destruct (rstrip_slash h ++ tail) as [|c r] eqn:Ep;
      destruct (list_eq_dec N.eq_dec _ _) as [X|X]; try reflexivity; try congruence; discriminate.
Qed.

(** A variable right before the dollar of a share is not expanded. *)
Theorem C91_share_refuted : exists env p,
  expands env (lit "/x$A") (lit "/xB") /\ p = lit "/x$A$\s" /\
  convpath env None (fun _ => None) (lit "/") p true true true = p.
Proof.
  exists (fun n => if str_eqb n (lit "A") then Some (lit "B") else None), (lit "/x$A$\s").
  split; [|split; [reflexivity|vm_compute; reflexivity]].
  rewrite <- C91_vars. reflexivity.
Qed.

(** A text of the path is taken for the mark of shares. *)
Theorem C91_mark_refuted : exists p,
  (forall env, expands env p p) /\
  convpath (fun _ => None) None (fun _ => None) (lit "/") p true true true = lit "/a/$\b" /\
  p <> lit "/a/$\b".
Proof.
  exists (lit "/a/_UNC_PATH_HERE_b"). split; [|split; [vm_compute; reflexivity|discriminate]].
  intros env. rewrite <- C91_vars. reflexivity.
Qed.

(** Dollars of the home are expanded, too. *)
Theorem C91_home_refuted : exists env,
  env (lit "HOME") = Some (lit "/home/$A") /\
  convpath env None (fun _ => None) (lit "/") (lit "~/x") true true true = lit "/home/B/x".
Proof.
  exists (fun n => if str_eqb n (lit "A") then Some (lit "B")
                   else if str_eqb n (lit "HOME") then Some (lit "/home/$A") else None).
  split; vm_compute; reflexivity.
Qed.

Definition some_env (n : pystr) : option pystr :=
  if str_eqb n (lit "HOME") then Some (lit "/home/me/")
  else if str_eqb n (lit "DIR") then Some (lit "b/$HOME/../c") else None.
Example C91_example :
  convpath some_env None (fun _ => None) (lit "/w") (lit "~/a//$DIR/${DIR}/$NONE/${NO}/") true true true
  = lit "/home/me/a/b/c/b/c/$NONE/${NO}/" /\
  convpath some_env None (fun _ => None) (lit "/w") (lit "x/\\srv\share$\$HOME") true true true
  = lit "/w/x/\\srv\share$\/home/me/" /\
  convpath some_env None (fun n => if str_eqb n (lit "you") then Some (lit "/") else None) (lit "/w")
    (lit "~you") false true true = lit "/".
Proof. repeat split; vm_compute; reflexivity. Qed.

(** ** C92: programs *)

(** On POSIX: what is found are the files to be run with one of the names tried
    in one of the folders. *)
Theorem C92_found : forall sep joined runnable var program path fs f, path <> [] ->
  py_where false sep joined runnable var program (Some path) = Ok fs ->
  (In f fs <-> runnable f = true /\
     exists folder e, listed sep path folder /\ In e [""; ".bat"; "com"; ".exe"]%string /\
       f = joined folder program ++ lit e).
Proof.
  intros sep joined runnable var program path fs f Hp E.
  destruct path as [|c p]; [congruence|].
  rewrite (where_eq false sep joined runnable (c :: p) program c p eq_refl) in E.
  match type of E with Ok ?l = _ => assert (X : fs = l) by congruence end.
  rewrite X, filter_In, candidates_iff. unfold is_exec. cbn [negb orb].
  rewrite andb_true_r. intuition.
Qed.

(** The variable is used when no folders are given. *)
Theorem C92_variable : forall nt sep joined runnable var program, var <> [] ->
  py_where nt sep joined runnable (Some var) program None =
  py_where nt sep joined runnable None program (Some var).
Proof. intros nt sep joined runnable [|c v] program H; [congruence|reflexivity]. Qed.

(** [which] on POSIX: the first folder that has some candidate gives it, and
    the program itself goes first there. *)
Theorem C92_first : forall sep joined runnable path program f, path <> [] ->
  which false sep joined runnable NoCommand (Some path) program = Ok (Some f) ->
  exists pre piece post folder e,
    split_on sep path = pre ++ piece :: post /\
    unquoted piece folder /\ folder <> [] /\
    In e [""; ".bat"; "com"; ".exe"]%string /\ f = joined folder program ++ lit e /\ runnable f = true /\
    (runnable (joined folder program) = true -> f = joined folder program) /\
    (forall piece' folder' e', In piece' pre -> unquoted piece' folder' -> folder' <> [] ->
       In e' [""; ".bat"; "com"; ".exe"]%string -> runnable (joined folder' program ++ lit e') = false).
Proof.
  intros sep joined runnable path program f Hp E.
  unfold which, where_ in E. rewrite C92_variable in E by exact Hp.
  destruct path as [|c0 p0]; [congruence|].
  rewrite (where_eq false sep joined runnable (c0 :: p0) program c0 p0 eq_refl) in E. cbn [rbind] in E.
  assert (Ex : forall x, is_exec false runnable x = runnable x)
    by (intros x; unfold is_exec; cbn [negb orb]; apply andb_true_r).
  rewrite (filter_ext _ _ Ex) in E.
  revert E. generalize (split_on sep (c0 :: p0)) as ps. intros ps E.
  assert (G : exists pre piece post folder e, ps = pre ++ piece :: post /\
    unquote_folder piece = folder /\ folder <> [] /\
    In e [""; ".bat"; "com"; ".exe"]%string /\ f = joined folder program ++ lit e /\ runnable f = true /\
    (runnable (joined folder program) = true -> f = joined folder program) /\
    (forall folder' e', In folder' (map unquote_folder pre) -> folder' <> [] ->
       In e' [""; ".bat"; "com"; ".exe"]%string -> runnable (joined folder' program ++ lit e') = false)).
  { induction ps as [|piece ps IH]; [discriminate|]. cbn [flat_map] in E.
    rewrite filter_app in E.
    destruct (filter runnable (candidates joined program piece)) as [|g gs] eqn:Eg.
    - destruct (IH E) as (pre & piece' & post & folder & e & -> & H1 & H2 & H3 & H4 & H5 & H6 & H7).
      exists (piece :: pre), piece', post, folder, e. repeat split; auto.
      intros folder' e' [<-|I] Hne Ie; [|exact (H7 folder' e' I Hne Ie)].
      destruct (runnable (joined (unquote_folder piece) program ++ lit e')) eqn:R; [|reflexivity].
      exfalso. assert (I : In (joined (unquote_folder piece) program ++ lit e') []); [|destruct I].
      rewrite <- Eg. apply filter_In. split; [|exact R]. unfold candidates.
      destruct (unquote_folder piece) as [|c r]; [congruence|].
      destruct Ie as [<-|Ie]; [left; rewrite app_nil_r; reflexivity|].
      right. apply in_map. apply (in_map lit) in Ie. exact Ie.
    - cbn [app] in E. injection E as ->.
      assert (I : In f (filter runnable (candidates joined program piece))) by (rewrite Eg; left; reflexivity).
      apply filter_In in I. destruct I as [I R]. unfold candidates in I, Eg.
      destruct (unquote_folder piece) as [|c r] eqn:Eu; [destruct I|].
      assert (Ee : exists e, In e [""; ".bat"; "com"; ".exe"]%string /\ f = joined (c :: r) program ++ lit e).
      { destruct I as [<-|I]; [exists ""%string; split; [left; reflexivity|rewrite app_nil_r; reflexivity]|].
        apply in_map_iff in I. destruct I as (e & <- & I). apply in_map_iff in I.
        destruct I as (e' & <- & I). exists e'. split; [right; exact I|reflexivity]. }
      destruct Ee as (e & Ie & Ef).
      exists [], piece, ps, (c :: r), e. repeat split; auto; [discriminate| |].
      + intros Rj. cbn [filter] in Eg. rewrite Rj in Eg. injection Eg as ->. reflexivity.
      + intros folder' e' []. }
  destruct G as (pre & piece & post & folder & e & Eps & H1 & H2 & H3 & H4 & H5 & H6 & H7).
  exists pre, piece, post, folder, e. split; [exact Eps|]. split.
  { rewrite <- H1 in H2 |- *. destruct (unquote_spec piece) as (a & b & X & [Y|Y]); [congruence|].
    exists a, b. split; [exact X|exact Y]. }
  repeat split; auto.
  intros piece' folder' e' I (a & b & -> & U1 & U2) Hne Ie. apply (H7 folder' e'); auto.
  apply in_map_iff. eexists. split; [|exact I]. apply unquote_app; assumption.
Qed.

Theorem C92_none : forall sep joined runnable path program, path <> [] ->
  which false sep joined runnable NoCommand (Some path) program = Ok None <->
  forall folder e, listed sep path folder -> In e [""; ".bat"; "com"; ".exe"]%string ->
    runnable (joined folder program ++ lit e) = false.
Proof.
  intros sep joined runnable path program Hp.
  destruct (py_where false sep joined runnable None program (Some path)) as [fs|x] eqn:E.
  2:{ destruct path; [congruence|discriminate]. }
  pose proof (fun f => C92_found sep joined runnable None program path fs f Hp E) as F.
  unfold which, where_. rewrite C92_variable by exact Hp. rewrite E. cbn [rbind]. split.
  - intros H folder e L I. destruct fs as [|g fs]; [|discriminate].
    destruct (runnable (joined folder program ++ lit e)) eqn:R; [|reflexivity].
    exfalso. apply (F (joined folder program ++ lit e)). split; [exact R|]. exists folder, e. auto.
  - intros H. destruct fs as [|g fs]; [reflexivity|]. exfalso.
    destruct (proj1 (F g) (or_introl eq_refl)) as (R & folder & e & L & I & ->).
    rewrite (H folder e L I) in R. discriminate.
Qed.

(** A command that fails has found nothing, whatever is in the folders. *)
Theorem C92_exit_code : forall nt sep joined runnable var program,
  where_ nt sep joined runnable ExitCode var program = Ok [] /\
  which nt sep joined runnable ExitCode var program = Ok None.
Proof. intros. split; reflexivity. Qed.
(** On Windows the first line of the command, that is not blank. *)
Theorem C92_command : forall nt sep joined runnable var program out f,
  which nt sep joined runnable (Printed out) var program = Ok (Some f) <->
  exists pre line post, split_on 10%N out = pre ++ line :: post /\
    (forall l, In l pre -> strip l = []) /\ strip line = f /\ f <> [].
Proof.
  intros nt sep joined runnable var program out f. unfold which, where_. cbn [rbind].
  generalize (split_on 10%N out) as ls. intros ls. split.
  - intros E. induction ls as [|l ls IH]; [discriminate|]. cbn [filter] in E.
    destruct (str_eqb (strip l) []) eqn:B; cbn [negb] in E.
    + destruct (IH E) as (pre & line & post & -> & H1 & H2 & H3).
      exists (l :: pre), line, post. repeat split; auto.
      intros x [<-|I]; [apply str_eqb_eq; exact B|exact (H1 x I)].
    + cbn [map] in E. injection E as <-. exists [], l, ls. repeat split; auto; [intros x []|].
      intros X. rewrite X in B. discriminate.
  - intros (pre & line & post & -> & H1 & H2 & H3).
    rewrite filter_app. replace (filter (fun s => negb (str_eqb (strip s) [])) pre) with (@nil pystr).
    + cbn [app filter]. rewrite H2. destruct f as [|c f]; [congruence|]. cbn [str_eqb negb map].
      rewrite H2. reflexivity.
    + clear -H1. induction pre as [|x pre IH]; [reflexivity|]. cbn [filter].
      rewrite (H1 x (or_introl eq_refl)). cbn [str_eqb negb]. apply IH. intros l I. apply H1. right. exact I.
Qed.

(** On POSIX another program is found, whose name only begins so. *)
Theorem C92_name_refuted : exists runnable,
  runnable (lit "/bin/tele") = false /\
  which false 58%N osp_join runnable NoCommand (Some (lit "/bin")) (lit "tele") = Ok (Some (lit "/bin/telecom")).
Proof.
  exists (fun f => str_eqb f (lit "/bin/telecom")). split; vm_compute; reflexivity.
Qed.

(** On Windows programs with the extension "com" are never found, the dot of
    the list being forgotten. *)
Theorem C92_com_refuted : exists runnable f,
  runnable f = true /\ ends_with (lit ".com") f = true /\
  forall joined sep var program path fs,
    py_where true sep joined runnable var program path = Ok fs -> ~ In f fs.
Proof.
  exists (fun _ => true), (lit "C:\x.com"). split; [reflexivity|]. split; [reflexivity|].
  intros joined sep var program path fs E I. unfold py_where in E.
  destruct (match path with None | Some [] => _ | Some p => Ok p end) as [p|]; [|discriminate].
  cbn [rbind] in E. match type of E with Ok ?l = _ => assert (X : fs = l) by congruence end.
  rewrite X in I. apply in_flat_map in I. destruct I as (x & _ & I).
  destruct (unquote_folder x); [destruct I|]. apply filter_In in I. destruct I as [_ I].
  vm_compute in I. discriminate.
Qed.

(** A path given for the program is found once for each folder. *)
Theorem C92_twice_refuted : exists runnable fs,
  py_where false 58%N osp_join runnable None (lit "/x/p") (Some (lit "/bin:/sbin")) = Ok fs /\ ~ NoDup fs.
Proof.
  exists (fun f => str_eqb f (lit "/x/p")), [lit "/x/p"; lit "/x/p"]. split; [vm_compute; reflexivity|].
  intros H. inversion H as [|? ? X _]. apply X. left. reflexivity.
Qed.

(** Without the variable [PATH] it raises. *)
Theorem C92_path_refuted : forall nt sep joined runnable program,
  which nt sep joined runnable NoCommand None program = Raise KeyError.
Proof. reflexivity. Qed.

Example C92_example :
  let runnable := fun f => existsb (str_eqb f) (map lit ["/usr/bin/git"; "/opt/my bin/git"; "/opt/my bin/git.exe"]%string) in
  py_where false 58%N osp_join runnable None (lit "git") (Some (lit "/none::""/opt/my bin"":/usr/bin/"))
    = Ok (map lit ["/opt/my bin/git"; "/opt/my bin/git.exe"; "/usr/bin/git"]%string) /\
  which false 58%N osp_join runnable NoCommand (Some (lit "/none:/usr/bin:")) (lit "git")
    = Ok (Some (lit "/usr/bin/git")) /\
  which true 59%N osp_join runnable (Printed (lit "  C:\a.exe  " ++ [10%N] ++ lit "C:\b.exe")) None (lit "a")
    = Ok (Some (lit "C:\a.exe")).
Proof. cbv zeta. repeat split; vm_compute; reflexivity. Qed.

(** ** C93: folders *)

(** A run that does not raise, with nobody else around, leaves a folder, new or
    not; only missing folders on the way have been created; a file at the place
    raises, and so do the errors of the system. *)
Theorem C93_ensured : forall umask writable p mode t t',
  ensure_dir_exists umask writable (fun t => t) p mode t = (t', Ok tt) ->
  is_folder t' p /\ (at_path t p = None -> at_path t' p = Some (Folder (N.ldiff mode umask))) /\
  (is_folder t p -> t' = t).
Proof.
  intros umask writable p mode t t' E. unfold ensure_dir_exists in E.
  destruct (at_path t p) as [[m|]|] eqn:A; [| discriminate |].
  - injection E as <-. split; [exists m; exact A|]. split; [discriminate|reflexivity].
  - destruct (makedirs umask writable p mode t) as [t1 r] eqn:M.
    destruct (makedirs_spec umask writable p mode t t1 r M) as (G & H1 & H2).
    assert (r = None \/ r = Some EEXIST) as [ -> | -> ] by (destruct r as [[]|]; auto; discriminate).
    + injection E as <-. destruct (H1 eq_refl) as [_ H]. split; [eexists; exact H|].
      split; [intros _; exact H|]. intros [m X]. congruence.
    + injection E as <-. exfalso. specialize (H2 eq_refl).
      (* nothing on the way can be there already *)
      destruct (G p) as [X|(_ & _ & X)]; [congruence|].
      assert (K : forall p mode t t' r, makedirs umask writable p mode t = (t', r) ->
        at_path t p = None -> r <> Some EEXIST).
      { clear. induction p as [|x p IH]; intros mode t t' r M A; [discriminate|].
        cbn [makedirs] in M. destruct (exists_at t p) eqn:Xp.
        - intros ->. apply mkdir_err in M. destruct M as [_ M]. exact (M eq_refl A).
        - destruct (makedirs umask writable p 511 t) as [t1 r1] eqn:M1.
          destruct (makedirs_spec _ _ _ _ _ _ _ M1) as (G & _).
          assert (A1 : at_path t1 (x :: p) = None).
          { destruct (G (x :: p)) as [Eq|((b & W) & _)]; [congruence|].
            apply (f_equal (@length pystr)) in W. rewrite app_length in W. simpl in W. lia. }
          destruct r1 as [[]|].
          + intros ->. apply mkdir_err in M. destruct M as [_ M]. exact (M eq_refl A1).
          + injection M as _ <-. discriminate.
          + injection M as _ <-. discriminate.
          + injection M as _ <-. discriminate.
          + intros ->. apply mkdir_err in M. destruct M as [_ M]. exact (M eq_refl A1). }
      exact (K _ _ _ _ _ M A eq_refl).
Qed.

(** Whatever happens, nothing else is touched than what was missing on the way. *)
Theorem C93_only : forall umask writable meanwhile p mode t t' r,
  ensure_dir_exists umask writable meanwhile p mode t = (t', r) ->
  forall q, at_path t' q = at_path t q \/ at_path t' q = at_path (meanwhile t) q \/
    on_the_way q p /\ at_path (meanwhile t) q = None /\ is_folder t' q.
Proof.
  intros umask writable meanwhile p mode t t' r E q. unfold ensure_dir_exists in E.
  destruct (at_path t p) as [[m|]|]; try (injection E as <- _; left; reflexivity).
  destruct (makedirs umask writable p mode (meanwhile t)) as [t1 e] eqn:M.
  assert (t' = t1) by (destruct e as [[]|]; congruence). subst t1.
  destruct (makedirs_spec _ _ _ _ _ _ _ M) as (G & _). right. exact (G q).
Qed.

(** A file at the place raises and nothing happens. *)
Theorem C93_file : forall umask writable meanwhile p mode t, at_path t p = Some AFile ->
  ensure_dir_exists umask writable meanwhile p mode t = (t, Raise IOError).
Proof. intros umask writable meanwhile p mode t E. unfold ensure_dir_exists. rewrite E. reflexivity. Qed.

(** Another process that creates the same folder meanwhile does no harm. *)
Theorem C93_race : forall umask writable meanwhile p mode t t' r m, p <> [] ->
  at_path t p = None -> at_path (meanwhile t) p = Some (Folder m) ->
  is_folder (meanwhile t) (tl p) ->
  ensure_dir_exists umask writable meanwhile p mode t = (t', r) ->
  r = Ok tt /\ t' = meanwhile t.
Proof.
  intros umask writable meanwhile [|x p] mode t t' r m Hp A B [m' F] E; [congruence|].
  unfold ensure_dir_exists in E. rewrite A in E. cbn [tl] in F.
  cbn [makedirs] in E. unfold exists_at in E. rewrite F in E. cbn [mkdir] in E. rewrite F in E.
  unfold exists_at in E. rewrite B in E. injection E as <- <-. auto.
Qed.

(** But if it creates a file there, that goes unnoticed. *)
Theorem C93_race_refuted : exists meanwhile p t t',
  ensure_dir_exists 18 (fun _ => true) meanwhile p 493 t = (t', Ok tt) /\ at_path t' p = Some AFile.
Proof.
  exists (fun t => ([lit "x"], AFile) :: t), [lit "x"], [], [([lit "x"], AFile)].
  split; vm_compute; reflexivity.
Qed.

(** The folders above do not get the mode asked for. *)
Theorem C93_mode_refuted : exists p q t t' m,
  ensure_dir_exists 0 (fun _ => true) (fun t => t) p 493 t = (t', Ok tt) /\
  on_the_way q p /\ at_path t q = None /\ at_path t' q = Some (Folder m) /\ m <> 493%N.
Proof.
  exists [lit "b"; lit "a"], [lit "a"], []. do 2 eexists. split; [vm_compute; reflexivity|].
  split; [exists [lit "b"]; reflexivity|]. split; [reflexivity|]. split; [vm_compute; reflexivity|]. discriminate.
Qed.

Example C93_example :
  let t := [([lit "a"], Folder 493); ([lit "f"; lit "a"], AFile)] in
  ensure_dir_exists 18 (fun _ => true) (fun t => t) [lit "c"; lit "b"; lit "a"] 448 t
    = (t ++ [([lit "b"; lit "a"], Folder 493); ([lit "c"; lit "b"; lit "a"], Folder 448)], Ok tt) /\
  snd (ensure_dir_exists 18 (fun _ => true) (fun t => t) [lit "x"; lit "f"; lit "a"] 448 t) = Raise IOError /\
  snd (ensure_dir_exists 18 (fun _ => false) (fun t => t) [lit "x"; lit "a"] 448 t) = Raise IOError.
Proof. cbv zeta. repeat split; vm_compute; reflexivity. Qed.

(** ** C94: pairs, and truths *)

(** Each pair on a line of its own: the key, spaces up to the next multiple of
    the indent (one at least), an equals-sign and the value. *)
Theorem C94_pairs : forall indent items, 0 < indent ->
  exists lines, format_pairs indent items = join [10%N] lines /\
  Forall2 (fun item line => exists spaces tabs,
    line = fst item ++ repeat 32%N spaces ++ lit " = " ++ snd item /\
    length (fst item) + spaces = tabs * indent /\ 0 < tabs /\
    forall n, 0 < n -> length (fst item) <= n * indent -> tabs <= n) items lines.
Proof.
  intros indent items Hi. eexists. split; [reflexivity|].
  induction items as [|[k v] items IH]; cbn [map]; constructor; [|exact IH].
  cbn [fst snd]. destruct (format_width indent k v Hi) as (spaces & E & tabs & H).
  exists spaces, tabs. auto.
Qed.

(** Texts are told by their words. *)
Theorem C94_texts : forall s b, obj2bool (AText s) = Ok b ->
  (b = false <-> exists w, trimmed w /\ padded w s /\ false_word w).
Proof.
  intros s b E. rewrite <- str2bool_iff. destruct s as [|c s]; cbn [obj2bool] in E.
  - injection E as <-. split; [intros _; vm_compute; reflexivity|reflexivity].
  - injection E as <-. reflexivity.
Qed.

Theorem C94_total : forall s, exists b, obj2bool (AText s) = Ok b.
Proof. intros [|c s]; eexists; reflexivity. Qed.

(** Other objects are refused unless false. *)
Theorem C94_objects_refuted :
  obj2bool (AnObject true) = Raise ValueError /\ obj2bool (AnObject false) = Ok false.
Proof. split; reflexivity. Qed.

Example C94_example :
  format_pairs 4 [(lit "abc", lit "1"); (lit "abcd", lit "2"); (lit "abcde", lit "3"); ([], lit "4")]
  = join [10%N] (map lit ["abc  = 1"; "abcd = 2"; "abcde    = 3"; "     = 4"]%string) /\
  map obj2bool [AText []; AText (lit " NO "); AText (lit "x")] = [Ok false; Ok false; Ok true].
Proof. split; vm_compute; reflexivity. Qed.

Print Assumptions C91_vars.
Print Assumptions C91_flags.
Print Assumptions C91_plain.
Print Assumptions C91_expanded.
Print Assumptions C91_share.
Print Assumptions C91_home.
Print Assumptions C91_share_refuted.
Print Assumptions C91_mark_refuted.
Print Assumptions C91_home_refuted.
Print Assumptions C92_found.
Print Assumptions C92_variable.
Print Assumptions C92_first.
Print Assumptions C92_none.
Print Assumptions C92_command.
Print Assumptions C92_exit_code.
Print Assumptions C92_name_refuted.
Print Assumptions C92_com_refuted.
Print Assumptions C92_twice_refuted.
Print Assumptions C92_path_refuted.
Print Assumptions C93_ensured.
Print Assumptions C93_only.
Print Assumptions C93_file.
Print Assumptions C93_race.
Print Assumptions C93_race_refuted.
Print Assumptions C93_mode_refuted.
Print Assumptions C94_pairs.
Print Assumptions C94_texts.
Print Assumptions C94_total.
Print Assumptions C94_objects_refuted.
