(** * Paths as URLs: properties C88 and C89 *)
From Coq Require Import String Lia.
From Verif Require Import PyBase PyBase_Proofs OsPath_Model OsPath_Spec OsPath_Proofs
  Url_Model Url_Spec Url_Proofs FileUrl_Model FileUrl_Spec FileUrl_Proofs.

(** ** C88: [path2url] *)

(** Local paths become "file:" URLs of the absolute path where they lead to, the names of the
    current folder being percent-encoded; the slash of folders stays. *)
Theorem C88_local : forall bad_host expandvars expanduser cwd p users,
  Forall name cwd -> Forall (Forall scalar) cwd -> local_path p ->
  exists path quoted,
    path2url bad_host expandvars expanduser (folder_path cwd) p false users = Ok (lit "file://" ++ path) /\
    Forall2 (fun u n => url_path u /\ reads u n) quoted cwd /\
    file_path (of_folder p) (rev (leads_to (rev quoted) p)) path.
Proof.
  intros bad_host ev eu cwd p users N S L.
  destruct (local_result bad_host ev eu cwd p users N S L) as (q & F & _ & _ & E).
  eexists. exists q. split; [exact E|]. split.
  - eapply Forall2_impl; [|exact F]. cbv beta. intros u n U. apply quoted_reads. exact U.
  - apply target_file_path. apply dirlike_spec.
Qed.
Print Assumptions C88_local.

(** URLs of local absolute paths without dots stay as they are, so that a second use changes
    nothing. *)
Theorem C88_stable : forall bad_host expandvars expanduser cwd users folder names path,
  Forall name cwd -> Forall (Forall scalar) cwd ->
  Forall name names -> file_path folder names path -> plain_chars path ->
  path2url bad_host expandvars expanduser (folder_path cwd) (lit "file://" ++ path) false users
  = Ok (lit "file://" ++ path).
Proof.
  intros bad_host ev eu cwd users folder names path N S R F P.
  destruct (file_path_target _ _ _ F) as (d & ->). apply stable; [exact N|exact S|apply names_real; exact R|].
  eapply target_plain_inv. exact P.
Qed.
Print Assumptions C88_stable.

Theorem C88_idempotent : forall bad_host expandvars expanduser cwd cwd' p users users' u,
  Forall name cwd -> Forall (Forall scalar) cwd -> Forall name cwd' -> Forall (Forall scalar) cwd' ->
  local_path p ->
  path2url bad_host expandvars expanduser (folder_path cwd) p false users = Ok u ->
  path2url bad_host expandvars expanduser (folder_path cwd') u false users' = Ok u.
Proof.
  intros bad_host ev eu cwd cwd' p users users' u N S N' S' L E.
  destruct (local_result bad_host ev eu cwd p users N S L) as (q & F & R & PQ & E').
  rewrite E in E'. injection E' as ->. apply stable; [exact N'|exact S'| |]; apply Forall_rev; rewrite leads_to_eq.
  - apply walk_names; [|apply split_no_slash]. destruct (abs_of p); [constructor|apply Forall_rev; exact R].
  - apply walk_keeps; [|apply split_plain; apply L]. destruct (abs_of p); [constructor|apply Forall_rev; exact PQ].
Qed.
Print Assumptions C88_idempotent.

(** Remote URLs stay as they are. *)
Theorem C88_remote : forall bad_host expandvars expanduser cwd u users,
  Forall name cwd -> Forall (Forall scalar) cwd -> remote_url u ->
  path2url bad_host expandvars expanduser (folder_path cwd) u false users = Ok u.
Proof. intros. apply remote_same; assumption. Qed.
Print Assumptions C88_remote.

(** Paths of drives are absolute, whatever the current folder. *)
Theorem C88_drive : forall bad_host expandvars expanduser cwd d rest users,
  letter d -> plain_chars rest ->
  exists path, path2url bad_host expandvars expanduser cwd (d :: 58%N :: rest) false users = Ok (lit "file://" ++ path) /\
    root_of path = Slash /\ leads_to [] path = walk [[d; 58%N]] (split_on 47%N rest).
Proof. intros. apply drive_result; assumption. Qed.
Print Assumptions C88_drive.

(** Backslashes count as slashes, the prefix of long paths as one. *)
Theorem C88_backslash : forall bad_host expandvars expanduser cwd p users,
  (forall q, p <> lit "\\?\" ++ q) ->
  path2url bad_host expandvars expanduser cwd p false users
  = path2url bad_host expandvars expanduser cwd (map (fun c => if (c =? 92)%N then 47%N else c) p) false users.
Proof.
  intros bad_host ev eu cwd p users H.
  assert (U : ~ In 92%N (unbackslash p)).
  { unfold unbackslash. intros I. apply in_map_iff in I. destruct I as (c & E & _).
    change (chr "\") with 92%N in E. destruct (c =? 92)%N eqn:Q; [discriminate|]. rewrite E in Q. discriminate. }
  change (map _ p) with (unbackslash p). unfold path2url.
  assert (str_eqb (unbackslash p) [] = str_eqb p []) as -> by (destruct p; reflexivity).
  destruct (str_eqb p []) eqn:Z; [apply str_eqb_eq in Z; subst; reflexivity|]. cbv zeta.
  rewrite (no_unc (unbackslash p) U), (unbackslash_same _ U).
  destruct (starts_with unc_prefix p) eqn:W; [|reflexivity]. exfalso.
  unfold starts_with in W. apply str_eqb_eq in W. apply (H (skipn (length unc_prefix) p)).
  change (lit "\\?\") with unc_prefix. rewrite W at 1. symmetry. apply firstn_skipn.
Qed.
Print Assumptions C88_backslash.

Theorem C88_prefix : forall bad_host expandvars expanduser cwd p users, ~ In 92%N p ->
  path2url bad_host expandvars expanduser cwd (lit "\\?\" ++ p) false users
  = path2url bad_host expandvars expanduser cwd (lit "/" ++ p) false users.
Proof.
  intros bad_host ev eu cwd p users H. unfold path2url.
  change (str_eqb (lit "\\?\" ++ p) []) with false. change (str_eqb (lit "/" ++ p) []) with false. cbv zeta iota.
  change (starts_with unc_prefix (lit "\\?\" ++ p)) with true. cbv iota.
  rewrite (no_unc (lit "/" ++ p)) by (intros [I|I]; [discriminate|contradiction]).
  change (unbackslash (skipn 3 (lit "\\?\" ++ p))) with (47%N :: unbackslash p).
  change (unbackslash (lit "/" ++ p)) with (47%N :: unbackslash p). reflexivity.
Qed.
Print Assumptions C88_prefix.

(** The folders of users are never expanded, though there is an argument to ask for it: all local
    paths are absolute by then. *)
Theorem C88_no_users : forall bad_host expandvars expanduser cwd p vars,
  path2url bad_host expandvars expanduser cwd p vars true
  = path2url bad_host expandvars expanduser cwd p vars false.
Proof. intros. apply no_users. Qed.
Print Assumptions C88_no_users.

(** Variables are expanded first. *)
Theorem C88_vars : forall bad_host expandvars expanduser cwd p users, p <> [] -> expandvars p <> [] ->
  path2url bad_host expandvars expanduser cwd p true users
  = path2url bad_host expandvars expanduser cwd (expandvars p) false users.
Proof.
  intros bad_host ev eu cwd p users H1 H2. unfold path2url.
  apply str_eqb_neq in H1, H2. rewrite H1, H2. reflexivity.
Qed.
Print Assumptions C88_vars.

Theorem C88_empty : forall bad_host expandvars expanduser cwd vars users,
  path2url bad_host expandvars expanduser cwd [] vars users = Ok [].
Proof. reflexivity. Qed.
Print Assumptions C88_empty.

Definition to_url (cwd p : string) : res pystr :=
  path2url (fun _ => false) (fun s => s) (fun s => lit "/home/me" ++ skipn 1 s) (lit cwd) (lit p) false true.

(** *** What does not hold *)

(** Home folders: *)
Theorem C88_users_refuted : exists p, to_url "/tmp" ("~/" ++ p) = Ok (lit "file:///tmp/~/" ++ lit p).
Proof. exists "x.xls"%string. reflexivity. Qed.
Print Assumptions C88_users_refuted.

(** File names with a number sign or question mark lose the rest of the name. *)
Theorem C88_hash_refuted : exists u r, to_url "/tmp" "a#b.xls" = Ok u /\
  urlsplit (fun _ => false) u [] = Ok r /\ u_path r = lit "/tmp/a" /\ u_fragment r = lit "b.xls".
Proof.
  eexists. eexists. split; [vm_compute; reflexivity|]. split; [vm_compute; reflexivity|]. split; vm_compute; reflexivity.
Qed.
Print Assumptions C88_hash_refuted.

(** Those with leading spaces lose them. *)
Theorem C88_space_refuted : exists p, to_url "/tmp" (" " ++ p) = Ok (lit "file:///tmp/" ++ lit p).
Proof. exists "a.xls"%string. reflexivity. Qed.
Print Assumptions C88_space_refuted.

(** Those with colons are taken for URLs of other schemes, and are not made absolute. *)
Theorem C88_colon_refuted : exists p, to_url "/tmp" p = Ok (lit p) /\ p = "v1:a.xls"%string.
Proof. eexists. split; [|reflexivity]. reflexivity. Qed.
Print Assumptions C88_colon_refuted.

(** Doubled slashes count as an empty folder, so that going up leads elsewhere. *)
Theorem C88_doubled_refuted : exists path, to_url "/tmp" "/a//../b" = Ok (lit "file://" ++ path) /\
  leads_to [] path = [lit "b"; lit "a"] /\ leads_to [] (lit "/a//../b") = [lit "b"].
Proof. exists (lit "/a/b"). split; [reflexivity|]. split; reflexivity. Qed.
Print Assumptions C88_doubled_refuted.

(** Remote URLs without a path do not pass through, and change each time. *)
Theorem C88_remote_refuted : exists u,
  to_url "/tmp" ("http://" ++ u) = Ok (lit "http://" ++ lit u ++ lit "/.") /\
  to_url "/tmp" ("http://" ++ u ++ "/.") = Ok (lit "http://" ++ lit u ++ lit "/").
Proof. exists "host"%string. split; reflexivity. Qed.
Print Assumptions C88_remote_refuted.

(** Going up from the root of a drive leaves the drive. *)
Theorem C88_drive_refuted : exists p, to_url "/tmp" ("D:../" ++ p) = Ok (lit "file:///" ++ lit p).
Proof. exists "x"%string. reflexivity. Qed.
Print Assumptions C88_drive_refuted.

Example C88_example :
  local_path (lit "../b c/./d.xls") /\
  to_url "/home/a b" "../b c/./d.xls" = Ok (lit "file:///home/b c/d.xls") /\
  to_url "/home/a b" "sub/" = Ok (lit "file:///home/a%20b/sub/") /\
  to_url "/home/a b" "C:\x\y.xls" = Ok (lit "file:///C:/x/y.xls") /\
  to_url "/" "x/.." = Ok (lit "file:///") /\
  remote_url (lit "http://host:80/a/b.xls?q#f").
Proof.
  split; [|split; [reflexivity|split; [reflexivity|split; [reflexivity|split; [reflexivity|]]]]].
  - split; [|split; [|split]].
    + unfold plain_chars. apply Forall_forall. intros c I. vm_compute in I. cbn [In].
      repeat (destruct I as [<-|I]; [lia|]). destruct I.
    + eexists. eexists. split; reflexivity.
    + intros a b E. exfalso. assert (I : In 58%N (lit "../b c/./d.xls")) by (rewrite E; apply in_or_app; right; left; reflexivity).
      vm_compute in I. repeat (destruct I as [I|I]; [discriminate|]). destruct I.
    + intros r a b E. discriminate.
  - exists (lit "http"), (lit "host:80"), False, [lit "a"; lit "b.xls"], (lit "/a/b.xls"), (lit "q"), (lit "f").
    split; [reflexivity|].
    split; [exists 104%N, [116; 116; 112]%N; split; [reflexivity|]; split; [unfold letter; lia|];
            apply Forall_forall; intros c I; vm_compute in I; unfold letter; repeat (destruct I as [<-|I]; [lia|]); destruct I|].
    split; [intros c I; vm_compute in I; repeat (destruct I as [<-|I]; [lia|]); destruct I|].
    split; [cbn; lia|]. split; [discriminate|]. split; [discriminate|].
    split; [apply Forall_forall; intros c I; vm_compute in I; cbn [In]; repeat (destruct I as [<-|I]; [lia|]); destruct I|].
    split; [repeat (apply Forall_cons; [split; [discriminate|split; [discriminate|split; [discriminate|]]]; vm_compute; intuition discriminate|]); apply Forall_nil|].
    split; [right; split; [left; tauto|reflexivity]|].
    split; [vm_compute; intuition discriminate|]. split; [vm_compute; intuition discriminate|]. split; [vm_compute; intuition discriminate|].
    apply Forall_forall; intros c I; vm_compute in I; cbn [In]; repeat (destruct I as [<-|I]; [lia|]); destruct I.
Qed.

(** ** C89: the xlrd backend *)

(** Books of local paths are read from the files that the system finds at these paths. *)
Theorem C89_open : forall lossy bad_host expandvars expanduser cwd p users,
  Forall name cwd -> Forall (Forall scalar) cwd ->
  local_path p -> ~ of_folder p -> ~ In 37%N p ->
  length (abspath (folder_path cwd) p) <= 200 ->
  exists url, path2url bad_host expandvars expanduser (folder_path cwd) p false users = Ok url /\
    open_book lossy bad_host url = Ok (File (abspath (folder_path cwd) p)).
Proof.
  intros lossy bad_host ev eu cwd p users N S L O H LEN.
  destruct (local_result bad_host ev eu cwd p users N S L) as (q & F & R & PQ & E).
  eexists. split; [exact E|].
  assert (D : dirlike (last (split_on 47%N p) []) = false).
  { destruct (dirlike (last (split_on 47%N p) [])) eqn:D; [|reflexivity]. exfalso. apply O. apply dirlike_spec. exact D. }
  rewrite D. set (names := rev (leads_to (rev q) p)).
  assert (PN : Forall plain_chars names).
  { unfold names. apply Forall_rev. rewrite leads_to_eq. apply walk_keeps; [|apply split_plain; apply L].
    destruct (abs_of p); [constructor|apply Forall_rev; exact PQ]. }
  pose proof (sum_target_plain false names PN) as PT.
  unfold open_book. rewrite urlparse_file; [|exact PT|right; rewrite target_join; eexists; reflexivity].
  cbn [rbind]. change (u_scheme (local_parts (target false names))) with (lit "file").
  change (str_eqb (lit "file") (lit "file")) with true. change (str_eqb [] []) with true. cbn [negb andb]. cbv iota.
  change (u_path (local_parts (target false names))) with (target false names).
  rewrite abspath_target in LEN |- *; [|apply names_real; exact N|exact L|exact O|apply names_real; exact N|exact L|exact O].
  f_equal. f_equal. apply urlpath_reads.
  - apply plain_not; [exact PT|cbn [In]; tauto].
  - intros t X. apply (plain_not _ 10%N PT); [cbn [In]; tauto|]. rewrite X. apply in_or_app. right. left. reflexivity.
  - apply reads_target. unfold names. apply Forall2_rev.
    apply Forall2_impl with name_reads; [intros u n W; apply W|apply leads_reads; assumption].
  - exact LEN.
Qed.
Print Assumptions C89_open.

(** The backend bids for them if some extension of Excel is in these paths. *)
Theorem C89_bid : forall lossy bad_host expandvars expanduser word_char cwd p users url,
  Forall name cwd -> Forall (Forall scalar) cwd ->
  local_path p -> ~ of_folder p -> ~ In 37%N p ->
  length (abspath (folder_path cwd) p) <= 200 ->
  path2url bad_host expandvars expanduser (folder_path cwd) p false users = Ok url ->
  (excel_name (word word_char) (abspath (folder_path cwd) p) -> bid lossy bad_host word_char url = Ok (Some 100)) /\
  (~ excel_name (word word_char) (abspath (folder_path cwd) p) -> bid lossy bad_host word_char url = Ok None).
Proof.
  intros lossy bad_host ev eu word_char cwd p users url N S L O H LEN E.
  destruct (C89_open lossy bad_host ev eu cwd p users N S L O H LEN) as (u & E' & OB).
  rewrite E in E'. injection E' as <-. unfold bid.
  assert (NE : str_eqb url [] = false).
  { destruct (local_result bad_host ev eu cwd p users N S L) as (q & _ & _ & _ & X). rewrite E in X. injection X as ->. reflexivity. }
  rewrite NE. unfold open_book in OB.
  destruct (urlparse bad_host url []) as [[parts params]|] eqn:U; [|discriminate]. cbn [rbind] in *.
  destruct (negb (str_eqb params []) && negb (contains (lit "logfile") params)); [discriminate|].
  destruct (str_eqb (u_scheme parts) (lit "file")); [|destruct (str_eqb params []); discriminate].
  destruct (str_eqb params []); [|discriminate]. injection OB as ->.
  split; intros X.
  - apply ext_anywhere_spec in X. rewrite X. reflexivity.
  - destruct (xl_ext_anywhere word_char (abspath (folder_path cwd) p)) eqn:Z; [|reflexivity].
    exfalso. apply X. apply ext_anywhere_spec. exact Z.
Qed.
Print Assumptions C89_bid.

(** Remote books are downloaded from their URLs, unless these have parameters. *)
Theorem C89_download : forall lossy bad_host u, remote_url u -> ~ In 59%N u ->
  open_book lossy bad_host u = Ok (Download u).
Proof.
  intros lossy bad_host u (sc & host & folder & names & path & query & fragment & E & S & LO & L2 & NF & HN & H & NN & FP & P1 & P2 & Q & C) P.
  destruct (file_path_target _ _ _ FP) as (d & PT).
  assert (PR : exists r, path = 47%N :: r) by (rewrite PT, target_join; eexists; reflexivity).
  unfold open_book, urlparse.
  assert (US : urlsplit bad_host u [] = Ok {| u_scheme := sc; u_netloc := host; u_path := path; u_query := query; u_fragment := fragment |}).
  { rewrite E in C |- *. apply remote_split; assumption. }
  rewrite US. cbn [rbind u_scheme u_path].
  assert (SP : splitparams path = (path, [])).
  { unfold splitparams. rewrite partition1_none; [reflexivity|]. change (chr ";") with 59%N. intros I. apply P.
    rewrite E, !in_app_iff. right. right. right. left.
    eapply split_chars; [|exact I]. change (chr "/") with 47%N.
    pose proof (split_last path) as X. rewrite X at 2. apply in_or_app. right. left. reflexivity. }
  assert (NQ : str_eqb sc (lit "file") = false) by (apply str_eqb_neq; exact NF).
  rewrite SP. destruct (in_list sc uses_params); cbn [rbind u_scheme]; rewrite NQ; reflexivity.
Qed.
Print Assumptions C89_download.

Definition opens (cwd p : string) : res source :=
  do u <- to_url cwd p; open_book (fun _ => []) (fun _ => false) u.

(** Names with percent signs may open other files. *)
Theorem C89_percent_refuted : exists p q, p <> q /\ opens "/tmp" p = Ok (File (lit "/tmp/" ++ lit q)).
Proof. exists "a%41.xls"%string, "aA.xls"%string. split; [discriminate|reflexivity]. Qed.
Print Assumptions C89_percent_refuted.

(** Those of long paths never open. *)
Theorem C89_long_refuted : exists p, local_path p /\ forall lossy bad_host expandvars expanduser,
  exists url, path2url bad_host expandvars expanduser (lit "/") p false false = Ok url /\
  open_book lossy bad_host url = Ok (File (abspath (lit "/") p ++ lit "\\?\")).
Proof.
  exists (repeat 97%N 200). split.
  - split; [|split; [|split]].
    + apply Forall_forall. intros c I. apply repeat_spec in I. subst c. cbn [In]. lia.
    + exists 97%N, (repeat 97%N 199). split; [reflexivity|lia].
    + intros a b E. exfalso. assert (I : In 58%N (repeat 97%N 200)) by (rewrite E; apply in_or_app; right; left; reflexivity).
      apply repeat_spec in I. discriminate.
    + intros r a b E. discriminate.
  - intros. eexists. split; vm_compute; reflexivity.
Qed.
Print Assumptions C89_long_refuted.

(** URLs with parameters can not be opened. *)
Theorem C89_params_refuted : exists u, remote_url u /\
  forall lossy bad_host, open_book lossy bad_host u = Raise TypeError.
Proof.
  exists (lit "http://host/a;b.xls"). split; [|reflexivity].
  exists (lit "http"), (lit "host"), False, [lit "a;b.xls"], (lit "/a;b.xls"), [], [].
  split; [reflexivity|].
  split; [exists 104%N, [116; 116; 112]%N; split; [reflexivity|]; split; [unfold letter; lia|];
          apply Forall_forall; intros c I; vm_compute in I; unfold letter; repeat (destruct I as [<-|I]; [lia|]); destruct I|].
  split; [intros c I; vm_compute in I; repeat (destruct I as [<-|I]; [lia|]); destruct I|].
  split; [cbn; lia|]. split; [discriminate|]. split; [discriminate|].
  split; [apply Forall_forall; intros c I; vm_compute in I; cbn [In]; repeat (destruct I as [<-|I]; [lia|]); destruct I|].
  split; [repeat (apply Forall_cons; [split; [discriminate|split; [discriminate|split; [discriminate|]]]; vm_compute; intuition discriminate|]); apply Forall_nil|].
  split; [right; split; [left; tauto|reflexivity]|].
  split; [vm_compute; intuition discriminate|]. split; [vm_compute; intuition discriminate|]. split; [vm_compute; intuition discriminate|].
  apply Forall_forall; intros c I; vm_compute in I; cbn [In]; repeat (destruct I as [<-|I]; [lia|]); destruct I.
Qed.
Print Assumptions C89_params_refuted.

(** Extensions may be of folders, too, and the backend bids for files that are no books. *)
Theorem C89_bid_refuted : exists u, to_url "/tmp" "old.xls/notes.txt" = Ok u /\
  forall lossy bad_host word_char, bid lossy bad_host word_char u = Ok (Some 100).
Proof. eexists. split; [reflexivity|]. reflexivity. Qed.
Print Assumptions C89_bid_refuted.

Example C89_example :
  opens "/home/a b" "../c d.xlsx" = Ok (File (lit "/home/c d.xlsx")) /\
  opens "/home/a%b" "x.xls" = Ok (File (lit "/home/a%b/x.xls")) /\
  opens "/" "http://host/a.xls?q" = Ok (Download (lit "http://host/a.xls?q")) /\
  excel_name (word (fun _ => false)) (lit "/home/c d.XLSX") /\
  ~ excel_name (word (fun _ => false)) (lit "/home/c d.xlsb").
Proof.
  split; [reflexivity|]. split; [reflexivity|]. split; [reflexivity|]. split.
  - apply ext_anywhere_spec. reflexivity.
  - intros H. apply ext_anywhere_spec in H. discriminate.
Qed.
(** Brackets in hosts come in pairs. *)
Example C89_brackets : opens "/" "http://[a/b.xls" = Raise ValueError /\ opens "/" "http://[a]/b.xls" = Ok (Download (lit "http://[a]/b.xls")).
Proof. split; reflexivity. Qed.
