(** * File paths as URL paths on Windows: theorems *)
From Coq Require Import String Lia.
From Verif Require Import PyBase PyBase_Proofs OsPath_Model Url_Model Url_Spec Url_Proofs WinUrl_Model WinUrl_Spec WinUrl_Proofs.

(** ** The URL path of a path has those of its names, and starts by where the path does. *)
Theorem C114_url : forall w, proper w -> exists us, url_names w us /\ path2urlpath (text w) = Ok (url_text w us).
Proof.
  intros w H. destruct (names_quoted (w_names w) (proj1 H)) as (us & Q). exists us. split.
  - apply quoted_url_names; [apply H|exact Q].
  - now apply forward.
Qed.

Definition home : wpath := WPath (Drive (chr "c")) [lit "My Docs"; lit "a#b.xls"] true.
Lemma home_proper : proper home.
Proof. split; [|split; [right; vm_compute; split; discriminate|discriminate]]. repeat (constructor; try discriminate); vm_compute; intuition discriminate. Qed.

Example C114_url_example :
  proper home /\ text home = lit "c:\My Docs\a#b.xls\" /\ path2urlpath (text home) = Ok (lit "///C:/My%20Docs/a%23b.xls/") /\
  path2urlpath (lit "\\host\share\x.y") = Ok (lit "////host/share/x.y") /\
  path2urlpath (lit "\a b") = Ok (lit "/a%20b") /\ path2urlpath (lit "..\x\") = Ok (lit "../x/") /\
  path2urlpath (lit "D:\") = Ok (lit "///D:/").
Proof. split; [exact home_proper|repeat split]. Qed.

(** ** Whatever spells the names of a path, its URL reads as the path. *)
Theorem C114_back : forall lossy w us, proper w -> url_names w us -> length (text w) <= 200 ->
  urlpath2path lossy (url_text w us) = Ok (text (capitalised w)).
Proof.
  intros lossy w us H U L. rewrite (back lossy w us H U). f_equal. unfold short.
  assert (length (text (capitalised w)) = length (text w)) as -> by (destruct w as [[c| | |] names b]; reflexivity).
  destruct (200 <? length (text w))%nat eqn:E; [apply Nat.ltb_lt in E; lia|reflexivity].
Qed.

Example C114_back_example : forall lossy,
  url_text home [lit "%4Dy%20Docs"; lit "a%23b.xls"] = lit "///C:/%4Dy%20Docs/a%23b.xls/" /\
  urlpath2path lossy (lit "///C:/%4Dy%20Docs/a%23b.xls/") = Ok (lit "C:\My Docs\a#b.xls\").
Proof. intros. split; reflexivity. Qed.

(** ** So does the one it has been made to. *)
Theorem C114_round_trip : forall lossy w u, proper w -> length (text w) <= 200 -> path2urlpath (text w) = Ok u ->
  urlpath2path lossy u = Ok (text (capitalised w)).
Proof.
  intros lossy w u H L E. destruct (C114_url w H) as (us & U & E'). rewrite E' in E. injection E as <-. now apply C114_back.
Qed.

Example C114_round_trip_example : forall lossy,
  urlpath2path lossy (lit "///C:/My%20Docs/a%23b.xls/") = Ok (lit "C:\My Docs\a#b.xls\") /\
  urlpath2path lossy (lit "////host/share/x.y") = Ok (lit "\\host\share\x.y") /\
  urlpath2path lossy (lit "../x/") = Ok (lit "..\x\") /\ urlpath2path lossy (lit "/") = Ok (lit "\").
Proof. repeat split. Qed.

(** ** Before a drive, any slashes do. *)
Theorem C114_any_slashes : forall lossy pre c names b us, Forall (eq 47%N) pre ->
  proper (WPath (Drive c) names b) -> url_names (WPath (Drive c) names b) us -> length (text (WPath (Drive c) names b)) <= 200 ->
  urlpath2path lossy (pre ++ c :: 58%N :: chained 47 us ++ last_sep 47 b) = Ok (text (WPath (Drive (capital c)) names b)).
Proof.
  intros lossy pre c names b us P H U L. pose proof (goods _ us H U) as G. destruct H as (Hn & Lc & Hb). cbn [w_names w_start w_last] in *.
  rewrite (back_drive lossy pre c names us b); [| | |exact Lc|exact G|exact Hb].
  - unfold short. cbn [length text w_start w_names w_last] in L |- *.
    replace (200 <? S (S (length (chained 92 names ++ last_sep 92 b)))) with false; [reflexivity|].
    symmetry. apply Nat.ltb_ge. exact L.
  - intros X. rewrite Forall_forall in P. specialize (P _ X). discriminate.
  - intros X. rewrite Forall_forall in P. specialize (P _ X). discriminate.
Qed.

Example C114_any_slashes_example : forall lossy,
  urlpath2path lossy (lit "/c:/a/b") = Ok (lit "C:\a\b") /\ urlpath2path lossy (lit "c:/a/b") = Ok (lit "C:\a\b").
Proof. repeat split. Qed.

(** ** Paths with the prefix of long paths fail, or get to name something else. *)
Theorem C114_prefix_refuted : exists p q u lossy,
  path2urlpath (lit "\\?\" ++ p) = Raise IOError /\ path2urlpath p = Ok (lit "///C:/x") /\
  path2urlpath (lit "\\?\UNC\" ++ q) = Ok u /\ urlpath2path lossy u = Ok (lit "\UNC\" ++ q).
Proof. exists (lit "C:\x"), (lit "host\share"), (lit "/UNC/host/share"), (fun _ => []). repeat split. Qed.

(** The library by itself would drop the prefix of drives, but of shares it leaves but one backslash:
    they become paths from the root. *)
Theorem C114_library_prefix : forall w, proper w ->
  match w_start w with
  | Drive _ => pathname2url (lit "\\?\" ++ text w) = pathname2url (text w)
  | Rooted => w_names w <> [] -> pathname2url (lit "\\?\UNC" ++ text w) = pathname2url (text w)
  | _ => True
  end.
Proof.
  intros [[c| | |] names b] (Hn & H); cbn [w_start w_names w_last] in *; try exact I.
  - destruct H as (L & _). unfold text. cbn [w_start w_names w_last].
    assert (P : starts_with (lit "\\?\") (c :: 58%N :: chained 92 names ++ last_sep 92 b) = false).
    { change (lit "\\?\") with [92; 92; 63; 92]%N. apply starts_hd. unfold letter in L. lia. }
    unfold pathname2url. rewrite P. change (starts_with (lit "\\?\") (lit "\\?\" ++ c :: 58%N :: chained 92 names ++ last_sep 92 b)) with true. cbv zeta.
    change (skipn 4 (lit "\\?\" ++ c :: 58%N :: chained 92 names ++ last_sep 92 b)) with (c :: 58%N :: chained 92 names ++ last_sep 92 b).
    assert (X : str_eqb (upper (firstn 4 (c :: 58%N :: chained 92 names ++ last_sep 92 b))) (lit "UNC\") = false).
    { apply str_eqb_neq. intros X. apply (f_equal (fun l => nth 1 l 0%N)) in X. vm_compute in X. discriminate. }
    rewrite X. reflexivity.
  - intros Nn. destruct names as [|n names]; [congruence|]. unfold text. cbn [w_start w_names w_last chained app].
    inversion Hn as [|? ? N1 N2]; subst. pose proof (name_nil _ N1) as Hnil. assert (H92 : ~ In 92%N n) by (apply name_not; [exact N1|cbn; tauto]).
    destruct n as [|h n]; [congruence|]. cbn [app].
    unfold pathname2url. 
    assert (P : starts_with (lit "\\?\") (92%N :: h :: (n ++ chained 92 names) ++ last_sep 92 b) = false).
    { change (lit "\\?\") with [92; 92; 63; 92]%N. rewrite starts_tl. apply starts_hd. intros ->. apply H92. now left. }
    rewrite P. reflexivity.
Qed.
Example C114_library_prefix_example :
  pathname2url (lit "\\?\c:\x") = Ok (lit "///C:/x") /\ pathname2url (lit "\\?\unc\host\share") = Ok (lit "/host/share")
  /\ pathname2url (lit "\\host\share") = Ok (lit "////host/share").
Proof. repeat split. Qed.

(** ** Long paths get this prefix at their end. *)
Theorem C114_long_refuted : exists w u lossy, proper w /\ path2urlpath (text w) = Ok u /\
  urlpath2path lossy u = Ok (text w ++ lit "\\?\").
Proof.
  exists (WPath (Drive 67%N) [repeat 97%N 198] false), (lit "///C:/" ++ repeat 97%N 198), (fun _ => []).
  split; [|split; vm_compute; reflexivity]. split; [|split; [left; split; discriminate|discriminate]]. constructor; [|constructor].
  split; [discriminate|]. apply Forall_forall. intros x X. apply repeat_spec in X. subst. split; [left; reflexivity|cbn; intuition discriminate].
Qed.

(** ** Paths relative to the current folder of a drive get to start from its root. *)
Theorem C114_relative_refuted : exists p u lossy, path2urlpath (lit "C:" ++ p) = Ok u /\ urlpath2path lossy u = Ok (lit "C:\" ++ p) /\
  exists v, path2urlpath (lit "C:\" ++ p) = Ok v /\ u = v.
Proof. exists (lit "x\y"), (lit "///C:/x/y"), (fun _ => []). repeat split. exists (lit "///C:/x/y"). repeat split. Qed.

(** ** Streams of files are read, but not written. *)
Theorem C114_streams_refuted : exists p, path2urlpath p = Raise IOError /\
  forall lossy, urlpath2path lossy (lit "///C:/f.txt%3Astream") = Ok p.
Proof. exists (lit "C:\f.txt:stream"). split; reflexivity. Qed.

Print Assumptions C114_url.
Print Assumptions C114_back.
Print Assumptions C114_round_trip.
Print Assumptions C114_any_slashes.
Print Assumptions C114_prefix_refuted.
Print Assumptions C114_library_prefix.
Print Assumptions C114_long_refuted.
Print Assumptions C114_relative_refuted.
Print Assumptions C114_streams_refuted.
