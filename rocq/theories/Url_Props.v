(** * URL paths: properties *)
From Coq Require Import String Lia.
From Verif Require Import PyBase PyBase_Proofs OsPath_Model OsPath_Spec OsPath_Proofs Url_Model Url_Spec Url_Proofs.

(** File paths become URL paths, and those become the same file paths again. *)
Theorem C85_round_trip : forall lossy p,
  ~ In 92%N p -> (forall q, p <> q ++ [10%N]) -> Forall scalar p -> length p <= 200 ->
  exists u, path2urlpath p = Ok u /\ url_path u /\ urlpath2path lossy u = p.
Proof.
  intros lossy p A B S L. destruct (path2urlpath_ok p A S) as [u E]. exists u. split; [exact E|].
  split; [|exact (round_trip lossy p u A B L E)].
  exact (proj2 (unquote_quote lossy p u (path2urlpath_quote p u A B E))).
Qed.
Print Assumptions C85_round_trip.

(** They end in a slash together. *)
Theorem C85_last_slash : forall p u,
  ~ In 92%N p -> (forall q, p <> q ++ [10%N]) -> path2urlpath p = Ok u ->
  ends_slash u <-> ends_slash p.
Proof.
  intros p u A B E. apply path2urlpath_quote in E; [|exact A|exact B]. split.
  - exact (unquote_slash_end p u E).
  - intros [q ->]. exact (quote_slash_end q u E).
Qed.
Print Assumptions C85_last_slash.

(** Paths of unreserved characters and slashes are URL paths already. *)
Theorem C85_unreserved : forall p, Forall (fun c => unreserved c \/ c = 47%N) p ->
  path2urlpath p = Ok p.
Proof.
  intros p H.
  assert (A : forall c, c = 92%N \/ c = 10%N -> ~ In c p).
  { intros c D I. rewrite Forall_forall in H. specialize (H c I). unfold unreserved in H. lia. }
  destruct (path2urlpath_ok p) as [u E]; [apply A; auto| |].
  - refine (Forall_impl _ _ H). intros c D. unfold unreserved in D. unfold scalar. lia.
  - rewrite E. apply path2urlpath_quote in E.
    + rewrite quote_safe in E by exact H. symmetry. exact E.
    + apply A; auto.
    + intros q ->. apply (A 10%N); [auto|]. apply in_app_iff. right. left. reflexivity.
Qed.
Print Assumptions C85_unreserved.

(** Long paths get the prefix of long paths at their end. *)
Theorem C85_long_refuted : exists p u, plain p /\ path2urlpath p = Ok u /\
  forall lossy, urlpath2path lossy u = p ++ unc_prefix.
Proof.
  exists (repeat 97%N 201). eexists. split.
  { split; intro H; apply repeat_spec in H; discriminate. }
  split; [vm_compute; reflexivity|]. intro lossy. reflexivity.
Qed.
Print Assumptions C85_long_refuted.

(** A backslash at the end becomes a slash after it. *)
Theorem C85_backslash_refuted : exists p u, path2urlpath p = Ok u /\
  forall lossy, urlpath2path lossy u = p ++ lit "/".
Proof. exists (lit "a\"). eexists. split; [vm_compute; reflexivity|]. intro lossy. reflexivity. Qed.
Print Assumptions C85_backslash_refuted.

(** Of the prefix of long paths, a backslash is left. *)
Theorem C85_prefix_refuted : exists p u, path2urlpath (unc_prefix ++ p) = Ok u /\
  forall lossy, urlpath2path lossy u = lit "\" ++ p.
Proof. exists (lit "C:\x"). eexists. split; [vm_compute; reflexivity|]. intro lossy. reflexivity. Qed.
Print Assumptions C85_prefix_refuted.

(** File names that are not UTF-8 (Python has surrogates in them) have no URL path. *)
Theorem C85_surrogate_refuted : exists p, plain p /\ path2urlpath p = Raise ValueError.
Proof.
  exists [56448%N]. split; [|reflexivity]. split; intros [E|[]]; discriminate.
Qed.
Print Assumptions C85_surrogate_refuted.

(** "/a b/é€𝄞%/" *)
Example C85_example :
  let p := (lit "/a b/" ++ [233; 8364; 119070; 37; 47])%N in
  exists u, path2urlpath p = Ok u /\ show u = "/a%20b/%C3%A9%E2%82%AC%F0%9D%84%9E%25/"%string /\
    urlpath2path (fun _ => []) u = p.
Proof. eexists. split; [vm_compute; reflexivity|]. split; reflexivity. Qed.

Example C85_unquote_example :
  map (fun u => show (urlpath2path (fun _ => lit "?") (lit u))) ["a%2fb%2"; "x%zz"; "%ff"; "d%20/"]%string
  = ["a/b%2"; "x%zz"; "?"; "d /"]%string.
Proof. reflexivity. Qed.

(** Any URL path reads as its percent-encoded bytes (digits of either case) say in UTF-8; other
    characters stay. *)
Theorem C85_reads : forall lossy u s,
  ~ In 92%N u -> (forall q, u <> q ++ [10%N]) -> reads u s -> length s <= 200 ->
  urlpath2path lossy u = s.
Proof. exact urlpath_reads. Qed.
Print Assumptions C85_reads.

(** Only bytes that are not UTF-8 are read by the decoder's replacement. *)
Theorem C85_not_utf8 : forall lossy u bs,
  ~ In 92%N u -> (forall q, u <> q ++ [10%N]) -> ~ ends_slash u ->
  spells u bs -> ~ (exists s, utf8_text s bs) -> length (lossy bs) <= 200 ->
  urlpath2path lossy u = lossy bs.
Proof.
  intros lossy u bs A B D S N L. unfold urlpath2path, unquote.
  rewrite runs_ascii by exact (spells_ascii _ _ S). cbn [rev app]. rewrite (spells_unquote _ _ S).
  unfold decode_replace. destruct (utf8_decode bs) as [s|] eqn:E; [destruct N; exists s; exact (text_decode _ _ E)|].
  assert (K : keep_slash u (lossy bs) = lossy bs).
  { rewrite keep_slash_spec. destruct (is_dir u) eqn:I; [|reflexivity].
    destruct (D (is_dir_ends u A B I)). }
  rewrite K. destruct (Nat.ltb_spec 200 (length (lossy bs))); [lia|reflexivity].
Qed.
Print Assumptions C85_not_utf8.

(** "é%c3%A9%4" reads "éé%4"; "%E0%80%AF", an overlong slash, is not UTF-8. *)
Example C85_reads_example :
  (reads (233 :: lit "%c3%A9%4") (233 :: 233 :: lit "%4") /\
   exists bs, spells (lit "%E0%80%AF") bs /\ ~ (exists s, utf8_text s bs))%N.
Proof.
  split.
  - apply (ROther [] [] []); [constructor|constructor|lia|].
    apply (RRun (lit "%c3%A9%4") [195; 169; 37; 52]%N).
    + apply (SByte (chr "c") (chr "3") 12 3); [exact (HLower 12 ltac:(lia))|exact (HDigit 3 ltac:(lia))|].
      apply (SByte (chr "A") (chr "9") 10 9); [exact (HUpper 10 ltac:(lia))|exact (HDigit 9 ltac:(lia))|].
      apply SPercent; [intros []|]. apply SChar; [reflexivity|discriminate|constructor].
    + apply (TCons 233 [195; 169]%N); [exact (U2 3 41 ltac:(lia) ltac:(lia))|].
      apply (TCons 37 [37]%N); [apply U1; reflexivity|]. apply (TCons 52 [52]%N); [apply U1; reflexivity|constructor].
  - exists [224; 128; 175]%N. split.
    + apply (SByte (chr "E") (chr "0") 14 0); [exact (HUpper 14 ltac:(lia))|exact (HDigit 0 ltac:(lia))|].
      apply (SByte (chr "8") (chr "0") 8 0); [exact (HDigit 8 ltac:(lia))|exact (HDigit 0 ltac:(lia))|].
      apply (SByte (chr "A") (chr "F") 10 15); [exact (HUpper 10 ltac:(lia))|exact (HUpper 15 ltac:(lia))|constructor].
    + intros [s T]. apply decode_text in T. discriminate.
Qed.
