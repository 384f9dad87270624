(** * Paths as URLs: references within the current folder *)
From Coq Require Import String Lia.
From Verif Require Import PyBase PyBase_Proofs OsPath_Spec Url_Spec FileUrl_Model FileUrl_Spec FileUrl_Proofs.

Lemma clean_text : forall p, Forall (fun c => ~ In c [9; 13; 10]%N) p -> (forall c r, p = c :: r -> (32 < c)%N) -> clean_url p = p.
Proof.
  intros p H F. unfold clean_url. destruct p as [|c r]; [reflexivity|].
  pose proof (F c r eq_refl) as L. cbn [drop_while]. rewrite (proj2 (N.leb_gt c 32) L).
  clear F L. induction H as [|x l Hx Hl IH]; [reflexivity|]. cbn [filter].
  assert (existsb (N.eqb x) [9; 13; 10]%N = false) as ->.
  { destruct (existsb (N.eqb x) [9; 13; 10]%N) eqn:E; [|reflexivity]. apply existsb_exists in E. destruct E as (y & I & Y).
    apply N.eqb_eq in Y. subst y. destruct (Hx I). }
  cbn [negb]. now rewrite IH.
Qed.
Lemma plain_text : forall p, plain_chars p -> Forall (fun c => ~ In c [9; 13; 10]%N) p.
Proof. intros p H. eapply Forall_impl; [|exact H]. cbv beta. intros c N I. apply N. cbn [In] in *. intuition. Qed.

Definition marked (m : N) : Prop := m = 35%N \/ m = 63%N.
Definition parts (m : N) (T f : pystr) : split_result :=
  {| u_scheme := lit "file"; u_netloc := []; u_path := T;
     u_query := if (m =? 63)%N then f else []; u_fragment := if (m =? 35)%N then f else [] |}.
Lemma split_marked : forall m T f, marked m -> plain_chars T -> plain_chars f ->
  (let (u, fragment) := split1 (chr "#") (T ++ m :: f) in let (u, query) := split1 (chr "?") u in
   Ok {| u_scheme := lit "file"; u_netloc := []; u_path := u; u_query := query; u_fragment := fragment |}) = Ok (parts m T f).
Proof.
  intros m T f M PT Pf. change (chr "#") with 35%N. change (chr "?") with 63%N. unfold split1.
  destruct M as [-> | ->].
  - rewrite partition1_app by (apply plain_not; [exact PT|cbn [In]; tauto]).
    rewrite partition1_none by (apply plain_not; [exact PT|cbn [In]; tauto]). reflexivity.
  - rewrite partition1_none.
    + rewrite partition1_app by (apply plain_not; [exact PT|cbn [In]; tauto]). reflexivity.
    + intros I. apply in_app_or in I. destruct I as [I|[I|I]]; [|discriminate|].
      * revert I. apply plain_not; [exact PT|cbn [In]; tauto].
      * revert I. apply plain_not; [exact Pf|cbn [In]; tauto].
Qed.

Section Refs.
  Variable bad_host : pystr -> bool.
  Lemma check_empty : check_netloc bad_host [] = true.
  Proof. reflexivity. Qed.
  Lemma marked_split : forall m f, marked m -> plain_chars f -> urlsplit bad_host (m :: f) (lit "file") = Ok (parts m [] f).
  Proof.
    intros m f M P. unfold urlsplit. rewrite clean_text.
    2:{ constructor; [destruct M as [-> | ->]; cbn [In]; lia|now apply plain_text]. }
    2:{ intros c r E. injection E as <- _. destruct M as [-> | ->]; reflexivity. }
    rewrite no_scheme.
    2:{ intros a b E (c & r & Ea & L & _). subst a. injection E as E _. subst c. destruct M as [-> | ->]; unfold letter in L; lia. }
    assert (starts_with (lit "//") (m :: f) = false) as -> by (destruct M as [-> | ->]; reflexivity).
    rewrite <- (split_marked m [] f M (Forall_nil _) P). cbn [app].
    destruct (split1 (chr "#") (m :: f)) as [u fr]. destruct (split1 (chr "?") u) as [u' q]. rewrite check_empty. reflexivity.
  Qed.
  Lemma folder_split : forall m T f s, marked m -> plain_chars T -> (exists r, T = 47%N :: r) -> plain_chars f ->
    urlsplit bad_host (lit "file://" ++ T ++ m :: f) s = Ok (parts m T f).
  Proof.
    intros m T f s M PT (r & R) P. unfold urlsplit. rewrite clean_text.
    2:{ apply Forall_app. split; [apply plain_text, file_plain|]. apply Forall_app. split; [now apply plain_text|].
        constructor; [destruct M as [-> | ->]; cbn [In]; lia|now apply plain_text]. }
    2:{ intros c x E. injection E as <- _. reflexivity. }
    unfold split_scheme. change (lit "file://" ++ T ++ m :: f) with (lit "file" ++ 58%N :: (47%N :: 47%N :: T ++ m :: f)).
    rewrite (partition1_app 58%N).
    2:{ change (lit "file") with [102; 105; 108; 101]%N. cbn [In]. lia. }
    change (match lit "file" with [] => (s, lit "file" ++ 58%N :: 47%N :: 47%N :: T ++ m :: f)
      | c :: _ => if is_alpha c && forallb scheme_char (lit "file") then (lower (lit "file"), 47%N :: 47%N :: T ++ m :: f)
                  else (s, lit "file" ++ 58%N :: 47%N :: 47%N :: T ++ m :: f) end)
      with (lit "file", 47%N :: 47%N :: T ++ m :: f).
    cbv iota. rewrite starts2. change (skipn 2 (47%N :: 47%N :: T ++ m :: f)) with (T ++ m :: f).
    assert (splitnetloc (T ++ m :: f) = ([], T ++ m :: f)) as -> by (rewrite R; reflexivity).
    rewrite <- (split_marked m T f M PT P).
    destruct (split1 (chr "#") (T ++ m :: f)) as [u fr]. destruct (split1 (chr "?") u) as [u' q]. rewrite check_empty. reflexivity.
  Qed.
  Lemma unsplit_marked : forall m T f, marked m -> (exists r, T = 47%N :: r) -> f <> [] -> urlunsplit (parts m T f) = lit "file://" ++ T ++ m :: f.
  Proof.
    intros m T f M (r & ->) N. unfold urlunsplit, parts. cbn [u_path u_netloc u_scheme u_query u_fragment].
    apply str_eqb_neq in N. destruct M as [-> | ->]; cbn [N.eqb Pos.eqb]; rewrite N; cbn; now rewrite <- ?app_assoc.
  Qed.

  Variables expandvars expanduser_tilde : pystr -> pystr.
  (** A query or a fragment alone is one of the current folder. *)
  Theorem C88_references : forall cwd m f users,
    Forall name cwd -> Forall (Forall scalar) cwd -> cwd <> [] -> m = 35%N \/ m = 63%N -> plain_chars f -> f <> [] ->
    exists path quoted,
      path2url bad_host expandvars expanduser_tilde (folder_path cwd) (m :: f) false users = Ok (lit "file://" ++ path ++ m :: f) /\
      Forall2 (fun u n => url_path u /\ reads u n) quoted cwd /\ file_path True quoted path.
  Proof.
    intros cwd m f users N S NE M P Nf. destruct (quote_cwd cwd N S) as (q & F & R & PQ & Q).
    assert (Nq : q <> []) by (intros ->; inversion F; subst; now apply NE).
    exists (target true q), q. split.
    2:{ split; [|apply target_file_path; tauto]. eapply Forall2_impl; [|exact F]. cbv beta. intros u n U. apply quoted_reads. exact U. }
    assert (B : base_path q = target true q) by (rewrite base_target; destruct q; [now destruct Nq|reflexivity]).
    assert (PT : plain_chars (target true q)) by (apply sum_target_plain; exact PQ).
    assert (TJ : exists r, target true q = 47%N :: r) by (rewrite target_join; eexists; reflexivity).
    unfold path2url. change (str_eqb (m :: f) []) with false. cbv iota zeta.
    assert (NB : ~ In 92%N (m :: f)).
    { intros [I|I]; [destruct M as [-> | ->]; discriminate|]. revert I. apply plain_not; [exact P|cbn [In]; tauto]. }
    rewrite no_unc by exact NB. rewrite unbackslash_same by exact NB.
    assert (match_drive (m :: f) = None) as -> by (destruct M as [-> | ->]; destruct f; reflexivity).
    change (lit "/") with [47%N]. rewrite Q. cbn [rbind]. rewrite base_url by assumption. cbn [rbind]. rewrite B.
    unfold urljoin at 1. change (str_eqb (lit "file://" ++ target true q) []) with false. change (str_eqb (m :: f) []) with false. cbv iota.
    rewrite urlparse_file by (exact PT || (right; exact TJ)). cbn [rbind]. change (u_scheme (local_parts (target true q))) with (lit "file").
    unfold urlparse. rewrite marked_split by assumption. cbn [rbind]. change (in_list (u_scheme (parts m [] f)) uses_params) with false. cbv iota. cbn [rbind].
    change (negb (str_eqb (u_scheme (parts m [] f)) (lit "file")) || negb (in_list (u_scheme (parts m [] f)) uses_relative)) with false. cbv iota.
    change (in_list (u_scheme (parts m [] f)) uses_netloc && negb (str_eqb (u_netloc (parts m [] f)) [])) with false. cbv iota zeta.
    change (str_eqb (u_path (parts m [] f)) [] && str_eqb [] []) with true. cbv iota.
    assert (E : urlunparse {| u_scheme := u_scheme (parts m [] f); u_netloc := if in_list (u_scheme (parts m [] f)) uses_netloc then u_netloc (local_parts (target true q)) else u_netloc (parts m [] f);
        u_path := u_path (local_parts (target true q)); u_query := if str_eqb (u_query (parts m [] f)) [] then u_query (local_parts (target true q)) else u_query (parts m [] f);
        u_fragment := u_fragment (parts m [] f) |} [] = lit "file://" ++ target true q ++ m :: f).
    { rewrite <- unsplit_marked by assumption. unfold urlunparse, parts. cbn [u_path u_netloc u_scheme u_query u_fragment local_parts].
      destruct M as [-> | ->]; cbn [N.eqb Pos.eqb]; [reflexivity|]. apply str_eqb_neq in Nf. rewrite Nf. reflexivity. }
    rewrite E. cbn [rbind]. rewrite folder_split by assumption. cbn [rbind]. change (u_path (parts m (target true q) f)) with (target true q).
    assert ((if str_eqb (u_scheme (parts m (target true q) f)) (lit "file") && users
             then expanduser expanduser_tilde (target true q) else target true q) = target true q) as ->.
    { destruct TJ as (r & ->). destruct users; reflexivity. }
    rewrite normpath_target by assumption. rewrite unbackslash_same by (apply plain_not; [exact PT|cbn [In]; tauto]).
    change (Ok (urlunsplit (parts m (target true q) f)) = Ok (lit "file://" ++ target true q ++ m :: f)). now rewrite unsplit_marked.
  Qed.
End Refs.
Print Assumptions C88_references.
Example C88_references_example :
  path2url (fun _ => false) (fun s => s) (fun s => s) (lit "/tmp/a b") (lit "#Sheet1!A1") false true = Ok (lit "file:///tmp/a%20b/#Sheet1!A1").
Proof. reflexivity. Qed.
