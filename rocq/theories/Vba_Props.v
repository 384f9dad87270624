(** * C96, C97: VBA modules of workbooks. *)
From Coq Require Import String.
From Verif Require Import PyBase PyBase_Proofs OsPath_Model Utils_Model Utils_Spec Utils_Proofs.
From Verif Require Bump_Proofs.
From Verif Require Import Vba_Model Vba_Spec Vba_Proofs.

(** ** C96: modules *)

(** Files are gathered by their stems, the last one of each. *)
Theorem C96_gather : forall files, NoDup (map fst (gather_files files)) /\
  forall n f, In (n, f) (gather_files files) <->
    exists pre post, files = pre ++ f :: post /\ stem f n /\ forall g, In g post -> ~ stem g n.
Proof. exact gather_spec. Qed.

(** Every file has a module if no two have the same stem... *)
Theorem C96_gather_all : forall files n f,
  (forall pre a mid b post m, files = pre ++ a :: mid ++ b :: post -> ~ (stem a m /\ stem b m)) ->
  In f files -> stem f n -> In (n, f) (gather_files files).
Proof.
  intros files n f H I S. apply C96_gather. apply in_split in I. destruct I as (pre & post & ->).
  exists pre, post. split; [reflexivity|]. split; [exact S|]. intros g Ig Sg.
  apply in_split in Ig. destruct Ig as (mid & rest & ->).
  exact (H pre f mid g rest n eq_refl (conj S Sg)).
Qed.
(** ...otherwise some are lost. *)
Theorem C96_gather_refuted : exists files f, In f files /\ forall n, ~ In (n, f) (gather_files files).
Proof.
  exists [lit "d/a.bas"; lit "d/a.cls"], (lit "d/a.bas"). split; [left; reflexivity|].
  intros n I. vm_compute in I. destruct I as [X|[]]. discriminate.
Qed.

(** Without names all modules are removed, and only they. *)
Theorem C96_remove_all : forall comps c,
  In c (remove_vba_modules comps []) <-> In c comps /\ c_type c <> 1%N.
Proof.
  intros comps c. unfold remove_vba_modules. split.
  - intros I. split; [exact (remove_sub _ _ _ I)|]. intros T.
    induction comps as [|c0 comps IH]; cbn [remove_loop] in I; [exact I|].
    destruct (c_type c0 =? 1)%N eqn:T0; [exact (IH I)|]. destruct I as [<-|I]; [|exact (IH I)].
    rewrite T in T0. discriminate.
  - intros [I T]. apply remove_kept; [exact I|left; exact T].
Qed.
(** Nothing is added, and what is no module or not named stays. *)
Theorem C96_remove_others : forall comps names c, names <> [] ->
  (In c (remove_vba_modules comps names) -> In c comps) /\
  (In c comps -> c_type c <> 1%N \/ (forall n, In n names -> ~ has_name n c) ->
   In c (remove_vba_modules comps names)).
Proof.
  intros comps names c Hn. unfold remove_vba_modules. split; [apply remove_sub|].
  intros I H. apply remove_kept; [exact I|]. destruct H as [H|H]; [left; exact H|]. right.
  destruct names as [|n0 names]; [congruence|]. split; [discriminate|].
  intros its X Y. injection X as <-. change (In (lower (c_name c)) (map lower (n0 :: names))) in Y.
  apply in_map_iff in Y. destruct Y as (n & E & In_). exact (H n In_ (eq_sym E)).
Qed.
(** The first ones, named in their order, are removed. *)
Theorem C96_remove_first : forall firsts rest names, names <> [] ->
  Forall2 has_name names firsts -> (forall c, In c firsts -> c_type c = 1%N) ->
  remove_vba_modules (firsts ++ rest) names = rest.
Proof.
  intros firsts rest names Hn F T. unfold remove_vba_modules.
  replace (match names with [] => None | _ :: _ => Some (map lower names) end)
    with (Some (map (fun c => lower (c_name c)) firsts)); [apply remove_first; exact T|].
  destruct names as [|n0 names]; [congruence|]. f_equal. clear Hn T.
  induction F as [|n c ns cs H F IH]; [reflexivity|]. cbn [map]. rewrite IH. f_equal. exact H.
Qed.
(** Others are not: the iterator of the names is spent by the first module. *)
Theorem C96_remove_refuted : exists comps c, In c comps /\ c_type c = 1%N /\
  In c (remove_vba_modules comps [c_name c]).
Proof.
  exists [Comp 1 (lit "a") []; Comp 1 (lit "b") []], (Comp 1 (lit "b") []).
  split; [right; left; reflexivity|]. split; [reflexivity|]. vm_compute. right. left. reflexivity.
Qed.

(** Imported modules replace those of their names (in any case) and all others
    stay as they were. *)
Theorem C96_import : forall load free_name cwd files comps,
  (forall n f, In (n, f) files -> load (osp_join cwd f) <> None) ->
  (forall n f c, In (n, f) files -> In c comps -> has_name n c -> c_type c <> 100%N) ->
  NoDup (map (fun x => lower (fst x)) files) ->
  exists olds news, import_vba_files load free_name cwd files comps = (olds ++ news, true) /\
    (forall c, In c olds <-> In c comps /\ forall n f, In (n, f) files -> ~ has_name n c) /\
    Forall2 (fun x c => exists c0, load (osp_join cwd (snd x)) = Some c0 /\
      c_name c = fst x /\ c_type c = c_type c0 /\ c_code c = c_code c0) files news.
Proof.
  intros load free_name cwd files comps Hl Ht Hd.
  destruct (import_done load free_name cwd files comps Hl Ht Hd) as (news & F & E).
  eexists. exists news. split; [exact E|]. split.
  - intros c. rewrite filter_In, negb_true_iff. split.
    + intros [I X]. split; [exact I|]. intros n f If Hc. apply named_iff in Hc.
      assert (Y : existsb (fun x => named (fst x) c) files = true); [|congruence].
      apply existsb_exists. exists (n, f). auto.
    + intros [I X]. split; [exact I|]. destruct (existsb _ files) eqn:Y; [|reflexivity].
      apply existsb_exists in Y. destruct Y as ([n f] & If & Y). apply named_iff in Y.
      exfalso. exact (X n f If Y).
  - clear -F. induction F as [|x c xs cs (c0 & L & ->) F IH]; constructor; [|exact IH].
    exists c0. auto.
Qed.
(** Files that cannot be read make it fail. *)
Theorem C96_import_all : forall load free_name cwd files comps comps',
  import_vba_files load free_name cwd files comps = (comps', true) ->
  forall n f, In (n, f) files -> load (osp_join cwd f) <> None.
Proof.
  intros load free_name cwd files. induction files as [|[n0 f0] files IH]; intros comps comps' E n f I; [destruct I|].
  cbn [import_vba_files] in E. destruct (load (osp_join cwd f0)) as [new|] eqn:L; [|discriminate E].
  destruct (existsb _ _); [discriminate E|].
  destruct I as [X|I]; [|exact (IH _ _ E n f I)]. injection X as -> ->. rewrite L. discriminate.
Qed.
Print Assumptions C96_import_all.

(** Stems that differ in case only: the last one stays. *)
Theorem C96_case_refuted : exists load files comps, NoDup (map fst files) /\ length files = 2%nat /\
  import_vba_files load (fun _ n => n) (lit "/w") files [] = (comps, true) /\ length comps = 1%nat.
Proof.
  exists (fun f => Some (Comp 1 (lit "x") f)), [(lit "Mod", lit "Mod.bas"); (lit "mod", lit "mod.bas")].
  eexists. split; [|split; [reflexivity|split; [vm_compute; reflexivity|reflexivity]]].
  repeat constructor; vm_compute; intuition discriminate.
Qed.
(** A document of that name makes it fail, with the module left under another
    name. *)
Theorem C96_document_refuted : exists load comps files comps',
  import_vba_files load (fun _ n => n ++ lit "1") (lit "/w") files comps = (comps', false) /\
  length comps' = 2%nat.
Proof.
  exists (fun f => Some (Comp 1 (lit "Sheet1") f)), [Comp 100 (lit "Sheet1") []], [(lit "Sheet1", lit "Sheet1.bas")].
  eexists. split; vm_compute; reflexivity.
Qed.

Example C96_example :
  let load f := Some (Comp 1 (lit "declared") (lit "code of " ++ f)) in
  let comps := [Comp 100 (lit "Sheet1") []; Comp 1 (lit "UTILS") (lit "old"); Comp 1 (lit "other") (lit "o")] in
  gather_files [lit "v/utils.bas"; lit "v/.hid"; lit "x.y.vba"]
    = [(lit "utils", lit "v/utils.bas"); (lit ".hid", lit "v/.hid"); (lit "x.y", lit "x.y.vba")] /\
  import_vba_files load (fun _ n => n) (lit "/w") (gather_files [lit "v/utils.bas"; lit "n.vba"]) comps
    = ([Comp 100 (lit "Sheet1") []; Comp 1 (lit "other") (lit "o");
        Comp 1 (lit "utils") (lit "code of /w/v/utils.bas"); Comp 1 (lit "n") (lit "code of /w/n.vba")], true) /\
  remove_vba_modules comps [lit "utils"; lit "Other"] = [Comp 100 (lit "Sheet1") []].
Proof. cbv zeta. repeat split; vm_compute; reflexivity. Qed.

(** ** C97: saving *)

Lemma ends_iff : forall path, str_eqb (skipn (length (lower (snd (splitext path))) - 1) (lower (snd (splitext path)))) (lit "m") = true
  <-> ext_ends path (chr "m").
Proof.
  intros path. destruct (splitext path) as [st e] eqn:S. cbn [snd].
  pose proof (splitext_spec _ _ _ S) as [X _].
  assert (L : forall e0 c, lower (e0 ++ [c]) = lower e0 ++ lower [c]) by (intros; apply map_app).
  assert (K : forall e0 c, skipn (length (lower (e0 ++ [c])) - 1) (lower (e0 ++ [c])) = lower [c]).
  { intros e0 c. rewrite L. rewrite app_length. replace (length (lower [c])) with 1 by reflexivity.
    replace (length (lower e0) + 1 - 1) with (length (lower e0)) by lia.
    rewrite skipn_app, skipn_all, Nat.sub_diag. reflexivity. }
  split.
  - intros E. apply str_eqb_eq in E. destruct e as [|c e0 _] using rev_ind; [discriminate|].
    rewrite K in E. exists st, e0, c. split; [exact X|exact E].
  - intros (st' & e0 & c & X' & E). destruct (extension_fun _ _ _ _ _ X X') as [_ ->].
    rewrite K, E. apply str_eqb_refl.
Qed.

(** How a workbook is saved: under the new name if there is one; otherwise in
    its place if its extension is one with macros, or else beside it. *)
Theorem C97_saving : forall cwd b new_fname,
  (forall c r, new_fname = Some (c :: r) -> save_macro_enabled cwd b new_fname = [SavedAs (c :: r)]) /\
  (new_fname = None \/ new_fname = Some [] -> ~ ext_ends (full_name b) (chr "m") ->
   save_macro_enabled cwd b new_fname = [SavedAs (full_name b ++ lit ".xlsm")]) /\
  (new_fname = None -> ext_ends (full_name b) (chr "m") -> b_path b <> [] ->
   save_macro_enabled cwd b new_fname = [Saved]) /\
  (new_fname = None -> ext_ends (full_name b) (chr "m") -> b_path b = [] ->
   save_macro_enabled cwd b new_fname = [SavedAs (osp_join cwd (b_name b))]).
Proof.
  intros cwd b new_fname. unfold save_macro_enabled. cbv zeta.
  pose proof (ends_iff (full_name b)) as K.
  destruct (str_eqb _ (lit "m")) eqn:E; (split; [intros c r ->; reflexivity|]).
  - apply proj1 in K. specialize (K eq_refl). split; [|split].
    + intros _ H. exfalso. exact (H K).
    + intros -> _ H. cbn [save_workbook]. destruct (b_path b); [congruence|reflexivity].
    + intros -> _ H. cbn [save_workbook]. rewrite H. reflexivity.
  - assert (N : ~ ext_ends (full_name b) (chr "m")) by (intros X; apply K in X; discriminate).
    split; [|split].
    + intros [ -> | -> ] _; cbn [save_workbook]; destruct (full_name b); reflexivity.
    + intros _ X. exfalso. exact (N X).
    + intros _ X. exfalso. exact (N X).
Qed.

(** Beside it means in its folder. *)
Theorem C97_saved_beside : forall cwd c p n comps, ~ ext_ends ((c :: p) ++ lit "/" ++ n) (chr "m") ->
  save_macro_enabled cwd (Book (c :: p) n comps) None = [SavedAs ((c :: p) ++ lit "/" ++ n ++ lit ".xlsm")].
Proof.
  intros cwd c p n comps H. destruct (C97_saving cwd (Book (c :: p) n comps) None) as (_ & X & _). rewrite X; [|now left|exact H].
  unfold full_name. cbn [b_path b_name]. rewrite <- !app_assoc. reflexivity.
Qed.
Print Assumptions C97_saved_beside.

(** Runs: the modules of the files get into the workbook, which is then saved
    once; nothing is saved otherwise. *)
Theorem C97_run : forall load free_name cwd glob open_book active denied wildcard fname new_fname b' saves,
  import_vba load free_name cwd glob open_book active denied wildcard fname new_fname = Ok (b', saves) ->
  exists b, (match fname with None | Some [] => active = Some b | Some f => open_book f = Some b end) /\
    denied b = false /\ b_path b' = b_path b /\ b_name b' = b_name b /\
    (glob wildcard = [] -> b' = b /\ saves = []) /\
    (glob wildcard <> [] ->
       import_vba_files load free_name cwd (gather_files (glob wildcard)) (b_comps b) = (b_comps b', true) /\
       saves = save_macro_enabled cwd b new_fname).
Proof.
  intros load free_name cwd glob open_book active denied wildcard fname new_fname b' saves E.
  unfold import_vba in E.
  destruct (match fname with None | Some [] => _ | Some f => _ end) as [b|x] eqn:Eb; [|discriminate].
  cbn [rbind] in E. exists b. split.
  { destruct fname as [[|c f]|]; [destruct active; congruence| |destruct active; congruence].
    destruct (open_book (c :: f)); congruence. }
  destruct (denied b); [discriminate|]. split; [reflexivity|].
  destruct (gather_files (glob wildcard)) as [|x files] eqn:G.
  - injection E as <- <-. split; [reflexivity|]. split; [reflexivity|]. split; [auto|]. intros Hg. exfalso.
    destruct (glob wildcard) as [|f fs _] using rev_ind; [congruence|].
    destruct (proj2 (C96_gather (fs ++ [f])) (basename f) f) as [_ H].
    rewrite G in H. apply H. exists fs, []. split; [reflexivity|]. split; [apply basename_stem|intros g []].
  - assert (Hg : glob wildcard <> []) by (intros X; rewrite X in G; discriminate).
    destruct (import_vba_files load free_name cwd (x :: files) (b_comps b)) as [comps [|]] eqn:I; [|discriminate].
    injection E as <- <-. split; [reflexivity|]. split; [reflexivity|]. split; [congruence|].
    intros _. split; reflexivity.
Qed.

(** Two arguments after the pattern are the workbook and the new file. *)
Theorem C97_main : forall load free_name cwd glob open_book active denied mydir cmd w a b,
  let main := main load free_name cwd glob open_book active denied mydir in
  let run := import_vba load free_name cwd glob open_book active denied in
  ((forall r, w <> lit "--" ++ r) ->
     main [cmd; w] = run w None None /\ main [cmd; w; a] = run w (Some a) None /\
     main [cmd; w; a; b] = run w (Some a) (Some b)) /\
  main [cmd; lit "--pandalone"; a] = run (osp_join mydir (lit "*.vba")) (Some a) None /\
  (w <> lit "--pandalone" -> (exists r, w = lit "--" ++ r) -> forall rest, exists n, main (cmd :: w :: rest) = Raise (OtherError n)).
Proof.
  intros load free_name cwd glob open_book active denied mydir cmd w a b. cbv zeta. split; [|split].
  - intros H. unfold main.
    assert (E1 : str_eqb w (lit "--pandalone") = false).
    { destruct (str_eqb w (lit "--pandalone")) eqn:E; [|reflexivity]. apply str_eqb_eq in E.
      exfalso. exact (H (lit "pandalone") E). }
    assert (E2 : starts_with (lit "--") w = false).
    { destruct (starts_with (lit "--") w) eqn:E; [|reflexivity]. apply Bump_Proofs.starts_with_app in E.
      destruct E as [r E]. exfalso. exact (H r E). }
    rewrite E1, E2. repeat split.
  - reflexivity.
  - intros Hp (r & ->) rest. exists 4. unfold main. destruct (str_eqb (lit "--" ++ r) (lit "--pandalone")) eqn:E.
    + apply str_eqb_eq in E. congruence.
    + reflexivity.
Qed.

(** The new name gets no extension. *)
Theorem C97_new_name_refuted : exists cwd b,
  save_macro_enabled cwd b (Some (lit "bar")) = [SavedAs (lit "bar")].
Proof. exists (lit "/w"), (Book (lit "/d") (lit "foo.xls") []). reflexivity. Qed.
(** Web pages pass for workbooks with macros. *)
Theorem C97_format_refuted : exists cwd b, b_name b = lit "page.htm" /\
  save_macro_enabled cwd b None = [Saved].
Proof. exists (lit "/w"), (Book (lit "/d") (lit "page.htm") []). split; [reflexivity|vm_compute; reflexivity]. Qed.
(** Nothing is saved under an empty name. *)
Theorem C97_empty_refuted : exists cwd b, b_name b = lit "x.xlsm" /\ save_macro_enabled cwd b (Some []) = [].
Proof. exists (lit "/w"), (Book (lit "/d") (lit "x.xlsm") []). split; [reflexivity|vm_compute; reflexivity]. Qed.

Example C97_example :
  let load f := Some (Comp 1 (lit "declared") f) in
  let run := import_vba load (fun _ n => n) (lit "/w") (fun w => if str_eqb w (lit "*.vba") then [lit "a.vba"] else [])
    (fun f => Some (Book (lit "/w") f [])) None (fun _ => false) in
  run (lit "*.vba") (Some (lit "foo.xls")) None
    = Ok (Book (lit "/w") (lit "foo.xls") [Comp 1 (lit "a") (lit "/w/a.vba")], [SavedAs (lit "/w/foo.xls.xlsm")]) /\
  run (lit "*.vba") (Some (lit "foo.XLSM")) None
    = Ok (Book (lit "/w") (lit "foo.XLSM") [Comp 1 (lit "a") (lit "/w/a.vba")], [Saved]) /\
  run (lit "*.bas") (Some (lit "foo.xls")) None = Ok (Book (lit "/w") (lit "foo.xls") [], []) /\
  run (lit "*.vba") None None = Raise ValueError.
Proof. cbv zeta. repeat split; vm_compute; reflexivity. Qed.

(** The active workbook is changed if none is named. *)
Example C97_active_example :
  import_vba (fun f => Some (Comp 1 (lit "declared") f)) (fun _ n => n) (lit "/w") (fun _ => [lit "a.vba"])
    (fun _ => None) (Some (Book (lit "/d") (lit "x.xlsm") [])) (fun _ => false) (lit "*") None None
    = Ok (Book (lit "/d") (lit "x.xlsm") [Comp 1 (lit "a") (lit "/w/a.vba")], [Saved]).
Proof. vm_compute. reflexivity. Qed.

Print Assumptions C96_gather.
Print Assumptions C96_gather_all.
Print Assumptions C96_gather_refuted.
Print Assumptions C96_remove_all.
Print Assumptions C96_remove_others.
Print Assumptions C96_remove_first.
Print Assumptions C96_remove_refuted.
Print Assumptions C96_import.
Print Assumptions C96_case_refuted.
Print Assumptions C96_document_refuted.
Print Assumptions C97_saving.
Print Assumptions C97_run.
Print Assumptions C97_main.
Print Assumptions C97_new_name_refuted.
Print Assumptions C97_format_refuted.
Print Assumptions C97_empty_refuted.
