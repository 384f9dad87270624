(** * File paths on Windows: theorems *)
From Coq Require Import String Lia.
From Verif Require Import PyBase PyBase_Proofs OsPath_Model OsPath_Spec OsPath_Proofs WinPath_Model WinPath_Spec WinPath_Proofs.

Lemma bare_letter : forall p c, legal p -> nt_normpath p = [c; 58%N] -> r_drive (read p) = [c; 58%N] /\ r_root (read p) = false /\ ~ moves p.
Proof.
  intros p c L E. destruct (nt_reads p L) as ((D & R) & W & _). assert (N := nt_no_slash p L). rewrite E in *.
  assert (Nc : c <> 92%N).
  { intros ->. destruct (nt_reads p L) as (_ & _ & L'). rewrite E in L'. specialize (L' eq_refl). cbn in L'. inversion L' as [|? ? _ H]; subst. inversion H as [|? ? X _]; subst. apply X. exists []. now left. }
  assert (RL := read_letter c [] ltac:(intros ->; apply N; now left) ltac:(intros []) Nc). rewrite RL in D, R. cbn [r_drive r_root] in *.
  split; [auto|]. split; [auto|]. intros (cur & M). apply M. rewrite <- W. unfold place. rewrite RL, <- D. reflexivity.
Qed.

Lemma keep_place : forall p cur, legal p -> nt_normpath p <> [] -> ~ ends_backslash (nt_normpath p) -> r_names (read (nt_normpath p)) <> [] -> (forall c, nt_normpath p <> [c; 58%N]) ->
  same_start (nt_normpath p ++ [92%N]) p /\ place cur (nt_normpath p ++ [92%N]) = place cur p /\ legal (nt_normpath p ++ [92%N]).
Proof.
  intros p cur L Nn Nb Ns Nc. destruct (nt_reads p L) as ((D & R) & W & L'). assert (K := keep_read _ (nt_no_slash p L) Nn Nb Ns Nc). unfold same_start, place, legal in *.
  specialize (W cur). rewrite K. cbn [r_drive r_root r_names]. rewrite <- W, walk_app. split; [auto|]. split; [reflexivity|]. intros X. apply Forall_app. split; [exact (L' X)|].
  constructor; [|constructor]. intros (s & [E|(c & E)]); discriminate.
Qed.

(** A normalised path leads to the same place, unless it is but the current folder of a drive. *)
Theorem C116_same_place : forall p cur, legal p -> ~ In 10%N p ->
  (forall c, r_drive (read p) <> [c; 58%N]) \/ r_root (read p) = true \/ moves p -> place cur (win_normpath p) = place cur p.
Proof.
  intros p cur L N H. destruct (win_cases p L N) as [-> |(-> & Nb & Ns & _)]; [apply nt_reads; exact L|].
  apply (keep_place p cur L (nt_not_nil p L) Nb Ns). intros c E. destruct (bare_letter p c L E) as (D & R & M). destruct H as [H|[H|H]]; [exact (H c D)|congruence|contradiction].
Qed.
Example C116_same_place_example :
  place (fun _ => [lit "x"]) (win_normpath (lit "d:a/../b/../../c/")) = (lit "d:", [lit "c"]) /\ place (fun _ => [lit "x"]) (lit "d:a/../b/../../c/") = (lit "d:", [lit "c"]) /\
  map (fun p => show (win_normpath (lit p))) ["d:a/../b/../../c/"; "\\?\unc\h\s\x\..\..\y"; "//h/s"; "//h/s/../a/"; "C:/../x//./y"; ""; "./"]%string
  = ["d:..\c\"; "\\?\unc\h\s\y"; "\\h\s"; "\\h\s\a\"; "C:\x\y"; "."; ".\"]%string.
Proof. repeat split. Qed.

(** Paths of the same place are normalised alike, up to a last backslash. *)
Theorem C116_canonical : forall p q, legal p -> legal q -> r_drive (read p) = r_drive (read q) -> r_root (read p) = r_root (read q) ->
  (forall cur, place cur p = place cur q) ->
  exists n, (win_normpath p = n \/ win_normpath p = n ++ [92%N]) /\ (win_normpath q = n \/ win_normpath q = n ++ [92%N]).
Proof.
  intros p q Lp Lq D R H. exists (nt_normpath p). unfold win_normpath. rewrite <- (nt_canonical p q Lp Lq (conj D R) H). change (lit "\") with [92%N].
  destruct (_ && _)%bool, (_ && _)%bool; auto.
Qed.
Example C116_canonical_example : win_normpath (lit "//h\s/a/.././b") = lit "\\h\s\b" /\ win_normpath (lit "\\h/s\../b/") = lit "\\h\s\b\".
Proof. split; reflexivity. Qed.

(** Only backslashes are used, *)
Theorem C116_backslashes : forall p, legal p -> ~ In 47%N (win_normpath p).
Proof.
  intros p L I. unfold win_normpath in I. destruct (_ && _)%bool in I; [|exact (nt_no_slash p L I)]. apply in_app_iff in I. destruct I as [I|[I|[]]]; [exact (nt_no_slash p L I)|discriminate].
Qed.

Example C116_backslashes_example : legal (lit "C:/a/b") /\ win_normpath (lit "C:/a/./b") = lit "C:\a\b".
Proof. split; [discriminate|reflexivity]. Qed.

(** a last separator is kept, *)
Theorem C116_keeps : forall p q c s, ~ In 10%N p -> p = q ++ [c; s] -> (s = 47 \/ s = 92)%N -> c <> 47%N -> c <> 92%N -> ends_backslash (win_normpath p).
Proof.
  intros p q c s N E Hs C1 C2. assert (D : is_dir p = true) by (apply (is_dir_win p N); exists q, c, s; split; [exact E|]; split; [intros [X|X]; contradiction|exact Hs]).
  unfold win_normpath. rewrite D. change (lit "\") with [92%N]. destruct (ends_with [92%N] (nt_normpath p)) eqn:X; [apply split_end; exact X|]. eexists. reflexivity.
Qed.
Example C116_keeps_example : win_normpath (lit "a/b\..\c/") = lit "a\c\".
Proof. reflexivity. Qed.

(** and none is added, but to roots. *)
Theorem C116_adds_none : forall p, legal p -> ~ In 10%N p -> ends_backslash (win_normpath p) -> ends_sep p \/ win_normpath p = r_drive (read p) ++ [92%N].
Proof.
  intros p L N H. destruct (win_cases p L N) as [E|(_ & _ & _ & D)].
  2:{ left. apply (is_dir_win p N) in D. destruct D as (q & c & s & -> & _ & Hs). exists (q ++ [c]), s. rewrite <- app_assoc. auto. }
  rewrite E in *. destruct (nt_form p L) as (u & names & A & B & U & E' & _ & I). assert (B' : Forall (fun n => ~ In 92%N n) (repeat DD u ++ names)).
  { apply Forall_app. split; [|exact B]. apply Forall_forall. intros n X. apply repeat_spec in X. subst. intros [X|[X|[]]]; discriminate. }
  assert (P := parts_form u names A). rewrite E' in *. destruct (repeat DD u ++ names) as [|x l] eqn:EL.
  - unfold wrender in *. cbn [join] in *. rewrite !app_nil_r in *. destruct (r_root (read p)) eqn:Er; [right; destruct (r_drive (read p)); reflexivity|]. left.
    rewrite app_nil_r in H. destruct (reads p L) as (rest & _ & J & _ & _ & _ & _ & Eb & Emp).
    destruct (r_drive (read p)) as [|d ds] eqn:Ed; [destruct H as ([|? ?] & X); [discriminate|destruct l; discriminate]|].
    rewrite <- Ed in *. assert (X := proj2 (split_end _) H). destruct (Emp (Eb Er X)) as (-> & _). rewrite app_nil_r in J. destruct H as (q & H). rewrite J in H.
    destruct p as [|c p] using rev_ind; [destruct q; discriminate|]. rewrite bs_app in H. cbn [backslashed map] in H. apply app_inj_tail in H. destruct H as (_ & H).
    exists p, c. split; [reflexivity|]. destruct (N.eqb_spec c 47); auto.
  - exfalso. assert (Lst : exists q c, join [92%N] (x :: l) = q ++ [c] /\ c <> 92%N).
    { clear - P B'. revert x P B'. induction l as [|y l IH]; intros x P B'.
      - cbn [join]. inversion P as [|? ? Px _]; inversion B' as [|? ? Bx _]; subst. destruct (part_first x Px) as (c & s & E & _).
        destruct x as [|z x] using rev_ind; [discriminate|]. exists x, z. split; [reflexivity|]. intros ->. apply Bx, in_app_iff. right. now left.
      - inversion P; inversion B'; subst. destruct (IH y) as (q & c & E & Hc); auto. change (join [92%N] (x :: y :: l)) with (x ++ 92%N :: join [92%N] (y :: l)). rewrite E.
        exists (x ++ 92%N :: q), c. split; [rewrite <- app_assoc; reflexivity|exact Hc]. }
    destruct Lst as (q & c & E1 & Hc). assert (W : wrender (r_drive (read p)) (r_root (read p)) (x :: l) = (r_drive (read p) ++ (if r_root (read p) then [92%N] else []) ++ q) ++ [c]).
    { unfold wrender. rewrite E1, <- !app_assoc. destruct (r_drive (read p)), (r_root (read p)); reflexivity. }
    rewrite W in H. destruct H as (q' & H). apply app_inj_tail in H. destruct H; contradiction.
Qed.
Example C116_adds_none_example : win_normpath (lit "c:/a/..") = lit "c:\" /\ win_normpath (lit "c:a") = lit "c:a" /\ win_normpath (lit "\\h\s\a") = lit "\\h\s\a".
Proof. repeat split. Qed.

(** Again changes nothing. *)
Theorem C116_idempotent : forall p, legal p -> ~ In 10%N p -> win_normpath (win_normpath p) = win_normpath p.
Proof.
  intros p L N. assert (NN := nt_no_newline p L N). assert (NS := nt_no_slash p L). assert (Nn := nt_not_nil p L).
  assert (K : forall m, ~ In 10%N m -> ~ In 47%N m -> nt_normpath m = m -> win_normpath m = m).
  { intros m M1 M2 E. unfold win_normpath. rewrite E. change (lit "\") with [92%N]. destruct (is_dir m) eqn:D; [|reflexivity]. apply (is_dir_win m M1) in D. destruct D as (q & c & s & Em & _ & [-> | ->]).
    - destruct M2. rewrite Em. apply in_app_iff. right. right. now left.
    - assert (ends_with [92%N] m = true) as -> by (apply split_end; exists (q ++ [c]); rewrite Em, <- app_assoc; reflexivity). reflexivity. }
  destruct (win_cases p L N) as [-> |(-> & Nb & Ns & _)]; [apply K; auto; now apply nt_idem|]. set (m := nt_normpath p) in *.
  assert (Nm : ~ In 10%N (m ++ [92%N])) by (intros I; apply in_app_iff in I; destruct I as [I|[I|[]]]; [contradiction|discriminate]).
  assert (Sm : ~ In 47%N (m ++ [92%N])) by (intros I; apply in_app_iff in I; destruct I as [I|[I|[]]]; [contradiction|discriminate]).
  assert (C : (exists c, m = [c; 58%N]) \/ forall c, m <> [c; 58%N]).
  { destruct m as [|a [|b [|? ?]]]; try (right; discriminate). destruct (N.eqb_spec b 58) as [->|X]; [left; eauto|right; congruence]. }
  destruct C as [(c & Em)|Nc].
  - apply K; auto. assert (c <> 47%N /\ c <> 92%N) as (C1 & C2).
    { split; [intros ->; apply NS; rewrite Em; now left|]. intros ->. destruct (nt_reads p L) as (_ & _ & L'). fold m in L'. rewrite Em in L'. specialize (L' eq_refl). cbn in L'.
      inversion L' as [|? ? _ H]; subst. inversion H as [|? ? X _]; subst. apply X. exists []. now left. }
    rewrite Em. cbn [app]. assert (R := read_letter c [92%N] C1 ltac:(intros [X|[]]; discriminate) C2).
    rewrite nt_is by (unfold legal; rewrite R; discriminate). rewrite R. reflexivity.
  - assert (KP := fun cur => keep_place p cur L Nn Nb Ns Nc). fold m in KP. destruct (KP (fun _ => [])) as (SS & _ & L2).
    assert (E : nt_normpath (m ++ [92%N]) = m) by (apply nt_canonical; auto; intros cur; apply KP).
    unfold win_normpath. rewrite E. assert (is_dir (m ++ [92%N]) = true) as ->.
    { apply (is_dir_win _ Nm). destruct m as [|x m'] eqn:Q using rev_ind; [congruence|]. exists m', x, 92%N. rewrite <- app_assoc. split; [reflexivity|]. split; [|now right].
      intros [-> | ->]; [apply NS; apply in_app_iff; right; now left|apply Nb; exists m'; reflexivity]. }
    change (lit "\") with [92%N]. destruct (ends_with [92%N] m) eqn:X; [|reflexivity]. apply (proj1 (split_end m)) in X. contradiction.
Qed.
Example C116_idempotent_example : win_normpath (win_normpath (lit "c:x/../y/")) = lit "c:y\" /\ win_normpath (lit "c:x/../y/") = lit "c:y\".
Proof. split; reflexivity. Qed.

(** The current folder of a drive becomes the drive's root. *)
Theorem C116_folder_refuted : exists p, legal p /\ ~ In 10%N p /\ win_normpath p = lit "c:\" /\ exists cur, place cur (win_normpath p) <> place cur p.
Proof.
  exists (lit "c:x/../"). split; [discriminate|]. split; [intros I; cbn in I; repeat destruct I as [I|I]; discriminate || destruct I|]. split; [reflexivity|].
  exists (fun _ => [lit "home"]). discriminate.
Qed.
(** Names become drives, and then again another path. *)
Theorem C116_drivelike_refuted :
  win_normpath (lit "./c:x") = lit "c:x" /\ r_drive (read (lit "./c:x")) = [] /\ r_drive (read (lit "c:x")) = lit "c:" /\
  win_normpath (lit "./c:./x") = lit "c:.\x" /\ win_normpath (lit "c:.\x") = lit "c:x".
Proof. repeat split. Qed.
(** Two separators at the end are not kept. *)
Theorem C116_keeps_refuted : legal (lit "a//") /\ win_normpath (lit "a//") = lit "a".
Proof.
  split; [|reflexivity]. intros _. cbn. repeat constructor; intros (s & [E|(c & E)]); discriminate.
Qed.

Print Assumptions C116_same_place.
Print Assumptions C116_canonical.
Print Assumptions C116_backslashes.
Print Assumptions C116_keeps.
Print Assumptions C116_adds_none.
Print Assumptions C116_idempotent.
Print Assumptions C116_folder_refuted.
Print Assumptions C116_drivelike_refuted.
Print Assumptions C116_keeps_refuted.
