(** * The long description of the package: theorems *)
From Coq Require Import String Lia.
From Verif Require Import PyBase PyBase_Proofs Rst_Model Rst_Spec Rst_Proofs.

(** ** C117: the long description has no markup of Sphinx *)

(** Lines of texts and roles get what stands for the roles, and have no role any more. *)
Theorem C117_roles : forall beyond ps s, line_ok beyond ps -> line_becomes ps s -> quiet s ->
  clean_line beyond (render ps) = s /\ ~ has_role beyond s.
Proof.
  intros beyond ps s O B Q. destruct (roles_done beyond ps s O B) as [A C]. split.
  - unfold clean_line. rewrite substs_are, fold_left_app, A. now apply quiet_lits.
  - intros (w & t & _ & _ & x & y & ->). apply C. exists (x ++ 58%N :: w), (t ++ 96%N :: y). unfold role_text. cbn. now rewrite <- !app_assoc; cbn; rewrite <- !app_assoc.
Qed.
Example C117_roles_example : let ps := [Text (lit "See :py"); Role (lit "Mod") (lit "a.b"); Text (lit ", `x` and ``y``: "); Role (lit "TERM") (lit "path"); Text (lit " s")] in
  line_ok (fun _ => false) ps /\ render ps = lit "See :py:Mod:`a.b`, `x` and ``y``: :TERM:`path` s" /\
  clean_line (fun _ => false) (render ps) = lit "See :pyMod(`a.b`), `x` and ``y``: **path** s".
Proof.
  intros ps. split; [|split; reflexivity]. split.
  - repeat apply Forall_cons; try exact I; try apply Forall_nil.
    + split; [split; [discriminate|]|split; [discriminate|split]].
      * repeat apply Forall_cons; try apply Forall_nil; unfold word_of; cbv; intuition discriminate.
      * intros H. repeat (destruct H as [H|H]; [discriminate H|]). exact H.
      * intros (t & E). apply (f_equal (@rev _)) in E. rewrite rev_app_distr in E. discriminate.
    + split; [split; [discriminate|]|split; [discriminate|split]].
      * repeat apply Forall_cons; try apply Forall_nil; unfold word_of; cbv; intuition discriminate.
      * intros H. repeat (destruct H as [H|H]; [discriminate H|]). exact H.
      * intros (t & E). apply (f_equal (@rev _)) in E. rewrite rev_app_distr in E. discriminate.
  - apply calm_contains. reflexivity.
Qed.

(** A directive or value of the list is replaced, and nothing else. *)
Theorem C117_listed : forall beyond ps1 d ps2 p new a b, In (p, new) listed -> spelled p d -> line_ok beyond (ps1 ++ Text d :: ps2) ->
  line_becomes ps1 a -> line_becomes ps2 b -> quiet a -> quiet b -> (new = lit ".. " -> apart b) ->
  clean_line beyond (render (ps1 ++ Text d :: ps2)) = a ++ new ++ b.
Proof.
  intros beyond ps1 d ps2 p new a b I S O (ss1 & B1 & ->) (ss2 & B2 & ->) Qa Qb G.
  destruct (roles_done beyond (ps1 ++ Text d :: ps2) (concat ss1 ++ d ++ concat ss2) O) as [A _].
  - exists (ss1 ++ d :: ss2). split; [apply Forall2_app; [exact B1|constructor; [reflexivity|exact B2]]|]. now rewrite concat_app.
  - unfold clean_line. rewrite substs_are, fold_left_app, A. now apply special_done with (p := p).
Qed.
Example C117_listed_example :
  clean_line (fun _ => false) (lit "   .. DocTest:: of :term:`x`") = lit "   code-block:: of **x**" /\
  clean_line (fun _ => false) (lit "Release |Version| of :command:`x`") = lit "Release x.x.x of command(`x`)" /\
  clean_line (fun _ => false) (lit ".. image:: doc/x.png") = lit "..  doc/x.png".
Proof. repeat split. Qed.

(** Nothing else is changed. *)
Theorem C117_unchanged : forall beyond s, knows_letters beyond -> ~ has_role beyond s -> ~ has_listed s -> clean_line beyond s = s.
Proof.
  intros beyond s K R L. unfold clean_line. rewrite substs_are, fold_left_app.
  assert (A : fold_left (fun line r => re_sub beyond r line) (map rule_of role_rules) s = s).
  { pose proof (rules_ok beyond) as O. revert O. generalize role_rules. induction l as [|[[ns e] tmpl] rs IH]; intros O; [reflexivity|]. inversion O as [|? ? (On & _) Os]; subst. cbn [map fold_left]. unfold rule_of at 2. cbn [fst snd] in *.
    rewrite sub_none; [now apply IH|exact On|]. intros u v E Nv. destruct (match_rule beyond _ v) as [[n r]|] eqn:M; [|reflexivity]. exfalso. apply match_role_inv in M; [|exact On].
    destruct M as (w & t & -> & _ & T & Nw & _ & _ & Tk & F). apply R. exists w, t. split; [|split; [exact T|exists u, r; exact E]]. split; [exact Nw|].
    destruct ns as [l|]; [|now apply F]. destruct Tk as (nm & I & S). cbn in On. rewrite Forall_forall in On. destruct (On nm I) as (_ & Ln). clear - S Ln K.
    induction S as [|p c nm w X S IH]; [constructor|]. inversion Ln; subst. constructor; [|now apply IH]. unfold same_letter in X. unfold word_of.
    destruct X as [X|[X|[(_ & [->| ->])|[(_ & ->)|(_ & ->)]]]]; try lia; right; right; right; right; (split; [lia|apply K; cbn; tauto]). }
  rewrite A. unfold lit_rules. assert (IL : forall x, In x listed -> In x listed) by auto. revert IL. generalize listed at 1 3. induction l as [|[q new] l IH]; intros IL; [reflexivity|]. cbn [map fold_left fst snd].
  destruct (listed_ok q new (IL _ (or_introl eq_refl))) as (F & _ & Nq). rewrite sub_none; [apply IH; intros x I; apply IL; now right|split; assumption|].
  intros u v E Nv. apply lit_no; [exact F|]. intros e r -> S. apply L. exists q, new, e. split; [apply IL; now left|]. split; [exact S|]. exists u, r. exact E.
Qed.
Example C117_unchanged_example :
  clean_line (fun _ => false) (lit ":Release: 0.5.0 ... |virtualenv| .. Note:: `x`_ ``y``") = lit ":Release: 0.5.0 ... |virtualenv| .. Note:: `x`_ ``y``".
Proof. reflexivity. Qed.

(** Cleaning again changes nothing. *)
Theorem C117_again : forall beyond ps, line_ok beyond ps -> forall s, line_becomes ps s -> quiet s ->
  clean_line beyond (clean_line beyond (render ps)) = clean_line beyond (render ps).
Proof.
  intros beyond ps O s B Q. destruct (C117_roles beyond ps s O B Q) as [-> _]. destruct (roles_done beyond ps s O B) as [_ C].
  assert (E : render [Text s] = s) by (unfold render; cbn; apply app_nil_r). rewrite <- E at 1.
  apply C117_roles; [|exists [s]; split; [repeat constructor|cbn; now rewrite app_nil_r]|exact Q].
  split; [repeat constructor|]. unfold outline. cbn. now rewrite app_nil_r.
Qed.

Example C117_again_example : let once := clean_line (fun _ => false) (lit "a :ref:`x` of :envvar:`P`") in
  once = lit "a ref: *x* of ``env[$P]``" /\ clean_line (fun _ => false) once = once.
Proof. vm_compute. split; reflexivity. Qed.

(** The description is that of all lines. *)
Theorem C117_description : forall beyond pss ss,
  Forall2 (fun ps s => line_ok beyond ps /\ line_becomes ps s /\ quiet s) pss ss -> long_desc beyond (map render pss) = concat ss.
Proof.
  intros beyond pss ss F. unfold long_desc. induction F as [|ps s pss ss (O & B & Q) F IH]; [reflexivity|]. cbn [map concat]. rewrite IH. f_equal. now apply C117_roles.
Qed.
Example C117_description_example :
  long_desc (fun _ => false) [lit "a :file:`x`"; lit "b"] = lit "a file(`x`)b".
Proof. reflexivity. Qed.

(** ** Roles remain: when broken over lines, or if their text looks like one that starts. *)
Theorem C117_roles_refuted : exists s, has_role (fun _ => false) (clean_line (fun _ => false) s) /\
  clean_line (fun _ => false) (clean_line (fun _ => false) s) <> clean_line (fun _ => false) s.
Proof.
  exists (lit ":foo:`x:y:` and `z`"). split; [|vm_compute; discriminate]. exists (lit "y"), (lit ") and "). split; [split; [discriminate|]|split].
  - repeat constructor; unfold word_of; cbv; intuition discriminate.
  - intros H. repeat (destruct H as [H|H]; [discriminate H|]). exact H.
  - exists (lit "foo(`x"), (lit "z`"). reflexivity.
Qed.
Theorem C117_lines_refuted : exists lines, has_role (fun _ => false) (long_desc (fun _ => false) lines) /\
  long_desc (fun _ => false) lines = concat lines /\ clean_line (fun _ => false) (concat lines) <> concat lines.
Proof.
  exists [lit ":term:`data" ++ [10%N]; lit "tree`" ++ [10%N]]. split; [|split; [reflexivity|vm_compute; discriminate]].
  exists (lit "term"), (lit "data" ++ [10%N] ++ lit "tree"). split; [split; [discriminate|]|split].
  - repeat constructor; unfold word_of; cbv; intuition discriminate.
  - intros H. repeat (destruct H as [H|H]; [discriminate H|]). exact H.
  - exists [], [10%N]. reflexivity.
Qed.
(** Literals that show the markup are changed, too; a role after a colon is mixed up with what is before. *)
Theorem C117_literals_refuted : exists s, s = lit "``:foo:``" /\ clean_line (fun _ => false) s = lit "``foo(``)".
Proof. eexists. split; reflexivity. Qed.
Theorem C117_colon_refuted : exists s, s = lit ":foo::envvar:`X`" /\ clean_line (fun _ => false) s = lit "foo(``)env[$X]``".
Proof. eexists. split; reflexivity. Qed.

Print Assumptions C117_roles.
Print Assumptions C117_listed.
Print Assumptions C117_unchanged.
Print Assumptions C117_again.
Print Assumptions C117_description.
Print Assumptions C117_roles_refuted.
Print Assumptions C117_lines_refuted.
Print Assumptions C117_literals_refuted.
Print Assumptions C117_colon_refuted.
