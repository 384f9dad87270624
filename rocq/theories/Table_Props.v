(** * C101: steps from a table *)
From Coq Require Import String Lia.
From Verif Require Import PyBase PyBase_Proofs Json JsonPointer_Model JsonPointer_Spec Paths_Model Paths_Spec
  Pmod_Model Pmod_Spec Pmod_Props Pstep_Model Pstep_Spec Pstep_Proofs PstepTree_Proofs PstepHist_Proofs
  PstepPaths_Proofs Pstep_Props Table_Model Table_Spec Table_Proofs.

Section Table.
  Variable M : Type.
  Variable fullmatch : pystr -> pystr -> option M.
  Variable expand : M -> pystr -> res pystr.
  Variable compiles : pystr -> bool.
  Variable class_attr : pystr -> bool.
  Variable V : Type.
  Notation get := (getattr M fullmatch expand compiles class_attr).
  Notation ex := (exec M fullmatch expand compiles class_attr).
  Notation go := (run M fullmatch expand compiles class_attr).
  Notation from_table := (pstep_from_df M fullmatch expand compiles class_attr V).

  (** Whatever the program has done before, a flat table gives a step whose children are
      exactly the rows.  Each has its name from the table, and as private attributes its values
      in all columns; there are no other attributes; steps there were are not touched. *)
  Theorem C101_rows : forall os cols rows, always ex no_loop empty_heap os -> always ex existing empty_heap os ->
    flat_table class_attr V cols rows -> let h := go empty_heap os in
    exists h' p a, from_table h cols rows = (h', Ok (p, a))
      /\ text_of h' p = [] /\ ~ (exists s, step_at h p s) /\ (forall i s, step_at h i s -> step_at h' i s)
      /\ (forall r n, In r rows -> r_path r = 47%N :: n -> exists c,
            get h' p n = (h', Ok (VStep c)) /\ text_for n (Some (r_name r)) (text_of h' c) /\ orig_of h' c = n
            /\ leaf_at h' c
            /\ forall k col x, nth_error cols k = Some col -> nth_error (r_values r) k = Some x ->
                 private a c (95%N :: col) = Some x)
      /\ (forall n c, child_at h' p n c -> exists r, In r rows /\ r_path r = 47%N :: n)
      /\ (forall c attr x, private a c attr = Some x -> exists r n k col, In r rows /\ r_path r = 47%N :: n
            /\ child_at h' p n c /\ attr = 95%N :: col
            /\ nth_error cols k = Some col /\ nth_error (r_values r) k = Some x).
  Proof.
    intros os cols rows NL Ex Ft h.
    assert (G := good_run M fullmatch expand compiles class_attr os empty_heap good_empty NL).
    assert (K := C79_mappings_exist M fullmatch expand compiles class_attr os Ex). fold h in G, K.
    destruct (from_df M fullmatch expand compiles class_attr V h cols rows G K Ft)
      as [h' [p [a [E [G' [K' [Ht [Ep [Ho [[O1 O2] Hd]]]]]]]]]].
    exists h', p, a. split; auto. split; auto. split; [intros [s Hs]; apply step_lt in Hs; lia|]. split; auto.
    split; [|split; auto].
    intros r n Hr En. destruct (Hd r n Hr En) as [c [sn [D1 [D2 [_ [D4 [D5 [D6 D7]]]]]]]].
    exists c. rewrite (text_at _ _ _ D2). destruct Ft as [_ [_ [_ Ft]]]. destruct (Ft r Hr) as [_ [n' [En' Hn]]].
    assert (n' = n) as -> by congruence. destruct (forbidden_not class_attr n Hn) as [F1 F2].
    split.
    - apply get_existing; auto; [apply G'|]. rewrite (text_at _ _ _ D2).
      eapply text_for_nonempty; [apply Hn|exact D4].
    - split; auto. split; [|split; auto]. unfold orig_of. unfold step_at in D2. now rewrite D2.
  Qed.
End Table.
Print Assumptions C101_rows.

(** The example of the documentation: rows [/A foo], [/B bar] with the column [renames].
    The class has the attributes [count] and [title]. *)
Definition tclass (n : pystr) : bool := str_eqb n (lit "count") || str_eqb n (lit "title").
Definition ttable := pstep_from_df pystr ex_fullmatch ex_expand (fun _ => true) tclass (list pystr).
Definition tget := getattr pystr ex_fullmatch ex_expand (fun _ => true) tclass.
Definition doc_rows : list (row (list pystr)) :=
  [(lit "/A", lit "foo", [[lit "FOO"; lit "LL"]]); (lit "/B", lit "bar", [[]])].

Example C101_example :
  flat_table tclass _ [lit "renames"] doc_rows
  /\ exists h p a, ttable empty_heap [lit "renames"] doc_rows = (h, Ok (p, a))
     /\ paths 9 h p false [] = Ok [lit "/bar"; lit "/foo"]
     /\ tget h p (lit "A") = (h, Ok (VStep 1)) /\ private a 1 (lit "_renames") = Some [lit "FOO"; lit "LL"]
     /\ tget h p (lit "B") = (h, Ok (VStep 2)) /\ private a 2 (lit "_renames") = Some [].
Proof.
  split.
  - split; [repeat constructor; intros []|]. split.
    + constructor; [|constructor]. split; [discriminate|]. cbn. intuition discriminate.
    + split; [repeat constructor; cbn; intuition discriminate|].
      intros r [<-|[<-|[]]]; split; try reflexivity; eexists; split; try reflexivity;
        unfold child_name; cbn; repeat split; intuition discriminate.
  - eexists _, _, _. split; [vm_compute; reflexivity|]. vm_compute. auto.
Qed.

(** Not so for paths of two steps: the attributes go to a new child that is named by the whole
    path, and the step of the path lacks them. *)
Theorem C101_nested_refuted : exists cols rows h p a h1 c1 h2 c2 h3 c3,
  NoDup cols /\ Forall free_column cols /\ rows = [(lit "/A/B", lit "foo", [[]])]
  /\ ttable empty_heap cols rows = (h, Ok (p, a))
  /\ tget h p (lit "A/B") = (h1, Ok (VStep c1)) /\ private a c1 (lit "_renames") = Some []
  /\ tget h p (lit "A") = (h2, Ok (VStep c2)) /\ tget h2 c2 (lit "B") = (h3, Ok (VStep c3))
  /\ text_of h3 c3 = lit "foo" /\ private a c3 (lit "_renames") = None
  /\ paths 9 h3 p false [] = Ok [lit "/A/B"; lit "/A/foo"].
Proof.
  exists [lit "renames"], [(lit "/A/B", lit "foo", [[]])].
  eexists _, _, _, _, _, _, _, _, _. split; [repeat constructor; intros []|].
  split; [constructor; [split; [discriminate|cbn; intuition discriminate]|constructor]|].
  split; [reflexivity|]. split; [vm_compute; reflexivity|]. split; [vm_compute; reflexivity|].
  split; [reflexivity|]. split; [vm_compute; reflexivity|]. split; [vm_compute; reflexivity|].
  vm_compute. auto.
Qed.
Print Assumptions C101_nested_refuted.

(** Names of attributes that texts have: with a column the table is refused; without, the row is
    lost. *)
Theorem C101_method_refuted : exists h h' p a,
  ttable empty_heap [lit "renames"] [(lit "/title", lit "foo", [[]])] = (h, Raise AttributeError)
  /\ ttable empty_heap [] [(lit "/title", lit "foo", [])] = (h', Ok (p, a)) /\ leaf_at h' p.
Proof.
  eexists _, _, _, _. split; [vm_compute; reflexivity|]. split; [vm_compute; reflexivity|].
  intros b c [s [d [ds [H1 [H2 _]]]]]. injection H1 as <-. discriminate.
Qed.
Print Assumptions C101_method_refuted.

(** A column named as a property of steps: the table is refused. *)
Theorem C101_column_refuted : exists col, In col [lit "fix"; lit "lock"; lit "schema"] /\
  exists h, ttable empty_heap [col] [(lit "/A", lit "foo", [[]])] = (h, Raise AttributeError).
Proof. exists (lit "schema"). split; [cbn; auto|]. eexists. vm_compute. reflexivity. Qed.
Print Assumptions C101_column_refuted.

(** Paths need their slash: without it, the first character is dropped instead. *)
Theorem C101_relative_refuted : exists h p a c,
  ttable empty_heap [lit "renames"] [(lit "AB", lit "foo", [[]])] = (h, Ok (p, a))
  /\ child_at h p (lit "B") c /\ text_of h c = lit "B" /\ private a c (lit "_renames") = Some []
  /\ forall n c', child_at h p n c' -> n = lit "B".
Proof.
  eexists _, _, _, _. split; [vm_compute; reflexivity|]. split; [child_here|].
  split; [vm_compute; reflexivity|]. split; [vm_compute; reflexivity|].
  intros n c' [s [d [ds [H1 [H2 [H3 H4]]]]]]. injection H1 as <-. injection H2 as <-. injection H3 as <-.
  destruct H4 as [E|[]]. now injection E as <- _.
Qed.
Print Assumptions C101_relative_refuted.
