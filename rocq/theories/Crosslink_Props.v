(** * Property C119: mappings that share objects *)
From Coq Require Import String.
From Verif Require Import PyBase PyBase_Proofs Json JsonPointer_Model Paths_Model Pmod_Model Pmod_Spec Pmod_Proofs PmodTuples_Proofs
  Pmod_Props Crosslink_Model Crosslink_Spec Crosslink_Proofs.

(** ** C119: merging objects gives a new object that stands for the merged mappings *)
Theorem C119_merge : forall p q h i j, wf p -> wf q -> shows h p i -> shows h q j ->
  exists N, forall fuel, N <= fuel -> exists h' k, merge_in fuel h i j = (h', Ok k) /\ shows h' (merge p q) k /\ kept h h' /\ length (m_objs h) <= k.
Proof. exact merge_in_shows. Qed.
Print Assumptions C119_merge.

(** Merging changes no object and no dictionary, whatever they share, even in loops. *)
Theorem C119_kept : forall fuel h i j h' r, merge_in fuel h i j = (h', r) -> kept h h'.
Proof. exact merge_in_kept. Qed.
Print Assumptions C119_kept.

(** Mapping a path gives what it gives for the values. *)
Theorem C119_mapped : forall M fullmatch expand p path, wf p -> exists N, forall fuel, N <= fuel -> forall h i, shows h p i ->
  exists h', map_path_in M fullmatch expand fuel h i path = (h', map_path M fullmatch expand p path) /\ kept h h'.
Proof. exact map_path_shows. Qed.
Print Assumptions C119_mapped.

(** Building from pairs changes no object that was there, not even the shared defaults. *)
Theorem C119_built : forall compiles tuples h, defaults_empty h ->
  exists h', kept h h' /\
    match pmods_from_tuples compiles tuples with
    | Ok p => pmods_from_tuples_in compiles h tuples = (h', Ok (length (m_objs h))) /\ shows h' p (length (m_objs h))
    | Raise e => pmods_from_tuples_in compiles h tuples = (h', Raise e)
    end.
Proof. exact pmods_from_tuples_shows. Qed.
Print Assumptions C119_built.

(** So a program that builds, merges and maps prints the same as with values. *)
Theorem C119_program : forall M fullmatch expand compiles prog, exists N, forall fuel, N <= fuel ->
  run_in M fullmatch expand compiles fuel start [] prog = run_values M fullmatch expand compiles [] prog.
Proof. exact runs_alike. Qed.
Print Assumptions C119_program.

(** The second merge takes over the dictionaries of the first, and the third program line
    shares the objects of both; later lines read them all again. *)
Example C119_program_example :
  let prog := [Build [(Some (lit "/a"), Some (lit "A")); (Some (lit "/a/~x*"), Some (lit "X"))];
               Build [(Some (lit "/a/b"), Some (lit "B")); (Some (lit "/c"), Some (lit "C"))];
               Build []; Merge 2 1; Merge 3 0; Merge 0 3; MapPath 0 (lit "/a/b"); MapPath 1 (lit "/a/b"); MapPath 3 (lit "/c/d");
               MapPath 4 (lit "/a/b"); MapPath 5 (lit "/a/xy"); Build [(Some (lit "/c"), Some (lit "D"))]; Merge 3 6; MapPath 3 (lit "/c/d"); MapPath 7 (lit "/c/d")] in
  run_in _ ex_fullmatch ex_expand (fun _ => true) 9 start [] prog =
    [Ok (lit "/A/b"); Ok (lit "/a/B"); Ok (lit "/C/d"); Ok (lit "/A/B"); Ok (lit "/A/Xy"); Ok (lit "/C/d"); Ok (lit "/D/d")].
Proof. vm_compute. reflexivity. Qed.

(** Two objects that refer to one dictionary are both as they were. *)
Definition ex_two : mem := fst (pmods_from_tuples_in (fun _ => true) (fst (pmods_from_tuples_in (fun _ => true) start [(Some (lit "a"), Some (lit "A"))])) []).
Example C119_merge_example :
  let '(h, r) := merge_in 5 ex_two 2 0 in
  r = Ok 3 /\ shows h (Pmod None [(lit "a", leaf (lit "A"))] []) 3 /\ shows h (Pmod None [(lit "a", leaf (lit "A"))] []) 0 /\ shows h empty_pmod 2 /\
  o_steps (obj_at h 3) = o_steps (obj_at h 0).
Proof. vm_compute. split; [reflexivity|]. split; [|split; [|split]]; [..|reflexivity]; repeat (first [eexists|split]; cbn; eauto). Qed.

(** But the merged object is not independent of the operands: a step that is appended to it
    afterwards is appended to the operand too. *)
Theorem C119_apart_refuted : exists h i j h' k key h'' c p, merge_in 5 h i j = (h', Ok k) /\ shows h p j /\ k <> j /\
  append_into_steps h' k key = (h'', c) /\ ~ shows h'' p j.
Proof.
  exists ex_two, 2, 0. do 2 eexists. exists (lit "x"). do 2 eexists. exists (Pmod None [(lit "a", leaf (lit "A"))] []).
  split; [vm_compute; reflexivity|]. split; [vm_compute; repeat (first [eexists|split]; cbn; eauto)|]. split; [discriminate|]. split; [vm_compute; reflexivity|].
  intros (ds & dr & ls & lr & E1 & E2 & E3 & A1 & A2). injection E1 as <- <-. injection E2 as <-. cbn in A1. tauto.
Qed.
Print Assumptions C119_apart_refuted.

(** A pattern that does not compile stops the building; what was there is as it was. *)
Example C119_built_example :
  let bad := fun r => negb (str_eqb r (lit "(")) in
  let '(h, r) := pmods_from_tuples_in bad ex_two [(Some (lit "b"), Some (lit "B")); (Some (lit "~("), Some (lit "C"))] in
  r = Raise ReError /\ length (m_objs h) = 5 /\ firstn 3 (m_objs h) = m_objs ex_two /\ dict_at h no_steps = [].
Proof. vm_compute. repeat split; reflexivity. Qed.
