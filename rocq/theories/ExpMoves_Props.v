(** * Property C29: expansion moves *)
From Coq Require Import String.
From Verif Require Import PyBase PyBase_Proofs Regex ExpMoves_Model ExpMoves_Spec ExpMoves_Proofs.
Open Scope Z_scope.

Theorem C29_moves_mean_what_they_spell : forall s, over_moves s ->
  (forall gs, parse_expansion_moves s = Ok gs <-> spells (upper s) gs)
  /\ (parse_expansion_moves s = Raise ValueError <-> exists c s', s = c :: s' /\ countchar c).
Proof. exact parse_spells. Qed.
Print Assumptions C29_moves_mean_what_they_spell.

(** Any text, unless there is a newline in it. *)
Theorem C29_all_other_texts : forall s, ~ In 10%N s -> forall gs, parse_expansion_moves s = Ok gs <-> spells (upper s) gs.
Proof.
  intros s Hn gs. split; [|apply spells_parse]. intros H.
  assert (over_moves s) as Ho.
  { intros c Hc. destruct (parse_chars s gs c H Hc) as [X|[X| ->]]; [left; exact X|right; exact X|contradiction]. }
  apply (proj1 (parse_spells s Ho)). exact H.
Qed.
Print Assumptions C29_all_other_texts.

Theorem C29_only_ValueError : forall s e, parse_expansion_moves s = Raise e -> e = ValueError.
Proof. exact parse_raises. Qed.
Print Assumptions C29_only_ValueError.

(** A question-mark next to digits is the digit one, so "once" may mean 11 or 12 times. *)
Theorem C29_question_mark_refuted : exists s s',
  parse_expansion_moves s = Ok [(lit "U", Some 11)] /\ s = lit "U1?"
  /\ parse_expansion_moves s' = Ok [(lit "L", Some 12)] /\ s' = lit "L?2".
Proof. exists (lit "U1?"), (lit "L?2"). repeat split; reflexivity. Qed.
Print Assumptions C29_question_mark_refuted.

(** A newline after letters goes unnoticed: a dollar also matches before it. *)
Theorem C29_newline_refuted : exists s,
  parse_expansion_moves s = Ok [(lit "LU", None); (lit "R", Some 1)] /\ In 10%N s.
Proof.
  exists (lit "LU" ++ [10%N] ++ lit "R1"). split; [reflexivity|]. right. right. left. reflexivity.
Qed.
Print Assumptions C29_newline_refuted.

Example C29_rubbish_example : parse_expansion_moves (lit "LX") = Raise ValueError /\ parse_expansion_moves (lit "L?X") = Raise ValueError.
Proof. split; reflexivity. Qed.

Example C29_example :
  parse_expansion_moves (lit "lu1urd?") = Ok [(lit "L", None); (lit "U", Some 1); (lit "UR", None); (lit "D", Some 1)]
  /\ over_moves (lit "lu1urd?")
  /\ parse_expansion_moves (lit "1LURD") = Raise ValueError
  /\ parse_expansion_moves (lit "L0R12") = Ok [(lit "L", Some 0); (lit "R", Some 12)].
Proof.
  repeat split; try reflexivity. intros c H. cbn in H.
  repeat (destruct H as [<-|H]; [unfold dirletter, countchar; cbn; tauto|]). destruct H.
Qed.
