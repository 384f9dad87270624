(** * Visiting twice: theorems *)
From Coq Require Import String Lia.
From Verif Require Import PyBase Json Pandel_Model Visit_Model Visit_Spec Visit_Proofs Visit3_Proofs Twice_Spec Twice_Proofs.
From Verif Require Import Visit_Props.
Local Notation obj := JDict.
Local Notation "k ↦ v" := (lit k, v) (at level 60).

(** ** C131 *)

(** An instance passes, but what is left of it neither conforms nor passes again: its default is not
    among what a rule before allows, or its null property was needed. *)
Theorem C131_passes_refuted : exists s v v' e1 e2 s' w w' e3,
  iter_errors true false false [] 9 false s v = Ok (v', []) /\
  iter_errors true false false [] 9 false s v' = Ok (v', [e1]) /\ iter_errors false false false [] 9 false s v' = Ok (v', [e2]) /\
  iter_errors false false true [] 9 false s' w = Ok (w', []) /\ iter_errors false false true [] 9 false s' w' = Ok (w', [e3]).
Proof.
  exists (SObj [VEnum [obj []]; VProps ["a" ↦ SObj [VDefault (JNum 1)]]]), (obj []), (obj ["a" ↦ JNum 1]). do 2 eexists.
  exists (SObj [VRequired [lit "a"]; VProps ["a" ↦ SObj []]]), (obj ["a" ↦ JNull]), (obj []). eexists. repeat split; reflexivity.
Qed.
(** A null property goes the first time, and gets its default the second time. *)
Theorem C131_changes_refuted : exists s v v' v'',
  iter_errors true false true [] 9 false s v = Ok (v', []) /\ iter_errors true false true [] 9 false s v' = Ok (v'', []) /\ v'' <> v'.
Proof.
  exists (SObj [VProps ["a" ↦ SObj [VDefault (JNum 1)]]]), (obj ["a" ↦ JNull]), (obj []), (obj ["a" ↦ JNum 1]).
  split; [reflexivity|]. split; [reflexivity|discriminate].
Qed.
(** If null properties are not removed, and rules look at types, bounds, or one property or item at a
    time, what passes is left such that it passes again, unchanged, *)
Theorem C131_again : forall ad adn definitions n stop stop' s v v',
  (forall t, reaches definitions s t -> steady t) ->
  iter_errors ad adn false definitions n stop s v = Ok (v', []) -> iter_errors ad adn false definitions n stop' s v' = Ok (v', []).
Proof. intros ad adn definitions n stop stop' s v v' S H. eapply iter_steady; [auto|exact S|exact H]. Qed.
(** and conforms: defaults are right as well. *)
Theorem C131_conforms : forall ad adn definitions n stop s v v',
  (forall t, reaches definitions s t -> steady t) ->
  iter_errors ad adn false definitions n stop s v = Ok (v', []) -> conforms definitions n s v'.
Proof.
  intros ad adn definitions n stop s v v' S H.
  assert (X : iter_errors false false false definitions n stop s v' = Ok (v', [])) by (eapply iter_steady; [discriminate|exact S|exact H]).
  now apply (C126_conforms _ _ _ _ _ _ _ X).
Qed.
(** A tree whose nodes have a mark that is 0 unless given *)
Definition tree : vschema :=
  SObj [VType [TObject]; VRequired [lit "mark"]; VProps ["mark" ↦ SObj [VDefault (JNum 0); VType [TInteger]; VMinimum 0];
                                   "parts" ↦ SObj [VItems (SObj [VRef (lit "tree")])]]; VAddProps (SBool false)].
Definition growing : vschema :=
  SObj [VType [TObject]; VProps ["mark" ↦ SObj [VDefault (JNum 0); VType [TInteger]; VMinimum 0; VEnum [JNum 0; JNum 1]];
                                   "parts" ↦ SObj [VItems (SObj [VRef (lit "tree")])]]; VRequired [lit "mark"]; VAddProps (SBool false)].
Lemma growing_steady : forall t, reaches [(lit "tree", growing)] growing t -> steady t.
Proof.
  assert (Z : forall a b, reaches [(lit "tree", growing)] a b ->
    In a [growing; SObj [VDefault (JNum 0); VType [TInteger]; VMinimum 0; VEnum [JNum 0; JNum 1]]; SObj [VItems (SObj [VRef (lit "tree")])]; SObj [VRef (lit "tree")]; SBool false] ->
    In b [growing; SObj [VDefault (JNum 0); VType [TInteger]; VMinimum 0; VEnum [JNum 0; JNum 1]]; SObj [VItems (SObj [VRef (lit "tree")])]; SObj [VRef (lit "tree")]; SBool false]).
  { intros a b R. induction R as [s|kws r s' t I E R IH|kws k s' t I U R IH]; intros H; [exact H| |].
    - apply IH. clear - H I E. destruct H as [H|[H|[H|[H|[H|[]]]]]]; try discriminate H; injection H as <-; simpl in I;
        repeat (destruct I as [I|I]); try discriminate I; try contradiction. injection I as <-. simpl in E. injection E as <-. now left.
    - apply IH. apply under_subs in U. clear - H I U. destruct H as [H|[H|[H|[H|[H|[]]]]]]; try discriminate H; injection H as <-; simpl in I;
        repeat (destruct I as [<-|I]); try destruct I; simpl in U; repeat (destruct U as [<-|U]); try destruct U; simpl; tauto. }
  intros t R. apply Z in R; [|now left]. intros kws E. destruct R as [<-|[<-|[<-|[<-|[<-|[]]]]]]; try discriminate E; injection E as <-; split;
    try (repeat constructor; simpl; intuition discriminate).
  all: intros k I; simpl in I; repeat (destruct I as [<-|I]); try destruct I; simpl; try exact Logic.I.
  - split; [repeat constructor; simpl; intuition discriminate|]. intros p ks v [E|[E|[]]]; injection E as <- <-; simpl; intuition discriminate.
  - intros x [<-|[<-|[]]]; split; discriminate.
Qed.
Example C131_again_example :
  let v := obj ["parts" ↦ JList [obj []; obj ["mark" ↦ JNull; "parts" ↦ JList [obj ["mark" ↦ JNum 1]]]]] in
  let v' := obj ["parts" ↦ JList [obj ["mark" ↦ JNum 0]; obj ["mark" ↦ JNum 0; "parts" ↦ JList [obj ["mark" ↦ JNum 1]]]]; "mark" ↦ JNum 0] in
  (forall t, reaches [(lit "tree", growing)] growing t -> steady t) /\
  iter_errors true true false [(lit "tree", growing)] 20 false growing v = Ok (v', []) /\
  iter_errors true true false [(lit "tree", growing)] 20 false growing v' = Ok (v', []) /\ conforms [(lit "tree", growing)] 20 growing v'.
Proof.
  cbv zeta. split; [exact growing_steady|]. assert (H : iter_errors true true false [(lit "tree", growing)] 20 false growing
    (obj ["parts" ↦ JList [obj []; obj ["mark" ↦ JNull; "parts" ↦ JList [obj ["mark" ↦ JNum 1]]]]]) =
    Ok (obj ["parts" ↦ JList [obj ["mark" ↦ JNum 0]; obj ["mark" ↦ JNum 0; "parts" ↦ JList [obj ["mark" ↦ JNum 1]]]]; "mark" ↦ JNum 0], [])) by reflexivity.
  split; [exact H|]. split; [reflexivity|]. eapply C131_conforms; [exact growing_steady|exact H].
Qed.
(** Required properties are looked for before defaults are filled in if their rule is first: once
    filled in, they are there. *)
Example C131_order_example : exists e,
  iter_errors true false false [(lit "tree", tree)] 20 false tree (obj []) = Ok (obj ["mark" ↦ JNum 0], [e]) /\
  iter_errors true false false [(lit "tree", tree)] 20 false tree (obj ["mark" ↦ JNum 0]) = Ok (obj ["mark" ↦ JNum 0], []).
Proof. eexists. split; reflexivity. Qed.
Print Assumptions C131_passes_refuted.
Print Assumptions C131_changes_refuted.
Print Assumptions C131_again.
Print Assumptions C131_conforms.
