(** * The two models of the visitor agree: theorems *)
From Coq Require Import String Lia.
From Verif Require Import PyBase Json Pandel_Model Visit_Model Visit_Spec Twice_Spec Twice_Proofs Agree_Spec Agree_Proofs Visit_Props Twice_Props.
Local Notation obj := JDict.
Local Notation "k ↦ v" := (lit k, v) (at level 60).

(** ** C78 *)

(** On schemas both models know, within the levels of the schema, the visitor with sub-schemas leaves
    the same, and tells the same errors in the same order. *)
Theorem C78_visitors : forall ad adn arn other n s v, checkless n s ->
  exists es, iter_errors ad adn arn [] (S n) false (as_schema s) v = Ok (fst (visit ad adn arn other s v), es) /\
    Forall2 same_error (snd (visit ad adn arn other s v)) es.
Proof. intros ad adn arn other n s v H. exact (iter_as ad adn arn other n s H v). Qed.
Print Assumptions C78_visitors.

(** So a model that was built conforms also in terms of the sub-schemas, if no rule undoes another. *)
Theorem C78_built : forall other pre full ms c n, checkless n full -> (forall t, reaches [] (as_schema full) t -> steady t) ->
  build other pre full [] ms = inl c -> conforms [] (S n) (as_schema full) c.
Proof.
  intros other pre full ms c n C S B. unfold build in B.
  destruct (b_errors (build_iter other pre full [] ms)) eqn:E; [|discriminate]. injection B as <-.
  unfold build_iter in *. destruct (prevalidate other pre ms) as (ms' & es). destruct es as [|e es]; [|discriminate E].
  destruct (merge_all JNull ms') as (m & o). destruct o as [e|]; [discriminate E|]. unfold check in *.
  destruct (C78_visitors true false false other n full m C) as (es & Ei & F). destruct (visit true false false other full m) as (v & ev). cbn [fst snd] in *.
  destruct ev as [|e ev]; [|discriminate E]. inversion F; subst. cbn [curate b_model] in *.
  eapply C131_conforms; [exact S|exact Ei].
Qed.
Print Assumptions C78_built.
Definition axles : schema := [KType [TObject]; KProps ["n" ↦ [KType [TInteger]; KDefault (JNum 2)]; "load" ↦ [KType [TObject]; KProps ["t" ↦ [KDefault (JNum 1)]]]]; KRequired [lit "n"]].
Example C78_visitors_example :
  checkless 2 axles /\ (forall t, reaches [] (as_schema axles) t -> steady t) /\
  (exists e e', snd (visit true false false (fun _ _ => []) axles (obj ["n" ↦ JStr []; "load" ↦ JNull])) = [WrongType; WrongType] /\
    iter_errors true false false [] 3 false (as_schema axles) (obj ["n" ↦ JStr []; "load" ↦ JNull]) = Ok (obj ["n" ↦ JStr []; "load" ↦ JNull], [e; e'])) /\
  build (fun _ _ => []) [] axles [] [obj ["load" ↦ obj []]] = inl (obj ["load" ↦ obj ["t" ↦ JNum 1]; "n" ↦ JNum 2]).
Proof.
  assert (S : forall t, reaches [] (as_schema axles) t ->
    In t [as_schema axles; SObj [VType [TInteger]; VDefault (JNum 2)]; SObj [VType [TObject]; VProps ["t" ↦ SObj [VDefault (JNum 1)]]]; SObj [VDefault (JNum 1)]]).
  { assert (Z : forall a b, reaches [] a b ->
      In a [as_schema axles; SObj [VType [TInteger]; VDefault (JNum 2)]; SObj [VType [TObject]; VProps ["t" ↦ SObj [VDefault (JNum 1)]]]; SObj [VDefault (JNum 1)]] ->
      In b [as_schema axles; SObj [VType [TInteger]; VDefault (JNum 2)]; SObj [VType [TObject]; VProps ["t" ↦ SObj [VDefault (JNum 1)]]]; SObj [VDefault (JNum 1)]]).
    { intros a b R. induction R as [s|kws r s' t I E R IH|kws k s' t I U R IH]; intros H; [exact H|discriminate E|]. apply IH. apply Visit3_Proofs.under_subs in U. clear - H I U.
      destruct H as [H|[H|[H|[H|[]]]]]; injection H as <-; simpl in I; repeat (destruct I as [<-|I]); try contradiction; simpl in U; repeat (destruct U as [<-|U]); try contradiction; simpl; tauto. }
    intros t R. apply (Z _ _ R). now left. }
  split; [|split; [|split]].
  - assert (leaf : forall n s, forallb (fun k => match k with KOther _ | KProps _ => false | _ => true end) s = true -> checkless n s).
    { intros n s H. rewrite forallb_forall in H. constructor; [intros m I|intros ps p sub I]; specialize (H _ I); discriminate H. }
    constructor; [intros m; simpl; intuition discriminate|]. intros ps p sub [I|[I|[I|[]]]] J; try discriminate I. injection I as <-. exists 1. split; [reflexivity|].
    destruct J as [J|[J|[]]]; injection J as <- <-; [now apply leaf|].
    constructor; [intros m; simpl; intuition discriminate|]. intros ps p sub [I|[I|[]]] J; try discriminate I. injection I as <-. exists 0. split; [reflexivity|].
    destruct J as [J|[]]; injection J as <- <-. now apply leaf.
  - intros t R. apply S in R. intros kws E. destruct R as [<-|[<-|[<-|[<-|[]]]]]; injection E as <-; (split; [repeat constructor; simpl; intuition discriminate|]).
    all: intros k I; simpl in I; repeat (destruct I as [<-|I]); try contradiction; simpl; try exact Logic.I.
    all: split; [repeat constructor; simpl; intuition discriminate|]; intros p ks v J; repeat (destruct J as [J|J]); try contradiction; injection J as <- <-; simpl; intuition discriminate.
  - do 2 eexists. split; reflexivity.
  - vm_compute. reflexivity.
Qed.
