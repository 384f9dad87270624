(** * Properties C07, C08: joining path steps *)
From Coq Require Import String.
From Verif Require Import PyBase PyBase_Proofs Paths_Model Paths_Spec Paths_Proofs.

Theorem C07_join_paths_meaning : forall steps, (forall s, In s steps -> ~ In 47%N s) ->
  forall f g, walks f steps g <-> text_walks f (join_paths steps) g.
Proof. exact join_paths_meaning. Qed.
Print Assumptions C07_join_paths_meaning.

(** Every walk leads to exactly one folder. *)
Theorem C07_walks_total : forall f ss, exists g, walks f ss g /\ forall g', walks f ss g' -> g' = g.
Proof. exact walks_total. Qed.
Print Assumptions C07_walks_total.

Example C07_example :
  join_paths [lit "a"; lit ".."; lit ".."; lit "b"; lit "."; lit "c"] = lit "../b/c"
  /\ join_paths [lit "a"; lit ""; lit ".."; lit "b"] = lit "/b"
  /\ walks [lit "x"; lit "y"] [lit "a"; lit ".."; lit ".."; lit "b"; lit "."; lit "c"]
       [lit "x"; lit "b"; lit "c"].
Proof. repeat split; try reflexivity. apply walks_fold. reflexivity. Qed.

Theorem C08_join_paths_normal : forall steps, (forall s, In s steps -> ~ In 47%N s) ->
  exists ss, normal ss /\ split_on 47%N (join_paths steps) = ss /\ join_paths steps = join [47%N] ss.
Proof. exact join_paths_normal. Qed.
Print Assumptions C08_join_paths_normal.

Theorem C08_join_paths_idempotent : forall steps, (forall s, In s steps -> ~ In 47%N s) ->
  join_paths (split_on 47%N (join_paths steps)) = join_paths steps.
Proof. exact join_paths_idem. Qed.
Print Assumptions C08_join_paths_idempotent.

Theorem C08_join_paths_canonical : forall a b,
  (forall f g, walks f a g <-> walks f b g) -> join_paths a = join_paths b.
Proof. exact join_paths_canonical. Qed.
Print Assumptions C08_join_paths_canonical.

Example C08_example :
  join_paths [lit "a"; lit ".."] = lit "." /\ join_paths [lit ""; lit "a"; lit ".."; lit ".."] = lit ""
  /\ join_paths [lit "."; lit ".."; lit "."; lit ".."] = lit "../.."
  /\ normal [lit ".."; lit ".."; lit "a"].
Proof.
  repeat split; try reflexivity. apply (N_rel 2 [lit "a"]); [|cbn; lia].
  constructor; [repeat split; discriminate|constructor].
Qed.
