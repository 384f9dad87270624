(** * Models: the properties *)
From Coq Require Import String Permutation.
From Verif Require Import PyBase PyBase_Proofs Json JsonPointer_Model JsonPointer_Spec JsonPointer_Props Pandel_Model Pandel_Spec Pandel_Proofs Again_Proofs Reorder_Proofs.

Local Notation obj := JDict.
Local Notation "k ↦ v" := (lit k, v) (at level 60).

(** ** C40: merging *)

(** The node merged at any path, for two documents *)
Theorem C40_merge_two : forall a b c p, dicts_ok b -> merge a b = Ok c ->
  same_node (at_path p c) (over (at_path p a) (at_path p b)).
Proof. intros. apply merge_at; assumption. Qed.
Print Assumptions C40_merge_two.

(** The last non-null value wins. *)
Theorem C40_winner : forall ms c p, ms <> [] -> Forall dicts_ok ms -> merge_all JNull ms = (c, None) ->
  no_list_and_str (map (at_path p) ms) -> same_node (at_path p c) (winner (map (at_path p) ms)).
Proof.
  intros ms c p N W E H. eapply same_node_trans; [apply merge_all_at; eassumption|]. left.
  rewrite fold_over_winner.
  - destruct p as [|k p]; [|rewrite winner_cons; generalize (winner (map (at_path (k :: p)) ms)); intros [[]|]; reflexivity].
    destruct ms as [|m ms]; [congruence|]. cbn [at_path map]. rewrite winner_cons.
    assert (S : exists w, winner (map (at_path []) (m :: ms)) = Some w).
    { cbn. destruct (winner _) as [[]|]; eauto. }
    destruct S as [w S]. cbn [map at_path] in S. rewrite S. destruct w; reflexivity.
  - intros [l [s [Hl Hs]]]. apply H. exists l, s.
    split; [destruct Hl as [Hl|Hl]; [destruct p; discriminate|exact Hl]|destruct Hs as [Hs|Hs]; [destruct p; discriminate|exact Hs]].
Qed.
Print Assumptions C40_winner.

Lemma fold_over_nulls : forall vs x, (forall y, In y vs -> y = None \/ y = Some JNull) -> x <> None -> fold_left over vs x = x.
Proof.
  induction vs as [|y vs IH]; intros x H N; [reflexivity|]. cbn.
  assert (E : over x y = x).
  { destruct (H y (or_introl eq_refl)) as [->| ->]; destruct x as [[]|]; try reflexivity. congruence. }
  rewrite E. apply IH; [|exact N]. intros z Hz. apply H. right. exact Hz.
Qed.
Lemma over_value : forall x v, v <> JNull -> (forall s, v <> JStr s) -> over x (Some v) = Some v.
Proof. intros x v N S. destruct x as [[]|]; destruct v; try reflexivity; try congruence; destruct (S s eq_refl). Qed.
Lemma over_value_str : forall x v, v <> JNull -> (forall l, x <> Some (JList l)) -> over x (Some v) = Some v.
Proof. intros x v N S. destruct x as [[]|]; destruct v; try reflexivity; try congruence; destruct (S l eq_refl). Qed.

Theorem C40_last_non_null : forall lower m upper c p v,
  Forall dicts_ok (lower ++ m :: upper) -> merge_all JNull (lower ++ m :: upper) = (c, None) ->
  at_path p m = Some v -> v <> JNull -> (forall s, v <> JStr s) -> (forall d, v <> JDict d) ->
  (forall m', In m' upper -> at_path p m' = None \/ at_path p m' = Some JNull) ->
  at_path p c = Some v.
Proof.
  intros lower m upper c p v W E Em N NS ND U.
  generalize (merge_all_at _ _ _ p W E). rewrite map_app, fold_left_app. cbn [map fold_left]. rewrite Em, over_value by assumption.
  rewrite fold_over_nulls; [|intros y Hy; apply in_map_iff in Hy; destruct Hy as [m' [<- Hm']]; apply U; exact Hm'|discriminate].
  intros [H|[d [d' [_ H]]]]; [exact H|]. injection H as ->. destruct (ND d' eq_refl).
Qed.
Print Assumptions C40_last_non_null.
(** Strings too, if no lists were there before *)
Theorem C40_last_string : forall lower m upper c p s,
  Forall dicts_ok (lower ++ m :: upper) -> merge_all JNull (lower ++ m :: upper) = (c, None) ->
  at_path p m = Some (JStr s) -> (forall m' l, In m' lower -> at_path p m' <> Some (JList l)) ->
  (forall m', In m' upper -> at_path p m' = None \/ at_path p m' = Some JNull) ->
  at_path p c = Some (JStr s).
Proof.
  intros lower m upper c p s W E Em L U.
  generalize (merge_all_at _ _ _ p W E). rewrite map_app, fold_left_app. cbn [map fold_left]. rewrite Em, over_value_str.
  - rewrite fold_over_nulls; [|intros y Hy; apply in_map_iff in Hy; destruct Hy as [m' [<- Hm']]; apply U; exact Hm'|discriminate].
    intros [H|[d [d' [_ H]]]]; [exact H|discriminate].
  - discriminate.
  - assert (G : forall vs x, (forall l, x <> Some (JList l)) -> (forall y l, In y vs -> y <> Some (JList l)) -> forall l, fold_left over vs x <> Some (JList l)).
    { induction vs as [|y vs IH]; intros x Hx Hvs; [exact Hx|]. cbn. apply IH.
      - intros l. generalize (Hx l), (Hvs y l (or_introl eq_refl)). destruct x as [[]|]; destruct y as [[]|]; cbn; try congruence.
      - intros y' l Hy'. apply Hvs. right. exact Hy'. }
    apply G.
    + intro l. destruct p; discriminate.
    + intros y l Hy. apply in_map_iff in Hy. destruct Hy as [m' [<- Hm']]. apply L. exact Hm'.
Qed.
Print Assumptions C40_last_string.

(** Dicts are united: a path exists if it exists in some of the sub-models. *)
Theorem C40_united : forall ms c p, ms <> [] -> Forall dicts_ok ms -> merge_all JNull ms = (c, None) ->
  (at_path p c <> None <-> exists m, In m ms /\ at_path p m <> None).
Proof.
  intros ms c p N W E. generalize (merge_all_at _ _ _ p W E). intro S.
  assert (G : forall vs x, fold_left over vs x <> None <-> (x <> None \/ exists y, In y vs /\ y <> None)).
  { induction vs as [|y vs IH]; intro x; cbn; [split; [tauto|intros [H|[y [[] _]]]; exact H]|].
    rewrite IH. split.
    - intros [H|[z [Hz Nz]]]; [|right; exists z; tauto].
      destruct x as [vx|]; [left; discriminate|]. right. exists y. split; [left; reflexivity|]. rewrite over_none_l in H. exact H.
    - intros [H|[z [[->|Hz] Nz]]].
      + left. destruct x as [[]|]; destruct y as [[]|]; cbn; congruence.
      + left. destruct x as [[]|]; destruct z as [[]|]; cbn; congruence.
      + right. exists z. tauto. }
  assert (F : at_path p c <> None <-> fold_left over (map (at_path p) ms) (at_path p JNull) <> None).
  { destruct S as [->|[d [d' [-> ->]]]]; [tauto|]. split; discriminate. }
  rewrite F, G. split.
  - intros [H|[y [Hy Ny]]].
    + destruct p; [|destruct H; reflexivity]. destruct ms as [|m ms]; [congruence|]. exists m. split; [left; reflexivity|discriminate].
    + apply in_map_iff in Hy. destruct Hy as [m [<- Hm]]. exists m. tauto.
  - intros [m [Hm Nm]]. right. exists (at_path p m). split; [apply in_map; exact Hm|exact Nm].
Qed.
Print Assumptions C40_united.

(** When two documents can be merged *)
Theorem C40_mergeable : forall a b, dicts_ok b ->
  ((exists c, merge a b = Ok c) <->
   (forall p x y, at_path p a = Some x -> at_path p b = Some y -> agree x y)).
Proof. intros. apply merge_ok_iff. assumption. Qed.
Print Assumptions C40_mergeable.
Theorem C40_consistent : forall ms, consistent ms -> Forall dicts_ok ms -> exists c, merge_all JNull ms = (c, None).
Proof. exact merge_all_ok. Qed.
Print Assumptions C40_consistent.

(** Nulls may not meet. *)
Theorem C40_nulls_refuted : exists ms, Forall dicts_ok ms /\
  (forall m p x y m', In m ms -> In m' ms -> at_path p m = Some x -> at_path p m' = Some y -> kind x = kind y) /\
  snd (merge_all JNull ms) = Some ValidationError.
Proof.
  exists [obj ["a" ↦ JNull]; obj ["a" ↦ JNull]].
  assert (D : dicts_ok (obj ["a" ↦ JNull])).
  { apply dicts_ok_intro; [repeat constructor; intros []|]. intros k v E. unfold sget in E. cbn in E.
    destruct (str_eqb k _); [injection E as <-; apply dicts_ok_not_dict; reflexivity|discriminate]. }
  split; [repeat constructor; exact D|]. split; [|reflexivity].
  intros m p x y m' Hm Hm' Ex Ey.
  assert (m = obj ["a" ↦ JNull]) as -> by (destruct Hm as [<-|[<-|[]]]; reflexivity).
  assert (m' = obj ["a" ↦ JNull]) as -> by (destruct Hm' as [<-|[<-|[]]]; reflexivity). congruence.
Qed.
Print Assumptions C40_nulls_refuted.
(** Not inside lists, either. *)
Theorem C40_null_in_list_refuted : exists l, merge_all JNull [obj ["a" ↦ JList l]; obj ["a" ↦ JList l]] = (obj ["a" ↦ JList l], Some ValidationError).
Proof. exists [JNum 1; JNull]. reflexivity. Qed.
Print Assumptions C40_null_in_list_refuted.
(** A string over a list is taken apart. *)
Theorem C40_string_over_list_refuted : exists a b c, merge a b = Ok c /\ at_path [lit "a"] b = Some (JStr (lit "xy")) /\
  at_path [lit "a"] c = Some (JList [JStr (lit "x"); JStr (lit "y")]).
Proof. exists (obj ["a" ↦ JList []]), (obj ["a" ↦ JStr (lit "xy")]). eexists. split; [reflexivity|]. split; reflexivity. Qed.
Print Assumptions C40_string_over_list_refuted.

Example C40_example :
  merge_all JNull [obj ["a" ↦ JNum 1; "b" ↦ obj ["c" ↦ JList [JNum 1; JNum 2]; "d" ↦ JStr (lit "x")]; "n" ↦ JNull];
                   obj ["b" ↦ obj ["c" ↦ JList [JNum 3]; "e" ↦ JNull]; "n" ↦ JNum 5];
                   obj ["a" ↦ JNull; "f" ↦ JBool true]]
  = (obj ["a" ↦ JNum 1; "b" ↦ obj ["c" ↦ JList [JNum 3]; "d" ↦ JStr (lit "x"); "e" ↦ JNull]; "n" ↦ JNum 5; "f" ↦ JBool true], None).
Proof. reflexivity. Qed.
Example C40_example_conflict : merge_all JNull [obj ["a" ↦ JNum 1]; obj ["a" ↦ obj []]] = (obj ["a" ↦ JNum 1], Some TypeError).
Proof. reflexivity. Qed.

(** ** C54: auto-defaults *)
Section C54.
  Variables auto_default auto_default_nulls auto_remove_nulls : bool.
  Variable other : nat -> json -> list nat.
  Notation visit' := (visit auto_default auto_default_nulls auto_remove_nulls other).

  (** Present values that are not null stay. *)
  Theorem C54_present_kept : forall s v p x, at_path p v = Some x -> x <> JNull ->
    same_node (Some x) (at_path p (fst (visit' s v))).
  Proof. intros s v p x E N. apply (visit_keeps _ _ _ other s v p x E N). Qed.
  (** What appears, or takes the place of a null, belongs to a default of the schema. *)
  Theorem C54_only_defaults : forall s v q x, at_path q (fst (visit' s v)) = Some x ->
    at_path q v = None \/ (at_path q v = Some JNull /\ x <> JNull) ->
    exists p r d, q = p ++ r /\ declares s p d /\ p <> [].
  Proof. intros s v q x E N. apply (visit_explained _ _ _ other s v q x E N). Qed.

  (** One property *)
  Definition after (ps : list (pystr * schema)) (d : list (pystr * json)) (p : pystr) : option json :=
    at_path [p] (fst (visit_kw auto_default auto_default_nulls auto_remove_nulls other (KProps ps) (JDict d))).
  Lemma after_eq : forall ps d p sub, NoDup (map fst ps) -> In (p, sub) ps ->
    after ps d p = match (if installed auto_default auto_default_nulls auto_remove_nulls
                          then sget p (fill_prop auto_default auto_default_nulls auto_remove_nulls p sub d) else sget p d) with
                   | Some x => Some (fst (visit' sub x)) | None => None end.
  Proof.
    intros ps d p sub ND Hp. unfold after. rewrite visit_kw_props.
    destruct (visit_props _ _ _ other ps _) as [d2 es] eqn:E. cbn [fst at_path].
    assert (E2 : d2 = fst (visit_props auto_default auto_default_nulls auto_remove_nulls other ps (fill auto_default auto_default_nulls auto_remove_nulls ps d))) by (rewrite E; reflexivity).
    rewrite E2, (visit_props_get _ _ _ _ ps _ p sub ND Hp), (fill_get _ _ _ ps d p sub ND Hp).
    destruct (if installed _ _ _ then _ else _); reflexivity.
  Qed.
  Lemma visited_node : forall s x, same_node (Some (fst (visit' s x))) (Some x).
  Proof.
    intros s x. destruct (is_mapping x) eqn:M; [|left; rewrite visit_not_dict by exact M; reflexivity].
    destruct x; try discriminate. apply same_node_sym.
    apply (C54_present_kept s (JDict d) [] (JDict d) eq_refl). discriminate.
  Qed.
  Lemma switched_on : forall v f, switched v f true -> first_defined v f = true.
  Proof. intros v f [->|[[->| ->] ->]]; reflexivity. Qed.
  Lemma switched_off : forall v f, switched v f false -> first_defined v f = false.
  Proof. intros v f [->|[[->| ->] ->]]; reflexivity. Qed.

  Lemma no_null : forall sub, ~ allows_null sub -> null_in_type (get_type sub) = false.
  Proof. intros sub N. destruct (null_in_type (get_type sub)) eqn:E; [|reflexivity]. apply allows_null_spec in E. contradiction. Qed.

  Section Property.
    Variables (ps : list (pystr * schema)) (d : list (pystr * json)) (p : pystr) (sub : schema).
    Hypothesis ND : NoDup (map fst ps).
    Hypothesis Hp : In (p, sub) ps.
    Hypothesis Hon : auto_default = true \/ auto_default_nulls = true \/ auto_remove_nulls = true.
    Lemma is_installed : installed auto_default auto_default_nulls auto_remove_nulls = true.
    Proof. unfold installed. destruct Hon as [->|[->| ->]]; rewrite ?orb_true_r; reflexivity. Qed.

    Theorem C54_missing_filled : forall v, get_default sub = Some v -> switched (get_auto sub) auto_default true ->
      sget p d = None -> same_node (after ps d p) (Some v).
    Proof.
      intros v Ed Ha E. rewrite (after_eq ps d p sub ND Hp), is_installed. unfold fill_prop.
      rewrite Ed, E, (switched_on _ _ Ha). cbn [andb orb]. rewrite sget_sset_eq. apply visited_node.
    Qed.
    Theorem C54_missing_left : get_default sub = None \/ switched (get_auto sub) auto_default false ->
      sget p d = None -> after ps d p = None.
    Proof.
      intros H E. rewrite (after_eq ps d p sub ND Hp), is_installed. unfold fill_prop.
      rewrite E, !andb_false_r. destruct H as [->|Ha]; [rewrite E; reflexivity|].
      rewrite (switched_off _ _ Ha). cbn [andb orb]. destruct (get_default sub); rewrite E; reflexivity.
    Qed.
    Theorem C54_null_filled : forall v, get_default sub = Some v -> switched (get_auto_null sub) auto_default_nulls true ->
      ~ allows_null sub -> sget p d = Some JNull -> same_node (after ps d p) (Some v).
    Proof.
      intros v Ed Ha T E. apply no_null in T. rewrite (after_eq ps d p sub ND Hp), is_installed. unfold fill_prop.
      rewrite Ed, E, (switched_on _ _ Ha), T. cbn [andb orb negb is_null is_type]. rewrite orb_true_r, sget_sset_eq. apply visited_node.
    Qed.
    Theorem C54_null_removed : get_default sub = None \/ switched (get_auto_null sub) auto_default_nulls false ->
      switched (get_remove_null sub) auto_remove_nulls true ->
      ~ allows_null sub -> sget p d = Some JNull -> after ps d p = None.
    Proof.
      intros H Hr T E. apply no_null in T. rewrite (after_eq ps d p sub ND Hp), is_installed. unfold fill_prop.
      rewrite E, (switched_on _ _ Hr), T. cbn [andb orb negb is_null is_type]. rewrite andb_false_r. cbn [orb].
      destruct H as [->|Ha]; [rewrite sget_sdel_eq; reflexivity|].
      rewrite (switched_off _ _ Ha). cbn [andb]. destruct (get_default sub); rewrite sget_sdel_eq; reflexivity.
    Qed.
    (** Nulls stay if the type allows them, or nothing is to be done about them. *)
    Theorem C54_null_kept :
      allows_null sub
      \/ ((get_default sub = None \/ switched (get_auto_null sub) auto_default_nulls false)
          /\ switched (get_remove_null sub) auto_remove_nulls false) ->
      sget p d = Some JNull -> after ps d p = Some JNull.
    Proof.
      intros H E. rewrite (after_eq ps d p sub ND Hp), is_installed. unfold fill_prop. rewrite E.
      assert (V : fst (visit' sub JNull) = JNull) by (apply visit_not_dict; reflexivity).
      rewrite andb_false_r. cbn [orb].
      destruct H as [T|[H Hr]].
      - apply allows_null_spec in T. rewrite T. cbn [negb]. rewrite !andb_false_r. cbn [andb]. destruct (get_default sub); rewrite E, V; reflexivity.
      - rewrite (switched_off _ _ Hr). cbn [andb]. destruct H as [->|Ha]; [rewrite E, V; reflexivity|].
        rewrite (switched_off _ _ Ha). cbn [andb]. destruct (get_default sub); rewrite E, V; reflexivity.
    Qed.
  End Property.
  (** Keys that are not declared are left. *)
  Theorem C54_undeclared_left : forall ps d k, ~ In k (map fst ps) -> after ps d k = sget k d.
  Proof.
    intros ps d k N. unfold after. rewrite visit_kw_props.
    generalize (visit_props_other auto_default auto_default_nulls auto_remove_nulls other ps (fill auto_default auto_default_nulls auto_remove_nulls ps d) k N).
    destruct (visit_props _ _ _ other ps _) as [d2 es]. cbn [fst at_path]. intros ->.
    rewrite (fill_other _ _ _ ps d k N). destruct (sget k d); reflexivity.
  Qed.
End C54.
Print Assumptions C54_present_kept.
Print Assumptions C54_only_defaults.
Print Assumptions C54_missing_filled.
Print Assumptions C54_missing_left.
Print Assumptions C54_null_filled.
Print Assumptions C54_null_removed.
Print Assumptions C54_null_kept.
Print Assumptions C54_undeclared_left.

(** Every default is there after validation, in all depths. *)
Theorem C54_all_filled : forall other nulls s v, proper s -> complete s (fst (visit true nulls false other s v)).
Proof. intros. apply visit_complete. assumption. Qed.
Print Assumptions C54_all_filled.

(** The keyword of the schema is ignored if all the parameters are off. *)
Theorem C54_keyword_ignored_refuted : exists other ps d p sub v,
  NoDup (map fst ps) /\ In (p, sub) ps /\ get_default sub = Some v /\ switched (get_auto sub) false true /\ sget p d = None /\
  after false false false other ps d p = None.
Proof.
  exists (fun _ _ => []), [("a" ↦ [KDefault (JNum 1); KAutoDefault (JBool true)])], [], (lit "a"),
    [KDefault (JNum 1); KAutoDefault (JBool true)], (JNum 1).
  split; [repeat constructor; intros []|]. split; [left; reflexivity|]. split; [reflexivity|]. split; [left; reflexivity|]. split; reflexivity.
Qed.
Print Assumptions C54_keyword_ignored_refuted.

Definition no_other : nat -> json -> list nat := fun _ _ => [].
Example C54_example :
  fst (visit true true true no_other
    [KProps ["a" ↦ [KDefault (JNum 1)];
             "b" ↦ [KType [TNumber]; KDefault (JNum 2)];
             "c" ↦ [KType [TNumber; TNull]; KDefault (JNum 3)];
             "d" ↦ [KType [TNumber]];
             "e" ↦ [KDefault (obj []); KProps ["f" ↦ [KDefault (JStr (lit "x"))]]];
             "g" ↦ [KDefault (JNum 7); KAutoDefault (JBool false)];
             "h" ↦ [KDefault (JNum 8)]]]
    (obj ["b" ↦ JNull; "c" ↦ JNull; "d" ↦ JNull; "h" ↦ JNum 0; "z" ↦ JNull]))
  = obj ["b" ↦ JNum 2; "c" ↦ JNull; "h" ↦ JNum 0; "z" ↦ JNull; "a" ↦ JNum 1; "e" ↦ obj ["f" ↦ JStr (lit "x")]].
Proof. reflexivity. Qed.

(** ** C76: validating again changes nothing *)
(** Exactly when: nothing is changed again, whatever the value, unless the nulls of
    some property are removed while its absence is filled. *)
Theorem C76_exact : forall auto_default auto_default_nulls auto_remove_nulls other s, tidy s ->
  let visited v := fst (visit auto_default auto_default_nulls auto_remove_nulls other s v) in
  (forall v, visited (visited v) = visited v) <->
  (forall q sub, property s q sub -> ~ fickle auto_default auto_default_nulls auto_remove_nulls sub)
  \/ (auto_default = false /\ auto_default_nulls = false /\ auto_remove_nulls = false).
Proof.
  intros ad adn arn other s T visited. unfold visited. destruct (installed ad adn arn) eqn:I.
  - rewrite (exact_again ad adn arn other I s T). split; [tauto|]. intros [H|(-> & -> & ->)]; [exact H|discriminate I].
  - unfold installed in I. apply orb_false_iff in I. destruct I as [I ->]. apply orb_false_iff in I. destruct I as [-> ->]. split; [tauto|]. intros _ v. now rewrite !visit_off.
Qed.
Print Assumptions C76_exact.
(** As Pandel validates: only the keywords of a schema can make it change again. *)
Theorem C76_pandel : forall other s v, tidy s ->
  (forall q sub w, property s q sub -> In (KAutoRemoveNull w) sub -> In w [JNull; JBool false]) ->
  fst (visit true false false other s (fst (visit true false false other s v))) = fst (visit true false false other s v).
Proof.
  intros other s v T H. revert v. apply (C76_exact true false false other s T). left. intros q sub P (_ & _ & _ & _ & [(w & J & M)|(_ & E)]); [|discriminate E].
  apply M. specialize (H q sub w P J). destruct H as [<-|[<-|[]]]; [now left|right; now left].
Qed.
Print Assumptions C76_pandel.
(** A null is removed, then the default is filled. *)
Theorem C76_again_refuted : exists s v, proper s /\
  fst (visit true false true no_other s v) = obj [] /\
  fst (visit true false true no_other s (fst (visit true false true no_other s v))) = obj ["a" ↦ JNum 1].
Proof.
  exists [KProps ["a" ↦ [KDefault (JNum 1)]]], (obj ["a" ↦ JNull]). split; [|split; reflexivity].
  apply (proper_props [] _ []).
  - intros k [].
  - intros k [].
  - repeat constructor. intros [].
  - intros p sub v [E|[]]. injection E as <- <-. repeat split; intros [E|[]]; discriminate.
  - intros p sub [E|[]]. injection E as <- <-. apply proper_none. intros k [<-|[]]. exact I.
Qed.
Print Assumptions C76_again_refuted.
Example C76_example :
  let s := [KProps ["a" ↦ [KDefault (obj []); KProps ["b" ↦ [KDefault (JNum 1)]]]]] in
  fst (visit true false false no_other s (obj [])) = obj ["a" ↦ obj ["b" ↦ JNum 1]] /\
  fst (visit true false false no_other s (obj ["a" ↦ obj ["b" ↦ JNum 1]])) = obj ["a" ↦ obj ["b" ↦ JNum 1]].
Proof. split; reflexivity. Qed.
(** A keyword of the schema makes a nested property come and go. *)
Example C76_exact_example :
  let sub := [KAutoRemoveNull (JBool true); KDefault JNull] in
  let s := [KType [TObject]; KProps ["a" ↦ [KProps ["b" ↦ sub]]]] in
  tidy s /\ property s [lit "a"; lit "b"] sub /\ fickle true false false sub /\
  fst (visit true false false no_other s (obj ["a" ↦ obj []])) = obj ["a" ↦ obj ["b" ↦ JNull]] /\
  fst (visit true false false no_other s (obj ["a" ↦ obj ["b" ↦ JNull]])) = obj ["a" ↦ obj []].
Proof.
  intros sub s. split; [|split; [|split; [|split; reflexivity]]].
  - assert (Tsub : tidy sub).
    { constructor; [repeat constructor; cbn; intuition discriminate| |]; intros ps; [|intros p x]; intros [E|[E|[]]]; discriminate. }
    assert (Ta : tidy [KProps ["b" ↦ sub]]).
    { constructor; [repeat constructor; cbn; intuition discriminate| |].
      - intros ps [E|[]]. injection E as <-. repeat constructor. intros [].
      - intros ps p x [E|[]]. injection E as <-. intros [E|[]]. injection E as <- <-. exact Tsub. }
    constructor; [repeat constructor; cbn; intuition discriminate| |].
    + intros ps [E|[E|[]]]; [discriminate|]. injection E as <-. repeat constructor. intros [].
    + intros ps p x [E|[E|[]]]; [discriminate|]. injection E as <-. intros [E|[]]. injection E as <- <-. exact Ta.
  - apply (property_deeper _ ["a" ↦ [KProps ["b" ↦ sub]]] _ [KProps ["b" ↦ sub]]); [right; now left|now left|]. apply (property_here _ ["b" ↦ sub]); now left.
  - split; [exists JNull; right; now left|]. split; [intros ts [E|[E|[]]]; discriminate|]. split; [|split].
    + right. split; [|reflexivity]. intros v [E|[E|[]]]; discriminate.
    + intros [(v & [E|[E|[]]] & _)|(_ & E)]; discriminate.
    + left. exists (JBool true). split; [now left|]. intros H. repeat (destruct H as [H|H]; [discriminate H|]). exact H.
Qed.

(** ** C75: the order of the keywords *)

(** With no defaults, it matters not. *)
Theorem C75_order_partial : forall other s s' v, Permutation s s' ->
  fst (visit false false false other s v) = v /\
  Permutation (snd (visit false false false other s v)) (snd (visit false false false other s' v)).
Proof.
  intros other s s' v P. rewrite !visit_off. split; [reflexivity|]. cbn [snd].
  induction P; cbn [flat_map].
  - constructor.
  - apply Permutation_app_head. assumption.
  - rewrite !app_assoc. apply Permutation_app_tail, Permutation_app_comm.
  - eapply perm_trans; eassumption.
Qed.
Print Assumptions C75_order_partial.
(** With defaults, what comes out is still the same, also if the order differs inside properties. *)
Theorem C75_value : forall ad adn arn other s s' v, distinct s -> reordered s s' ->
  fst (visit ad adn arn other s v) = fst (visit ad adn arn other s' v).
Proof. intros ad adn arn other s s' v D R. apply visit_reordered; assumption. Qed.
Print Assumptions C75_value.
Example C75_value_example :
  let s := [KProps ["a" ↦ [KDefault (obj []); KProps ["b" ↦ [KDefault (JNum 1)]]]]; KRequired [lit "c"]] in
  let s' := [KRequired [lit "c"]; KProps ["a" ↦ [KProps ["b" ↦ [KDefault (JNum 1)]]; KDefault (obj [])]]] in
  reordered s s' /\ fst (visit true false false no_other s (obj [])) = obj ["a" ↦ obj ["b" ↦ JNum 1]] /\
  fst (visit true false false no_other s' (obj [])) = obj ["a" ↦ obj ["b" ↦ JNum 1]].
Proof.
  cbv zeta. split; [|split; reflexivity]. eapply reordered_trans; [apply reordered_here, perm_swap|].
  apply (reordered_inside [KRequired [lit "c"]] [] (lit "a") _ _ [] []). apply reordered_here, perm_swap.
Qed.
(** So do the errors, if what is required and the other keywords come after the properties. *)
Theorem C75_errors_partial : forall ad adn arn other s s' v, distinct s -> late s -> late s' -> Permutation s s' ->
  Permutation (snd (visit ad adn arn other s v)) (snd (visit ad adn arn other s' v)).
Proof. intros ad adn arn other s s' v D L L' P. apply errors_perm; auto. apply (distinct_inv _ D). Qed.
Print Assumptions C75_errors_partial.
Example C75_errors_example :
  let s := [KType [TArray]; KProps ["a" ↦ [KDefault (JNum 1); KType [TString]]]; KRequired [lit "a"; lit "b"]] in
  let s' := [KProps ["a" ↦ [KDefault (JNum 1); KType [TString]]]; KRequired [lit "a"; lit "b"]; KType [TArray]] in
  snd (visit true false false no_other s (obj [])) = [WrongType; WrongType; Missing (lit "b")] /\
  snd (visit true false false no_other s' (obj [])) = [WrongType; Missing (lit "b"); WrongType].
Proof. split; reflexivity. Qed.
(** Exactly: what comes before the properties is asked of the instance given, what comes after
    them of what they made of it. *)
Theorem C75_exact : forall ad adn arn other s1 ps s2 v e, distinct (s1 ++ KProps ps :: s2) ->
  (In e (snd (visit ad adn arn other (s1 ++ KProps ps :: s2) v)) <->
   (exists k, In k s1 /\ complains other k v e) \/
   In e (snd (visit ad adn arn other [KProps ps] v)) \/
   (exists k, In k s2 /\ complains other k (fst (visit ad adn arn other (s1 ++ KProps ps :: s2) v)) e)).
Proof. intros ad adn arn other s1 ps s2 v e D. apply errors_exact. exact (proj1 (distinct_inv _ D)). Qed.
Print Assumptions C75_exact.
(** So other errors come only from what was moved over the properties. *)
Theorem C75_moved : forall ad adn arn other s1 s1' ps s2 s2' v e,
  distinct (s1 ++ KProps ps :: s2) -> Permutation (s1 ++ KProps ps :: s2) (s1' ++ KProps ps :: s2') ->
  In e (snd (visit ad adn arn other (s1 ++ KProps ps :: s2) v)) ->
  In e (snd (visit ad adn arn other (s1' ++ KProps ps :: s2') v)) \/
  exists k, asks k /\ ((In k s1 /\ In k s2' /\ complains other k v e) \/
    (In k s2 /\ In k s1' /\ complains other k (fst (visit ad adn arn other (s1 ++ KProps ps :: s2) v)) e)).
Proof. intros ad adn arn other s1 s1' ps s2 s2' v e D P. apply errors_moved; [exact (proj1 (distinct_inv _ D))|exact P]. Qed.
Print Assumptions C75_moved.
Example C75_moved_example :
  let ps := KProps ["a" ↦ [KDefault (JNum 1); KType [TString]]] in
  snd (visit true false false no_other ([KRequired [lit "a"; lit "b"]] ++ ps :: [KType [TArray]]) (obj [])) = [Missing (lit "a"); Missing (lit "b"); WrongType; WrongType] /\
  snd (visit true false false no_other ([KType [TArray]] ++ ps :: [KRequired [lit "a"; lit "b"]]) (obj [])) = [WrongType; WrongType; Missing (lit "b")] /\
  complains no_other (KRequired [lit "a"; lit "b"]) (obj []) (Missing (lit "a")).
Proof. split; [reflexivity|]. split; [reflexivity|]. exists [], (lit "a"). repeat split. now left. Qed.
(** What is required may be filled too late. *)
Theorem C75_order_refuted : exists s s' v, Permutation s s' /\
  visit true false false no_other s v = (obj ["a" ↦ JNum 1], []) /\
  visit true false false no_other s' v = (obj ["a" ↦ JNum 1], [Missing (lit "a")]).
Proof.
  exists [KProps ["a" ↦ [KDefault (JNum 1)]]; KRequired [lit "a"]], [KRequired [lit "a"]; KProps ["a" ↦ [KDefault (JNum 1)]]], (obj []).
  split; [constructor|]. split; reflexivity.
Qed.
Print Assumptions C75_order_refuted.
Example C75_example : snd (visit false false false no_other
  [KType [TArray]; KRequired [lit "a"; lit "b"]; KProps ["c" ↦ [KType [TString]]]] (obj ["a" ↦ JNum 1; "c" ↦ JNum 2]))
  = [WrongType; Missing (lit "b"); WrongType].
Proof. reflexivity. Qed.

(** ** C41: values given and defaults *)
Section C41.
  Variable other : nat -> json -> list nat.
  Variables pre full : schema.
  Notation pre' := (fun m => fst (check other pre m)).

  Lemma build_inv : forall ms c, build other pre full [] ms = inl c ->
    exists m, merge_all JNull (map pre' ms) = (m, None) /\ c = fst (check other full m).
  Proof.
    intros ms c. unfold build, build_iter, prevalidate.
    destruct (flat_map _ ms); [|discriminate].
    destruct (merge_all JNull _) as [m [e|]]; [discriminate|].
    destruct (check other full m) as [m' es] eqn:E. destruct es; [|discriminate]. cbn. intro H. injection H as <-.
    exists m. split; [reflexivity|]. rewrite E. reflexivity.
  Qed.
  Hypothesis Dpre : defaults_ok pre.
  Lemma pre_dicts_ok : forall ms, Forall dicts_ok ms -> Forall dicts_ok (map pre' ms).
  Proof.
    intros ms W. rewrite Forall_forall in *. intros x Hx. apply in_map_iff in Hx. destruct Hx as [m [<- Hm]].
    apply visit_dicts_ok; [exact Dpre|apply W; exact Hm].
  Qed.
  Lemma keep_value : forall s v p x, at_path p v = Some x -> x <> JNull -> (forall d, x <> JDict d) ->
    at_path p (fst (check other s v)) = Some x.
  Proof.
    intros s v p x E N ND. destruct (visit_keeps true false false other s v p x E N) as [H|[d [d' [H _]]]]; [symmetry; exact H|].
    injection H as ->. destruct (ND d eq_refl).
  Qed.

  (** The top sub-model has its way. *)
  Theorem C41_top_kept : forall ms m c p v, Forall dicts_ok (ms ++ [m]) -> build other pre full [] (ms ++ [m]) = inl c ->
    at_path p m = Some v -> v <> JNull -> (forall s, v <> JStr s) -> (forall d, v <> JDict d) ->
    at_path p c = Some v.
  Proof.
    intros ms m c p v W B E N NS ND. destruct (build_inv _ _ B) as [mm [M ->]].
    apply keep_value; try assumption. rewrite map_app in M. cbn [map] in M.
    apply (C40_last_non_null _ _ _ _ p v) in M; try assumption.
    - generalize (pre_dicts_ok _ W). rewrite map_app. exact (fun H => H).
    - apply keep_value; assumption.
    - intros m' [].
  Qed.
  (** Where the schema for pre-validation has no defaults, every sub-model. *)
  Theorem C41_no_defaults_partial : forall lower m upper c p v, (forall q r d, p = q ++ r -> ~ declares pre q d) ->
    Forall dicts_ok (lower ++ m :: upper) -> build other pre full [] (lower ++ m :: upper) = inl c ->
    at_path p m = Some v -> v <> JNull -> (forall s, v <> JStr s) -> (forall d, v <> JDict d) ->
    (forall m', In m' upper -> at_path p m' = None \/ at_path p m' = Some JNull) ->
    at_path p c = Some v.
  Proof.
    intros lower m upper c p v H W B E N NS ND U. destruct (build_inv _ _ B) as [mm [M ->]].
    apply keep_value; try assumption. rewrite map_app in M. cbn [map] in M.
    apply (C40_last_non_null _ _ _ _ p v) in M; try assumption.
    - generalize (pre_dicts_ok _ W). rewrite map_app. exact (fun H => H).
    - apply keep_value; assumption.
    - intros m' Hm'. apply in_map_iff in Hm'. destruct Hm' as [m0 [<- Hm0]].
      destruct (at_path p (fst (check other pre m0))) as [y|] eqn:Ey; [|now left]. right.
      assert (D : y = JNull \/ y <> JNull) by (destruct y; auto; right; discriminate). destruct D as [->|D]; [reflexivity|].
      destruct (visit_explained true false false other pre m0 p y Ey) as (q & r & d & Eq & Dq & _); [|destruct (H q r d Eq Dq)].
      destruct (U m0 Hm0) as [E0|E0]; [now left|right; now split].
  Qed.
  (** Only a default can take its place: one filled into an upper sub-model by the pre-validation.
      The last one so filled does. *)
  Theorem C41_exact : forall lower m upper c p v,
    Forall dicts_ok (lower ++ m :: upper) -> build other pre full [] (lower ++ m :: upper) = inl c ->
    at_path p m = Some v -> v <> JNull -> (forall s, v <> JStr s) -> (forall d, v <> JDict d) ->
    (forall m', In m' upper -> at_path p m' = None \/ at_path p m' = Some JNull) ->
    (at_path p c = Some v \/
     exists m' y q r d, In m' upper /\ at_path p (pre' m') = Some y /\ y <> JNull /\ p = q ++ r /\ declares pre q d) /\
    (forall upper1 m' upper2 y, upper = upper1 ++ m' :: upper2 ->
       at_path p (pre' m') = Some y -> y <> JNull -> (forall s, y <> JStr s) -> (forall d, y <> JDict d) ->
       (forall m'', In m'' upper2 -> at_path p (pre' m'') = None \/ at_path p (pre' m'') = Some JNull) ->
       at_path p c = Some y).
  Proof.
    intros lower m upper c p v W B E N NS ND U. destruct (build_inv _ _ B) as [mm [M ->]].
    pose proof (pre_dicts_ok _ W) as W'. split.
    - rewrite map_app in M, W'. cbn [map] in M, W'.
      assert (X : (forall m', In m' upper -> at_path p (pre' m') = None \/ at_path p (pre' m') = Some JNull) \/
                  exists m' y, In m' upper /\ at_path p (pre' m') = Some y /\ y <> JNull).
      { clear - other. induction upper as [|a l IH]; [left; intros m' []|].
        destruct IH as [IH|(m' & y & H1 & H2)]; [|right; exists m', y; split; [now right|exact H2]].
        destruct (at_path p (pre' a)) as [y|] eqn:Ey.
        - assert (D : y = JNull \/ y <> JNull) by (destruct y; auto; right; discriminate). destruct D as [->|D].
          + left. intros m' [<-|Hm]; [now right|now apply IH].
          + right. exists a, y. split; [now left|]. now split.
        - left. intros m' [<-|Hm]; [now left|now apply IH]. }
      destruct X as [X|(m' & y & H1 & H2 & H3)].
      + left. apply keep_value; try assumption. apply (C40_last_non_null _ _ _ _ p v) in M; try assumption.
        * apply keep_value; assumption.
        * intros m' Hm'. apply in_map_iff in Hm'. destruct Hm' as [m0 [<- Hm0]]. now apply X.
      + right. destruct (visit_explained true false false other pre m' p y H2) as (q & r & d & Eq & Dq & _).
        * destruct (U m' H1) as [E0|E0]; [now left|right; now split].
        * exists m', y, q, r, d. repeat split; assumption.
    - intros upper1 m' upper2 y -> Ey Ny NSy NDy L. apply keep_value; try assumption.
      assert (R : lower ++ m :: upper1 ++ m' :: upper2 = (lower ++ m :: upper1) ++ m' :: upper2) by (rewrite <- app_assoc; reflexivity).
      rewrite R, map_app in M, W'. cbn [map] in M, W'.
      apply (C40_last_non_null _ _ _ _ p y) in M; try assumption.
      intros x Hx. apply in_map_iff in Hx. destruct Hx as [m0 [<- Hm0]]. now apply L.
  Qed.
End C41.
Print Assumptions C41_exact.
Print Assumptions C41_top_kept.
Print Assumptions C41_no_defaults_partial.
Example C41_exact_example :
  let s := [KProps ["a" ↦ [KDefault (JNum 1)]; "b" ↦ []]] in
  build no_other s [] [] [obj ["a" ↦ JNum 5; "b" ↦ JNum 6]; obj ["c" ↦ JNum 7]] = inl (obj ["a" ↦ JNum 1; "b" ↦ JNum 6; "c" ↦ JNum 7]).
Proof. reflexivity. Qed.
(** A default filled into the upper sub-model overrides the value of the lower one. *)
Theorem C41_default_wins_refuted : exists s lower upper,
  at_path [lit "a"] lower = Some (JNum 5) /\ at_path [lit "a"] upper = None /\
  build no_other s s [] [lower; upper] = inl (obj ["a" ↦ JNum 1]).
Proof. exists [KProps ["a" ↦ [KDefault (JNum 1)]]], (obj ["a" ↦ JNum 5]), (obj []). repeat split. Qed.
Print Assumptions C41_default_wins_refuted.
Example C41_example :
  build no_other [] [KType [TObject]; KProps ["a" ↦ [KDefault (JNum 1)]; "b" ↦ [KDefault (JNum 2)]]] []
    [obj ["a" ↦ JNum 5]; obj ["c" ↦ JNum 6]] = inl (obj ["a" ↦ JNum 5; "c" ↦ JNum 6; "b" ↦ JNum 2]).
Proof. reflexivity. Qed.

(** ** C42: phases *)
Section C42.
  Variable other : nat -> json -> list nat.
  Variables pre full : schema.
  Variable funcs : list (json -> json * option exn).
  Notation pre' := (fun m => fst (check other pre m)).

  (** What stops a build *)
  Lemma build_cases : forall ms,
    let r := build_iter other pre full funcs ms in
    (exists es, es <> [] /\ Forall of_check es /\ es = flat_map (fun m => snd (check other pre m)) ms
                /\ r = Built (map pre' ms) JNull (es ++ [GaveUp 1]))
    \/ flat_map (fun m => snd (check other pre m)) ms = [] /\
       ((exists m e, merge_all JNull (map pre' ms) = (m, Some e) /\ r = Built (map pre' ms) m [reported 2 e; GaveUp 2])
        \/ exists m, merge_all JNull (map pre' ms) = (m, None) /\
           ((exists m' es, check other full m = (m', es) /\ es <> [] /\ Forall of_check es /\ r = Built (map pre' ms) m' (es ++ [GaveUp 3]))
            \/ exists m', check other full m = (m', []) /\
               ((exists m'' e, curate funcs m' = (m'', Some e) /\ r = Built (map pre' ms) m'' [reported 4 e; GaveUp 4])
                \/ exists m'', curate funcs m' = (m'', None) /\ r = Built (map pre' ms) m'' []))).
  Proof.
    intros ms r. subst r. unfold build_iter, prevalidate.
    assert (F : Forall of_check (flat_map (fun m => snd (check other pre m)) ms)).
    { apply Forall_flat_map. rewrite Forall_forall. intros m _. apply visit_errors. }
    destruct (flat_map _ ms) as [|e es] eqn:Ef.
    - right. split; [reflexivity|]. destruct (merge_all JNull _) as [m [e|]]; [left; eauto|]. right. exists m. split; [reflexivity|].
      destruct (check other full m) as [m' es] eqn:Ec. destruct es as [|e es].
      + right. exists m'. split; [reflexivity|]. destruct (curate funcs m') as [m'' [e|]]; [left|right]; eauto.
      + left. exists m', (e :: es). split; [reflexivity|]. split; [discriminate|]. split; [|reflexivity].
        generalize (visit_errors true false false other full m). unfold check in Ec. rewrite Ec. exact (fun H => H).
    - left. exists (e :: es). split; [discriminate|]. split; [exact F|]. split; reflexivity.
  Qed.

  (** Errors are closed by one notice. *)
  Theorem C42_one_notice : forall ms, b_errors (build_iter other pre full funcs ms) <> [] ->
    exists es i, b_errors (build_iter other pre full funcs ms) = es ++ [GaveUp i] /\ es <> [] /\ (1 <= i <= 4)%nat
                 /\ forall j, ~ In (GaveUp j) es.
  Proof.
    intros ms H.
    assert (K : forall es, Forall of_check es -> forall j, ~ In (GaveUp j) es).
    { intros es F j Hin. rewrite Forall_forall in F. apply (F _ Hin). }
    assert (R : forall n e j, ~ In (GaveUp j) [reported n e]).
    { intros n e j [Hin|[]]. destruct e; discriminate. }
    destruct (build_cases ms) as [[es [N [F [_ ->]]]]|[_ [[m [e [_ ->]]]|[m [_ [[m' [es [_ [N [F ->]]]]]|[m' [_ [[m'' [e [_ ->]]]|[m'' [_ E]]]]]]]]]]].
    - exists es, 1%nat. cbn. split; [reflexivity|]. split; [exact N|]. split; [lia|]. apply K, F.
    - exists [reported 2 e], 2%nat. cbn. split; [reflexivity|]. split; [discriminate|]. split; [lia|]. apply R.
    - exists es, 3%nat. cbn. split; [reflexivity|]. split; [exact N|]. split; [lia|]. apply K, F.
    - exists [reported 4 e], 4%nat. cbn. split; [reflexivity|]. split; [discriminate|]. split; [lia|]. apply R.
    - rewrite E in H. destruct H. reflexivity.
  Qed.
  (** The phases after a failed one do not run: whatever they are, all is the same. *)
  Theorem C42_prevalidation_stops : forall ms full' funcs', In (GaveUp 1) (b_errors (build_iter other pre full funcs ms)) ->
    build_iter other pre full' funcs' ms = build_iter other pre full funcs ms /\ b_model (build_iter other pre full funcs ms) = JNull.
  Proof.
    intros ms full' funcs' H.
    destruct (build_cases ms) as [[es [N [F [Ee E]]]]|[_ [[m [e [_ E]]]|[m [_ [[m' [es [_ [N [F E]]]]]|[m' [_ [[m'' [e [_ E]]]|[m'' [_ E]]]]]]]]]]].
    - rewrite E. split; [|reflexivity]. unfold build_iter, prevalidate. rewrite <- Ee. destruct es; [congruence|reflexivity].
    - rewrite E in H. cbn in H. destruct H as [H|[H|[]]]; [destruct e; discriminate|discriminate].
    - rewrite E in H. cbn in H. apply in_app_or in H. destruct H as [H|[H|[]]]; [|discriminate].
      rewrite Forall_forall in F. destruct (F _ H).
    - rewrite E in H. cbn in H. destruct H as [H|[H|[]]]; [destruct e; discriminate|discriminate].
    - rewrite E in H. destruct H.
  Qed.
  Theorem C42_merging_stops : forall ms full' funcs', In (GaveUp 2) (b_errors (build_iter other pre full funcs ms)) ->
    build_iter other pre full' funcs' ms = build_iter other pre full funcs ms.
  Proof.
    intros ms full' funcs' H.
    destruct (build_cases ms) as [[es [N [F [Ee E]]]]|[Ef [[m [e [Em E]]]|[m [_ [[m' [es [_ [N [F E]]]]]|[m' [_ [[m'' [e [_ E]]]|[m'' [_ E]]]]]]]]]]].
    - rewrite E in H. cbn in H. apply in_app_or in H. destruct H as [H|[H|[]]]; [|discriminate].
      rewrite Forall_forall in F. destruct (F _ H).
    - rewrite E. unfold build_iter, prevalidate. rewrite Ef, Em. reflexivity.
    - rewrite E in H. cbn in H. apply in_app_or in H. destruct H as [H|[H|[]]]; [|discriminate].
      rewrite Forall_forall in F. destruct (F _ H).
    - rewrite E in H. cbn in H. destruct H as [H|[H|[]]]; [destruct e; discriminate|discriminate].
    - rewrite E in H. destruct H.
  Qed.
  Theorem C42_validation_stops : forall ms funcs', In (GaveUp 3) (b_errors (build_iter other pre full funcs ms)) ->
    build_iter other pre full funcs' ms = build_iter other pre full funcs ms.
  Proof.
    intros ms funcs' H.
    destruct (build_cases ms) as [[es [N [F [Ee E]]]]|[Ef [[m [e [Em E]]]|[m [Em [[m' [es [Ec [N [F E]]]]]|[m' [_ [[m'' [e [_ E]]]|[m'' [_ E]]]]]]]]]]].
    - rewrite E in H. cbn in H. apply in_app_or in H. destruct H as [H|[H|[]]]; [|discriminate].
      rewrite Forall_forall in F. destruct (F _ H).
    - rewrite E in H. cbn in H. destruct H as [H|[H|[]]]; [destruct e; discriminate|discriminate].
    - rewrite E. unfold build_iter, prevalidate. rewrite Ef, Em, Ec. destruct es; [congruence|reflexivity].
    - rewrite E in H. cbn in H. destruct H as [H|[H|[]]]; [destruct e; discriminate|discriminate].
    - rewrite E in H. destruct H.
  Qed.
  (** Curation stops at the first function that raises. *)
  Theorem C42_curation : forall fs1 f fs2 m m1 m2 e, curate fs1 m = (m1, None) -> f m1 = (m2, Some e) -> curate (fs1 ++ f :: fs2) m = (m2, Some e).
  Proof.
    induction fs1 as [|g fs1 IH]; intros f fs2 m m1 m2 e E Ef; cbn in *.
    - injection E as ->. rewrite Ef. reflexivity.
    - destruct (g m) as [m' [e'|]]; [discriminate|]. apply (IH _ _ _ m1); assumption.
  Qed.
  (** A build succeeds if all the phases do. *)
  Theorem C42_success : forall ms c, build other pre full funcs ms = inl c <->
    (forall m, In m ms -> snd (check other pre m) = []) /\
    exists m m', merge_all JNull (map pre' ms) = (m, None) /\ check other full m = (m', []) /\ curate funcs m' = (c, None).
  Proof.
    intros ms c.
    assert (A : flat_map (fun m => snd (check other pre m)) ms = [] <-> forall m, In m ms -> snd (check other pre m) = []).
    { induction ms as [|m ms IH]; cbn; [split; [intros _ m []|reflexivity]|]. split.
      - intros H m0 [<-|Hm]; apply app_eq_nil in H; [apply H|]. apply IH; [apply H|exact Hm].
      - intro H. rewrite (H m (or_introl eq_refl)). apply IH. intros m0 Hm. apply H. right. exact Hm. }
    unfold build. destruct (build_cases ms) as [[es [N [F [Ee ->]]]]|[Ef [[m [e [Em ->]]]|[m [Em [[m' [es [Ec [N [F ->]]]]]|[m' [Ec [[m'' [e [Eu ->]]]|[m'' [Eu ->]]]]]]]]]]]; cbn [b_errors b_model].
    - split.
      + destruct es; [congruence|discriminate].
      + intros [H _]. apply A in H. congruence.
    - split; [discriminate|]. intros [_ [m1 [m1' [E1 _]]]]. congruence.
    - split; [destruct es; [congruence|discriminate]|]. intros [_ [m1 [m1' [E1 [E2 _]]]]]. congruence.
    - split; [discriminate|]. intros [_ [m1 [m1' [E1 [E2 E3]]]]]. congruence.
    - split.
      + intro H. injection H as <-. split; [apply A; exact Ef|]. eauto 6.
      + intros [_ [m1 [m1' [E1 [E2 E3]]]]]. congruence.
  Qed.
  (** What a phase raises is yielded: as it is, or wrapped. *)
  Theorem C42_raised : forall ms e m, (forall m, In m ms -> snd (check other pre m) = []) -> merge_all JNull (map pre' ms) = (m, Some e) ->
    (e = ValidationError -> b_errors (build_iter other pre full funcs ms) = [Raised; GaveUp 2]) /\
    (e <> ValidationError -> b_errors (build_iter other pre full funcs ms) = [Failed 2 e; GaveUp 2]) /\
    b_model (build_iter other pre full funcs ms) = m.
  Proof.
    intros ms e m A E. unfold build_iter, prevalidate. rewrite E.
    assert (X : flat_map (fun m => snd (check other pre m)) ms = []).
    { clear E. induction ms as [|m0 ms IH]; [reflexivity|]. cbn. rewrite (A m0 (or_introl eq_refl)). apply IH. intros m1 Hm. apply A. right. exact Hm. }
    rewrite X. split; [intros ->; reflexivity|]. split; [|reflexivity]. intro N. destruct e; try reflexivity. congruence.
  Qed.
  Theorem C42_curation_raised : forall ms e m m' m'', (forall m, In m ms -> snd (check other pre m) = []) ->
    merge_all JNull (map pre' ms) = (m, None) -> check other full m = (m', []) -> curate funcs m' = (m'', Some e) ->
    (e = ValidationError -> b_errors (build_iter other pre full funcs ms) = [Raised; GaveUp 4]) /\
    (e <> ValidationError -> b_errors (build_iter other pre full funcs ms) = [Failed 4 e; GaveUp 4]) /\
    b_model (build_iter other pre full funcs ms) = m''.
  Proof.
    intros ms e m m' m'' A E E2 E3. unfold build_iter, prevalidate. rewrite E, E2, E3.
    assert (X : flat_map (fun m => snd (check other pre m)) ms = []).
    { clear E. induction ms as [|m0 ms IH]; [reflexivity|]. cbn. rewrite (A m0 (or_introl eq_refl)). apply IH. intros m1 Hm. apply A. right. exact Hm. }
    rewrite X. split; [intros ->; reflexivity|]. split; [|reflexivity]. intro N. destruct e; try reflexivity. congruence.
  Qed.
  (** Otherwise it raises the first error. *)
  Theorem C42_first_error : forall ms e, build other pre full funcs ms = inr e <->
    exists es, b_errors (build_iter other pre full funcs ms) = e :: es.
  Proof.
    intros ms e. unfold build. destruct (b_errors _) as [|e' es]; split; try discriminate.
    - intros [es E]. discriminate.
    - intro E. injection E as ->. eauto.
    - intros [es' E]. congruence.
  Qed.
End C42.
Print Assumptions C42_one_notice.
Print Assumptions C42_prevalidation_stops.
Print Assumptions C42_merging_stops.
Print Assumptions C42_validation_stops.
Print Assumptions C42_curation.
Print Assumptions C42_success.
Print Assumptions C42_first_error.
Print Assumptions C42_raised.
Print Assumptions C42_curation_raised.

(** The example of the class: pandata.py:736-761 *)
Example C42_example :
  let pre := [KProps ["a" ↦ [KType [TString]]]] in
  let full := [KProps ["a" ↦ [KType [TString]]]; KRequired [lit "a"; lit "b"]] in
  b_errors (build_iter no_other pre full [] [obj ["a" ↦ JStr (lit "foo"); "c" ↦ JNum 1]]) = [Missing (lit "b"); GaveUp 3] /\
  b_errors (build_iter no_other pre full [] [obj ["a" ↦ JNum 1]; obj ["a" ↦ JNull]]) = [WrongType; WrongType; GaveUp 1] /\
  b_errors (build_iter no_other pre full [] [obj ["b" ↦ JNum 1]; obj ["b" ↦ JList []]; JStr (lit "x")]) = [Failed 2 TypeError; GaveUp 2] /\
  b_errors (build_iter no_other pre full [] [JNull]) = [Raised; GaveUp 2] /\
  build no_other pre full [fun m => (m, None); fun m => (obj [], Some KeyError)] [obj ["a" ↦ JStr []]; obj ["b" ↦ JNum 2]] = inr (Failed 4 KeyError) /\
  build no_other pre full [] [obj ["a" ↦ JStr []]; obj ["b" ↦ JNum 2]] = inl (obj ["a" ↦ JStr []; "b" ↦ JNum 2]).
Proof. repeat split. Qed.

(** ** C78: what was built conforms to the schema *)

(** The rules accept exactly what conforms. *)
Theorem C78_accepts : forall other s v, snd (visit false false false other s v) = [] <-> conforms other s v.
Proof. exact accepts_conforming. Qed.
Print Assumptions C78_accepts.
(** With types, required and nested properties, and with whatever other keywords come after the
    properties, or where there are no defaults *)
Theorem C78_built_partial : forall other pre full ms c, proper full -> timely full ->
  build other pre full [] ms = inl c -> conforms other full c.
Proof.
  intros other pre full ms c P S B. apply C42_success in B. destruct B as [_ [m [m' [_ [E C]]]]]. cbn in C. injection C as <-.
  generalize (passed_conforms other full P S m). unfold check in E. rewrite E. exact (fun H => H eq_refl).
Qed.
Print Assumptions C78_built_partial.
(** Exactly: if what comes before the properties also holds for what was built. *)
Theorem C78_exact : forall other pre full ms c, proper full -> build other pre full [] ms = inl c ->
  (conforms other full c <-> heeded other full c).
Proof.
  intros other pre full ms c P B. split; [apply conforming_heeded|]. apply C42_success in B. destruct B as [_ [m [m' [_ [E C]]]]]. cbn in C. injection C as <-.
  generalize (passed_heeded other full P m). unfold check in E. rewrite E. exact (fun H => H eq_refl).
Qed.
Print Assumptions C78_exact.
Example C78_exact_example :
  let other := fun (_ : nat) v => match v with JDict (_ :: _) => [0%nat] | _ => [] end in
  let full := [KOther 0; KProps ["a" ↦ [KDefault (JNum 1)]]] in
  build other [] full [] [obj []] = inl (obj ["a" ↦ JNum 1]) /\ ~ heeded other full (obj ["a" ↦ JNum 1]) /\ heeded other full (obj []).
Proof.
  cbv zeta. split; [reflexivity|]. split.
  - intros H. inversion H as [s v A B]; subst. discriminate (A [KOther 0] _ [] 0%nat eq_refl (or_introl eq_refl)).
  - constructor; [reflexivity|]. intros ps p sub d x _ E _ G. injection E as <-. discriminate.
Qed.
(** Keywords visited before the properties are not checked again, nor those about removed nulls. *)
Theorem C78_built_refuted :
  (exists other full ms c, proper full /\ build other [] full [] ms = inl c /\ ~ conforms other full c) /\
  (exists full ms, timely full /\ build no_other [] full [] ms = inl (obj []) /\ ~ conforms no_other full (obj [])).
Proof.
  split.
  - (* at most zero properties *)
    exists (fun _ v => match v with JDict (_ :: _) => [0%nat] | _ => [] end), [KOther 0; KProps ["a" ↦ [KDefault (JNum 1)]]], [obj []], (obj ["a" ↦ JNum 1]).
    split; [|split].
    + apply (proper_props [KOther 0] _ []).
      * intros k [<-|[]]. exact I.
      * intros k [].
      * repeat constructor. intros [].
      * intros p sub v [E|[]]. injection E as <- <-. repeat split; intros [E|[]]; discriminate.
      * intros p sub [E|[]]. injection E as <- <-. apply proper_none. intros k [<-|[]]. exact I.
    + reflexivity.
    + intro C. discriminate (proj1 (conforms_kws _ _ _) C (KOther 0) (or_introl eq_refl)).
  - exists [KRequired [lit "a"]; KProps ["a" ↦ [KAutoRemoveNull (JBool true)]]], [obj ["a" ↦ JNull]]. split; [|split].
    + constructor.
      * intros s1 ps s2 n E Hin. exfalso. assert (X : In (KOther n) [KRequired [lit "a"]; KProps ["a" ↦ [KAutoRemoveNull (JBool true)]]]).
        { rewrite E. apply in_or_app. left. exact Hin. }
        destruct X as [X|[X|[]]]; discriminate.
      * intros ps p sub [E|[E|[]]]; [discriminate|]. injection E as <-. intros [E|[]]. injection E as <- <-.
        constructor; [intros [|? [|]] ps s2 n E; discriminate|]. intros ps p sub [E|[]]. discriminate.
    + reflexivity.
    + intro C. apply (proj1 (conforms_kws _ _ _) C (KRequired [lit "a"]) (or_introl eq_refl) [] (lit "a") eq_refl (or_introl eq_refl)). reflexivity.
Qed.
Print Assumptions C78_built_refuted.
Example C78_example :
  let full := [KType [TObject]; KRequired [lit "a"]; KProps ["a" ↦ [KType [TInteger; TString]]; "b" ↦ [KDefault (JNum 1); KType [TString]]]] in
  build no_other [] full [] [obj ["a" ↦ JNum 1; "b" ↦ JStr []]] = inl (obj ["a" ↦ JNum 1; "b" ↦ JStr []]) /\
  build no_other [] full [] [obj ["a" ↦ JNum 1]] = inr WrongType /\
  build no_other [] full [] [obj ["a" ↦ JNull]] = inr WrongType /\
  build no_other [] full [] [obj ["b" ↦ JStr []]] = inr (Missing (lit "a")) /\
  build no_other [] full [] [JList []] = inr WrongType.
Proof. repeat split. Qed.

(** At most one property, asked after the properties were filled *)
Example C78_late_example :
  let other := fun (_ : nat) v => match v with JDict (_ :: _ :: _) => [0%nat] | _ => [] end in
  let full := [KProps ["a" ↦ [KDefault (JNum 1)]]; KOther 0] in
  timely full /\ build other [] full [] [obj []] = inl (obj ["a" ↦ JNum 1]) /\ build other [] full [] [obj ["b" ↦ JNum 1]] = inr (Other 0).
Proof.
  cbv zeta. split; [|split; reflexivity]. constructor.
  - intros [|k [|k' s1]] ps s2 n E Hin; [destruct Hin|discriminate|]. injection E as _ _ E. destruct s1; discriminate.
  - intros ps p sub [E|[E|[]]]; [|discriminate]. injection E as <-. intros [E|[]]. injection E as <- <-. constructor.
    + intros [|k [|]] ps s2 n E; discriminate.
    + intros ps p sub [E|[]]. discriminate.
Qed.

(** ** C77: building leaves the sub-models *)
Theorem C77_submodels_refuted : exists s m,
  b_submodels (build_iter no_other s s [] [m]) = [obj ["a" ↦ JNum 1]] /\ m = obj [].
Proof. exists [KProps ["a" ↦ [KDefault (JNum 1)]]], (obj []). split; reflexivity. Qed.
Print Assumptions C77_submodels_refuted.
(** What is left alone: see [Share_Props]. *)
Example C77_example : b_submodels (build_iter no_other [KRequired [lit "a"]; KProps ["a" ↦ [KAutoRemoveNull (JBool true)]]] [] [] [obj ["a" ↦ JNull; "b" ↦ JNum 1]])
  = [obj ["b" ↦ JNum 1]].
Proof. reflexivity. Qed.

(** ** C71: the value under a path *)
Theorem C71_get_refuted : exists model path v, v <> JNull /\ resolve_jsonpointer model path None = Ok v /\ pandel_get model path = Ok JNull.
Proof. exists (obj ["a" ↦ JNum 1]), (lit "/a"), (JNum 1). split; [discriminate|]. split; reflexivity. Qed.
Print Assumptions C71_get_refuted.
(** It tells only whether there is one. *)
Theorem C71_get_partial : forall model path v,
  (pandel_get model path = Ok v -> v = JNull) /\
  ((exists v, pandel_get model path = Ok v) <-> (exists w, resolve_jsonpointer model path None = Ok w)).
Proof.
  intros model path v. unfold pandel_get. destruct (resolve_jsonpointer model path None); cbn [rbind].
  - split; [congruence|]. split; eauto.
  - split; [discriminate|]. split; intros [w E]; discriminate.
Qed.
Print Assumptions C71_get_partial.
Example C71_example : pandel_get (obj ["a" ↦ JNum 1]) (lit "/b") = Raise RefResolutionError.
Proof. reflexivity. Qed.

(** ** C72: changing the global operations *)
Theorem C72_operations_refuted :
  (forall kwargs, mod_global_operations None None kwargs = Raise AttributeError) /\
  exists ops kwargs v, sget (lit "inp") kwargs = Some v /\ o_inp ops <> v /\ mod_global_operations None (Some ops) kwargs = Ok (Some ops).
Proof.
  split; [reflexivity|]. exists (Operations JNull JNull JNull), ["inp" ↦ JNum 1], (JNum 1).
  split; [reflexivity|]. split; [discriminate|reflexivity].
Qed.
Print Assumptions C72_operations_refuted.
(** The operations given are installed, and keywords never change them. *)
Theorem C72_operations_partial : forall cntxt ops kwargs r, mod_global_operations cntxt ops kwargs = Ok r ->
  r = match ops with Some o => Some o | None => cntxt end /\ (forall k v, In (k, v) kwargs -> k = lit "inp" \/ k = lit "out" \/ k = lit "conv").
Proof.
  intros cntxt ops kwargs r E. unfold mod_global_operations in E.
  destruct (match ops with Some o => Some o | None => cntxt end) as [o|]; [|discriminate].
  destruct (forallb _ kwargs) eqn:F; [|discriminate]. split; [congruence|].
  intros k v Hin. rewrite forallb_forall in F. specialize (F _ Hin). cbn [fst existsb] in F.
  repeat (apply orb_true_iff in F; destruct F as [F|F]; [apply str_eqb_eq in F; auto|]). discriminate.
Qed.
Print Assumptions C72_operations_partial.
Example C72_example : mod_global_operations (Some (Operations JNull JNull JNull)) (Some (Operations (JNum 1) JNull JNull)) ["out" ↦ JNum 2]
  = Ok (Some (Operations (JNum 1) JNull JNull)).
Proof. reflexivity. Qed.

(** ** C73: enumerations *)
Theorem C73_enum_refuted : rule_enum [JNum 1] (JBool true) = true /\ rule_enum [JNum 0] (JBool false) = true.
Proof. split; reflexivity. Qed.
Print Assumptions C73_enum_refuted.
Lemma py_eq_atoms : forall x y, is_atom x = true -> is_atom y = true ->
  (forall b z, ~ (x = JBool b /\ y = JNum z)) -> (forall b z, ~ (x = JNum z /\ y = JBool b)) -> (py_eq x y = true <-> x = y).
Proof.
  intros x y Hx Hy N1 N2. destruct x; destruct y; try discriminate; cbn; try (split; [discriminate|congruence]);
    try (split; reflexivity); try (exfalso; eapply N1; split; reflexivity); try (exfalso; eapply N2; split; reflexivity).
  - rewrite Bool.eqb_true_iff. split; congruence.
  - rewrite Z.eqb_eq. split; congruence.
  - rewrite str_eqb_eq. split; congruence.
Qed.
(** It is right for what is no boolean, and for booleans if no number is among the values. *)
Theorem C73_enum_partial : forall enums v, is_atom v = true -> (forall e, In e enums -> is_atom e = true) ->
  ((forall b, v <> JBool b) \/ (forall z, ~ In (JNum z) enums)) ->
  (rule_enum enums v = true <-> In v enums).
Proof.
  intros enums v Hv He H.
  assert (G : (forall e, In e enums -> (py_eq v e = true <-> v = e)) -> (existsb (py_eq v) enums = true <-> In v enums)).
  { intro G. rewrite existsb_exists. split.
    - intros [e [Hin E]]. apply G in E; [subst; exact Hin|exact Hin].
    - intro Hin. exists v. split; [exact Hin|]. apply G; [exact Hin|reflexivity]. }
  assert (B : (v <> JNum 0 /\ v <> JNum 1) -> (rule_enum enums v = existsb (py_eq v) enums)).
  { intros [N0 N1]. destruct v as [| |z| | |]; try reflexivity. destruct z as [|[q|q|]|q]; try reflexivity; congruence. }
  assert (Q : forall n, v = JNum n -> (n = 0 \/ n = 1)%Z ->
     (existsb (fun e => match e with JBool _ => false | _ => py_eq v e end) enums = true <-> In v enums)).
  { intros n -> _. rewrite existsb_exists. split.
    - intros [e [Hin E]].
      destruct e; try discriminate; apply py_eq_atoms in E; try reflexivity; try (rewrite E; exact Hin); intros b' z' [E1 E2]; discriminate.
    - intro Hin. exists (JNum n). split; [exact Hin|]. cbn. apply Z.eqb_refl. }
  assert (D : v = JNum 0 \/ v = JNum 1 \/ (v <> JNum 0 /\ v <> JNum 1)).
  { destruct v as [| |z| | |]; try (right; right; split; discriminate).
    destruct (Z.eq_dec z 0) as [->|N0]; [left; reflexivity|]. destruct (Z.eq_dec z 1) as [->|N1]; [right; left; reflexivity|].
    right. right. split; congruence. }
  destruct D as [->|[->|N]].
  - apply (Q 0%Z); [reflexivity|lia].
  - apply (Q 1%Z); [reflexivity|lia].
  - rewrite (B N). apply G. intros e Hin. destruct N as [N0 N1]. destruct v as [|b|z|s| |]; try discriminate.
    + apply py_eq_atoms; [reflexivity|apply He; exact Hin| |]; intros ? ? [E1 E2]; discriminate.
    + destruct H as [H|H]; [destruct (H b eq_refl)|]. apply py_eq_atoms; [reflexivity|apply He; exact Hin| |]; intros ? ? [E1 E2]; [subst e; destruct (H _ Hin)|discriminate].
    + destruct e; try (apply py_eq_atoms; [reflexivity|apply He; exact Hin| |]; intros ? ? [E1 E2]; discriminate).
      cbn. rewrite Z.eqb_eq. destruct b; split; congruence.
    + apply py_eq_atoms; [reflexivity|apply He; exact Hin| |]; intros ? ? [E1 E2]; discriminate.
Qed.
Print Assumptions C73_enum_partial.
Example C73_example : rule_enum [JBool true; JNum 2; JStr (lit "x")] (JNum 1) = false /\ rule_enum [JBool true; JNum 2; JStr (lit "x")] (JBool true) = true
  /\ rule_enum [JBool true; JNum 2; JStr (lit "x")] (JNum 2) = true /\ rule_enum [JBool true] (JBool false) = false.
Proof. repeat split. Qed.
(** Exactly: what is listed, and booleans whose number is *)
Theorem C73_exact : forall enums v, is_atom v = true -> (forall e, In e enums -> is_atom e = true) ->
  (rule_enum enums v = true <-> In v enums \/ (v = JBool true /\ In (JNum 1) enums) \/ (v = JBool false /\ In (JNum 0) enums)).
Proof.
  intros enums v Hv He. assert (D : (forall b, v <> JBool b) \/ exists b, v = JBool b) by (destruct v; eauto; left; discriminate).
  destruct D as [D|[b ->]].
  - rewrite (C73_enum_partial enums v Hv He (or_introl D)). split; [now left|].
    intros [H|[[E _]|[E _]]]; [exact H|destruct (D _ E)|destruct (D _ E)].
  - cbn [rule_enum]. rewrite existsb_exists. split.
    + intros [e [Hin E]]. destruct e as [|b'|z| | |]; try discriminate.
      * cbn in E. apply Bool.eqb_prop in E. subst. now left.
      * cbn in E. apply Z.eqb_eq in E. subst z. destruct b; auto.
    + intros [H|[[E H]|[E H]]].
      * exists (JBool b). split; [exact H|]. cbn. apply Bool.eqb_reflx.
      * injection E as ->. exists (JNum 1). now split.
      * injection E as ->. exists (JNum 0). now split.
Qed.
Print Assumptions C73_exact.
Example C73_exact_example : rule_enum [JNum 1; JBool false] (JBool true) = true /\ rule_enum [JNum 1; JNum 2] (JBool false) = false.
Proof. split; reflexivity. Qed.

(** ** C74: all the paths of a schema *)
Section PInd.
  Variable P : pschema -> Prop.
  Hypothesis H : forall forks props, (forall s, In s forks -> P s) -> (forall p s, In (p, s) props -> P s) -> P (PSchema forks props).
  Fixpoint pschema_ind' (s : pschema) : P s.
  Proof.
    destruct s as [forks props]. apply H.
    - induction forks as [|s forks IH]; intros s' Hin; [destruct Hin|].
      destruct Hin as [E|Hin]; [rewrite <- E; apply pschema_ind'|apply IH; exact Hin].
    - induction props as [|[p s] props IH]; intros p' s' Hin; [destruct Hin|].
      destruct Hin as [E|Hin]; [injection E as _ <-; apply pschema_ind'|apply (IH p'); exact Hin].
  Defined.
End PInd.
Definition pointer (route : list pystr) : pystr := flat_map (fun p => lit "/" ++ p) route.
(** The pointers of the routes to what has no properties, and only they *)
Theorem C74_paths_partial : forall s path x, In x (all_jsonpaths s path) <-> exists route, leaf s route /\ x = path ++ pointer route.
Proof.
  induction s as [forks props HF HP] using pschema_ind'; intros path x. cbn [all_jsonpaths]. rewrite in_app_iff.
  assert (A : In x (flat_map (fun s => all_jsonpaths s path) forks) <-> exists s route, In s forks /\ leaf s route /\ x = path ++ pointer route).
  { rewrite in_flat_map. split.
    - intros [s [Hs Hx]]. apply HF in Hx; [|exact Hs]. destruct Hx as [route [L ->]]. eauto.
    - intros [s [route [Hs [L ->]]]]. exists s. split; [exact Hs|]. apply HF; [exact Hs|]. eauto. }
  assert (B : In x (match props with [] => [path] | _ => flat_map (fun ps => all_jsonpaths (snd ps) (path ++ lit "/" ++ fst ps)) props end) <->
              (props = [] /\ x = path) \/ exists p s route, In (p, s) props /\ leaf s route /\ x = path ++ pointer (p :: route)).
  { destruct props as [|ps0 props0].
    - cbn. split; [intros [<-|[]]; left; split; reflexivity|]. intros [[_ ->]|[p [s [route [[] _]]]]]. left. reflexivity.
    - rewrite in_flat_map. split.
      + intros [[p s] [Hs Hx]]. apply (HP p) in Hx; [|exact Hs]. destruct Hx as [route [L ->]]. right. exists p, s, route.
        split; [exact Hs|]. split; [exact L|]. unfold pointer. cbn [flat_map fst]. rewrite <- !app_assoc. reflexivity.
      + intros [[E _]|[p [s [route [Hs [L ->]]]]]]; [discriminate|]. exists (p, s). split; [exact Hs|].
        apply (HP p); [exact Hs|]. exists route. split; [exact L|]. unfold pointer. cbn [flat_map fst]. rewrite <- !app_assoc. reflexivity. }
  rewrite A, B. split.
  - intros [[s [route [Hs [L ->]]]]|[[-> ->]|[p [s [route [Hs [L ->]]]]]]].
    + exists route. split; [apply (leaf_fork forks props s); assumption|reflexivity].
    + exists []. split; [constructor|]. cbn. rewrite app_nil_r. reflexivity.
    + exists (p :: route). split; [apply (leaf_prop forks props p s); assumption|reflexivity].
  - intros [route [L ->]]. inversion L; subst.
    + right. left. split; [reflexivity|]. cbn. apply app_nil_r.
    + left. eauto.
    + right. right. eauto 6.
Qed.
Print Assumptions C74_paths_partial.
(** The pointers of names that need no escaping resolve in every instance that has what they lead to. *)
Theorem C74_resolve : forall route model v, (forall p, In p route -> ~ In 47%N p /\ unescapes p p) ->
  at_path route model = Some v -> resolve_jsonpointer model (pointer route) None = Ok v.
Proof.
  intros route model v H E.
  assert (P : iter_parts (pointer route) = Ok route).
  { unfold iter_parts. assert (X : split_on slash (pointer route) = [] :: route).
    { assert (Y : forall a, ~ In slash a -> split_on slash (a ++ pointer route) = a :: route).
      { revert H. clear. induction route as [|p route IH]; intros H a Ha; cbn [pointer flat_map].
        - rewrite app_nil_r. now apply split_on_none.
        - change (lit "/" ++ p) with (slash :: p). cbn [app]. rewrite split_on_app by exact Ha. f_equal.
          apply IH; [intros q Hq; apply H; now right|]. apply (H p). now left. }
      apply (Y []). intros []. }
    rewrite X. cbn [str_eqb]. f_equal. revert H. clear. induction route as [|p route IH]; intros H; [reflexivity|]. cbn [map].
    rewrite (proj2 (C01_unescape_tokens p p) (proj2 (H p (or_introl eq_refl)))), IH; [reflexivity|]. intros q Hq. apply H. now right. }
  assert (R : reaches model route v).
  { clear P H. revert model E. induction route as [|k route IH]; intros model E; cbn in E.
    - injection E as ->. constructor.
    - destruct model as [| | | | |d]; try discriminate. destruct (sget k d) as [x|] eqn:G; [|discriminate]. econstructor; eauto. }
  destruct (C03_resolve_is_reaching model (pointer route) route None P) as [(w & W & ->)|(N & _)]; [|destruct (N v R)].
  f_equal. exact (C03_reaches_functional _ _ _ _ W R).
Qed.
Print Assumptions C74_resolve.
Example C74_resolve_example : unescapes (lit "a~b") (lit "a~b") /\ resolve_jsonpointer (obj ["a~b" ↦ obj ["" ↦ JNum 1]]) (lit "/a~b/") None = Ok (JNum 1) /\
  resolve_jsonpointer (obj ["a~0b" ↦ JNum 1]) (lit "/a~0b") None = Raise RefResolutionError.
Proof. split; [apply C01_unescape_tokens; reflexivity|]. split; reflexivity. Qed.
(** Names are not escaped: the path of a value that is there does not resolve; and
    what only has alternatives counts as a leaf, too. *)
Theorem C74_paths_refuted :
  (exists s path model v, all_jsonpaths s [] = [path] /\ at_path [lit "a/b"] model = Some v /\ leaf s [lit "a/b"] /\
                          resolve_jsonpointer model path None = Raise RefResolutionError) /\
  (exists s, all_jsonpaths (PSchema [s] []) [] = [lit "/a"; []]).
Proof.
  split.
  - exists (PSchema [] ["a/b" ↦ PSchema [] []]), (lit "/a/b"), (obj ["a/b" ↦ JNum 1]), (JNum 1).
    split; [reflexivity|]. split; [reflexivity|]. split; [|reflexivity].
    eapply leaf_prop; [left; reflexivity|constructor].
  - exists (PSchema [] ["a" ↦ PSchema [] []]). reflexivity.
Qed.
Print Assumptions C74_paths_refuted.
Example C74_example : all_jsonpaths (PSchema [] ["a" ↦ PSchema [] []; "b" ↦ PSchema [PSchema [] ["d" ↦ PSchema [] []]] ["c" ↦ PSchema [] []]]) []
  = [lit "/a"; lit "/b/d"; lit "/b/c"].
Proof. reflexivity. Qed.
