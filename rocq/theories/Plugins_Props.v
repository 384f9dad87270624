(** * Plugins: properties *)
From Coq Require Import String Lia Sorted Permutation.
From Verif Require Import PyBase PyBase_Proofs Plugins_Model Plugins_Spec Plugins_Proofs.

Section Oracles.
  Variable load : entry_point -> history -> res bool.
  Variable install : entry_point -> history -> res unit.

  (** All plugins are loaded once in the order of their names, whatever fails; after that all
      functions among them are called once in that order, whatever fails.  The stages say how far
      each came. *)
  Theorem C87_plugins : forall eps st h, eps <> [] ->
    exists es evs1 fs evs2 st',
      init_plugins load install eps (st, h) = Ok (st', h ++ evs1 ++ evs2) /\
      Permutation eps es /\ Sorted (fun a b => text_le (ep_name a) (ep_name b)) es /\
      told (tells_load load) h es evs1 /\
      functions load h es evs1 fs /\ sub fs es /\
      told (tells_install install) (h ++ evs1) fs evs2 /\
      (forall t, ~ In t (map ep_text eps) -> dget str_eqb t st' = dget str_eqb t st) /\
      (NoDup (map ep_text eps) ->
       (forall i e, nth_error fs i = Some e ->
          dget str_eqb (ep_text e) st' = Some (match nth_error evs2 i with Some (Installed _) => 2 | _ => 1 end)) /\
       (forall i e, nth_error es i = Some e -> ~ In e fs ->
          dget str_eqb (ep_text e) st' = Some (match nth_error evs1 i with Some (Loaded _) => 1 | _ => 0 end))).
  Proof.
    intros eps st h Ne. exists (sorted_eps eps).
    destruct (loads load install (sorted_eps eps) st h []) as (st1 & evs1 & fs & E1 & T1 & F & S & O1 & K1).
    destruct (installs load install fs st1 (h ++ evs1)) as (st2 & evs2 & E2 & T2 & O2 & K2).
    assert (P := sorted_perm eps).
    exists evs1, fs, evs2, st2. split.
    { unfold init_plugins. destruct (sorted_eps eps) as [|e es] eqn:Es.
      - exfalso. apply Permutation_sym, Permutation_nil in P. contradiction.
      - transitivity (Ok (fold_left (install_one install) (rev (rev fs ++ [])) (st1, h ++ evs1))).
        + exact (f_equal (fun y => let '(x1, l) := y in Ok (fold_left (install_one install) (rev l) x1)) E1).
        + rewrite app_nil_r, rev_involutive, app_assoc. exact (f_equal Ok E2). }
    split; [exact P|]. split; [exact (sorted_sorted eps)|]. split; [exact T1|]. split; [exact F|].
    split; [exact S|]. split; [exact T2|]. split.
    { intros t N. assert (N' : ~ In t (map ep_text (sorted_eps eps))).
      { intro I. apply N. apply in_map_iff in I. destruct I as (e & <- & I). apply in_map.
        exact (Permutation_in _ (Permutation_sym P) I). }
      rewrite O2; [exact (O1 t N')|]. intro I. apply N'. apply in_map_iff in I. destruct I as (e & <- & I).
      apply in_map. exact (sub_in _ _ _ S e I). }
    intro ND. assert (ND1 : NoDup (map ep_text (sorted_eps eps))).
    { refine (Permutation_NoDup _ ND). apply Permutation_map. exact P. }
    assert (ND2 : NoDup (map ep_text fs)) by exact (sub_nodup _ _ ep_text _ _ S ND1).
    assert (St : forall i e, nth_error (sorted_eps eps) i = Some e ->
      dget str_eqb (ep_text e) st1 = Some (match nth_error evs1 i with Some (Loaded _) => 1 | _ => 0 end)).
    { intros i e E. destruct T1 as [_ T1]. destruct (T1 i e E) as (ev & Ev & _).
      rewrite Ev. exact (K1 ND1 i e ev E Ev). }
    split.
    - intros i e E. destruct T2 as [_ T2]. destruct (T2 i e E) as (ev & Ev & _). rewrite Ev.
      assert (X := K2 ND2 i e ev E Ev). unfold stage_of in X. rewrite X.
      assert (L1 : dget str_eqb (ep_text e) st1 = Some 1).
      { assert (I : In e fs) by exact (nth_error_In _ _ E). apply F in I. destruct I as (j & Ej & El).
        rewrite (St j e Ej). destruct T1 as [_ T1]. destruct (T1 j e Ej) as (ev' & Ev' & T). rewrite Ev'.
        destruct T as [(c & _ & ->)|(x & Ex & _)]; [reflexivity|]. rewrite El in Ex. discriminate. }
      rewrite L1. destruct ev; reflexivity.
    - intros i e E Nf. rewrite O2; [exact (St i e E)|]. intro I. apply in_map_iff in I.
      destruct I as (e' & Et & I). apply Nf. assert (Ie := sub_in _ _ _ S e' I).
      assert (e = e'); [|congruence]. clear - ND1 Et Ie E. apply nth_error_In in E.
      induction (sorted_eps eps) as [|x l IH]; [destruct E|]. simpl in ND1. inversion ND1 as [|? ? N1 N2]; subst.
      destruct E as [<-|E], Ie as [<-|Ie]; [reflexivity| | |exact (IH N2 E Ie)].
      + destruct N1. rewrite <- Et. apply in_map. exact Ie.
      + destruct N1. rewrite Et. apply in_map. exact E.
  Qed.

  (** Plugins of the same name keep their order. *)
  Theorem C87_stable : forall n eps,
    filter (fun e => str_eqb (ep_name e) n) (sorted_eps eps) = filter (fun e => str_eqb (ep_name e) n) eps.
  Proof. exact sorted_stable. Qed.

  (** Without plugins it raises. *)
  Theorem C87_none : forall x, init_plugins load install [] x = Raise ValueError.
  Proof. reflexivity. Qed.
End Oracles.
Print Assumptions C87_plugins.
Print Assumptions C87_stable.
Print Assumptions C87_none.

(** The plugin of xlrd is there once however often it is installed, and other backends stay. *)
Theorem C87_xlrd : forall bs,
  load_xlrd (load_xlrd bs) = load_xlrd bs /\ In Xlrd (load_xlrd bs) /\
  filter (fun b => negb (is_xlrd b)) (load_xlrd bs) = filter (fun b => negb (is_xlrd b)) bs /\
  (~ In Xlrd bs -> load_xlrd bs = Xlrd :: bs) /\ (In Xlrd bs -> load_xlrd bs = bs).
Proof.
  intro bs. unfold load_xlrd. destruct (filter is_xlrd bs) as [|b r] eqn:E.
  - split; [reflexivity|]. split; [left; reflexivity|]. split; [reflexivity|]. split; [reflexivity|].
    intro I. exfalso. assert (X : In Xlrd (filter is_xlrd bs)) by (apply filter_In; auto). rewrite E in X. destruct X.
  - assert (X : In b (filter is_xlrd bs)) by (rewrite E; left; reflexivity). apply filter_In in X.
    destruct X as [I B]. destruct b; [|discriminate]. rewrite E. tauto.
Qed.
Print Assumptions C87_xlrd.

(** The filters of the project are there by their names however often they are installed, and
    filters of other names stay. *)
Definition default_names : list string :=
  ["pipe"; "pyeval"; "py"; "recurse"; "redim"; "numpy"; "dict"; "odict"; "sorted"]%string.
Definition pandas_names : list string := ["df"; "sr"]%string.
Theorem C87_filters : forall d,
  let d' := install_filters (install_default_filters d) in
  (forall n, In n (default_names ++ pandas_names) -> dget str_eqb (lit n) d' = Some (Own n)) /\
  (forall k, ~ In k (map lit (default_names ++ pandas_names)) -> dget str_eqb k d' = dget str_eqb k d) /\
  (forall k, dget str_eqb k (install_filters d') = dget str_eqb k d').
Proof.
  intro d. cbv zeta. unfold install_filters, install_default_filters. split; [|split].
  - intros n I. rewrite !update_get. unfold default_names, pandas_names in I. simpl in I.
    repeat (destruct I as [<-|I]; [reflexivity|]). destruct I.
  - intros k N. rewrite !update_get.
    assert (X : forall l, (forall n, In n l -> lit n <> k) -> dget str_eqb k (rev (own l)) = None).
    { intros l H. destruct (dget str_eqb k (rev (own l))) as [v|] eqn:E; [exfalso|reflexivity].
      assert (I : forall d, dget str_eqb k d = Some v -> In (k, v) d).
      { clear. induction d as [|[k' v'] d IH]; simpl; [discriminate|].
        destruct (str_eqb_spec k k') as [->|]; [intro E; injection E as ->; left; reflexivity|auto]. }
      apply I, in_rev, in_map_iff in E. destruct E as (n & En & In). injection En as Ek _. exact (H n In Ek). }
    fold default_names pandas_names. rewrite (X pandas_names), (X default_names).
    + reflexivity.
    + intros n I E. apply N. rewrite map_app, in_app_iff. left. rewrite <- E. apply in_map. exact I.
    + intros n I E. apply N. rewrite map_app, in_app_iff. right. rewrite <- E. apply in_map. exact I.
  - intro k. rewrite !update_get. destruct (dget str_eqb k (rev (own ["df"; "sr"]%string))); reflexivity.
Qed.
Print Assumptions C87_filters.

(** Plugins of the same text (name and distribution) share one stage: here the last one failed. *)
Theorem C87_same_text_refuted : exists load install e1 e2 st,
  init_plugins load install [e1; e2] ([], []) = Ok (st, [Loaded 1; LoadFailed 2; Installed 1]) /\
  ep_text e1 = ep_text e2 /\ dget str_eqb (ep_text e2) st = Some 2.
Proof.
  exists (fun e _ => if ep_id e =? 1 then Ok true else Raise KeyError), (fun _ _ => Ok tt),
    {| ep_id := 1; ep_name := lit "p"; ep_text := lit "p@d" |},
    {| ep_id := 2; ep_name := lit "p"; ep_text := lit "p@d" |}.
  eexists. split; [reflexivity|]. split; reflexivity.
Qed.
Print Assumptions C87_same_text_refuted.

(** Three plugins: "a" loads only, "b" fails to load, "c" is installed, which needs "a". *)
Example C87_example :
  let ep i n := {| ep_id := i; ep_name := lit n; ep_text := lit n ++ lit "@x" |} in
  init_plugins (fun e _ => if ep_id e =? 2 then Raise KeyError else Ok (negb (ep_id e =? 1)))
    (fun _ h => match h with Loaded 1 :: _ => Ok tt | _ => Raise TypeError end)
    [ep 3 "c"; ep 2 "b"; ep 1 "a"; ep 4 "c"]%string ([(lit "old", 2)], [])
  = Ok ([(lit "old", 2); (lit "a@x", 1); (lit "b@x", 0); (lit "c@x", 2)],
        [Loaded 1; LoadFailed 2; Loaded 3; Loaded 4; Installed 3; Installed 4]).
Proof. reflexivity. Qed.
