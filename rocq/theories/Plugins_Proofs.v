(** * Plugins: proofs *)
From Coq Require Import String Lia Sorted Permutation.
From Verif Require Import PyBase PyBase_Proofs Plugins_Model Plugins_Spec.

Lemma text_leb_spec : forall a b, text_leb a b = true <-> text_le a b.
Proof.
  unfold text_le. induction a as [|x a IH]; intros [|y b]; simpl.
  - split; [intros _; left; exists []; reflexivity|auto].
  - split; [intros _; left; eexists; reflexivity|auto].
  - split; [discriminate|]. intros [[c E]|(p & u & v & a' & b' & Ea & Eb & L)]; [discriminate|destruct p; discriminate].
  - destruct (N.eqb_spec x y) as [->|Ne].
    + rewrite IH. split.
      * intros [[c ->]|(p & u & v & a' & b' & -> & -> & L)]; [left; exists c; reflexivity|right].
        exists (y :: p), u, v, a', b'. auto.
      * intros [[c E]|(p & u & v & a' & b' & Ea & Eb & L)].
        -- injection E as ->. left. exists c. reflexivity.
        -- destruct p as [|z p]; simpl in *.
           ++ assert (y = u) by congruence. assert (y = v) by congruence. lia.
           ++ injection Ea as _ ->. injection Eb as _ ->. right. exists p, u, v, a', b'. auto.
    + rewrite N.ltb_lt. split.
      * intro L. right. exists [], x, y, a, b. auto.
      * intros [[c E]|(p & u & v & a' & b' & Ea & Eb & L)]; [injection E; congruence|].
        destruct p as [|z p]; simpl in *.
        -- injection Ea as <- <-. injection Eb as <- <-. exact L.
        -- congruence.
Qed.

Lemma text_leb_total : forall a b, text_leb a b = false -> text_leb b a = true.
Proof.
  induction a as [|x a IH]; intros [|y b]; simpl; try congruence. rewrite (N.eqb_sym y x).
  destruct (N.eqb_spec x y); [auto|]. rewrite N.ltb_ge, N.ltb_lt. lia.
Qed.

Lemma insert_ep_perm : forall e l, Permutation (e :: l) (insert_ep e l).
Proof.
  intros e l. induction l as [|x l IH]; simpl; [repeat constructor|].
  destruct (text_leb (ep_name e) (ep_name x)); [apply Permutation_refl|]. rewrite perm_swap. constructor. exact IH.
Qed.

Lemma sorted_perm : forall l, Permutation l (sorted_eps l).
Proof. induction l as [|e l IH]; simpl; [constructor|]. rewrite <- insert_ep_perm. constructor. exact IH. Qed.

Definition by_name (a b : entry_point) : Prop := text_le (ep_name a) (ep_name b).

Lemma insert_ep_sorted : forall e l, Sorted by_name l -> Sorted by_name (insert_ep e l).
Proof.
  intros e l. induction l as [|x l IH]; intro H; simpl; [repeat constructor|].
  destruct (text_leb (ep_name e) (ep_name x)) eqn:E.
  - constructor; [exact H|constructor; apply text_leb_spec; exact E].
  - apply text_leb_total, text_leb_spec in E. inversion H as [|? ? H1 H2]; subst. constructor; [exact (IH H1)|].
    destruct l as [|z l]; simpl; [constructor; exact E|].
    destruct (text_leb (ep_name e) (ep_name z)); constructor; [exact E|]. inversion H2; assumption.
Qed.

Lemma sorted_sorted : forall l, Sorted by_name (sorted_eps l).
Proof. induction l; simpl; [constructor|]. apply insert_ep_sorted. assumption. Qed.

Lemma insert_ep_stable : forall n e l,
  filter (fun x => str_eqb (ep_name x) n) (insert_ep e l) = filter (fun x => str_eqb (ep_name x) n) (e :: l).
Proof.
  intros n e l. induction l as [|x l IH]; simpl; [reflexivity|].
  destruct (text_leb (ep_name e) (ep_name x)) eqn:E; [reflexivity|]. simpl. rewrite IH. simpl.
  destruct (str_eqb_spec (ep_name e) n) as [E1|N1], (str_eqb_spec (ep_name x) n) as [E2|N2]; try reflexivity.
  exfalso. rewrite E1, E2 in E. assert (X : text_leb n n = true).
  { apply text_leb_spec. left. exists []. rewrite app_nil_r. reflexivity. }
  congruence.
Qed.

Lemma sorted_stable : forall n l,
  filter (fun x => str_eqb (ep_name x) n) (sorted_eps l) = filter (fun x => str_eqb (ep_name x) n) l.
Proof.
  intros n l. induction l as [|e l IH]; [reflexivity|].
  change (sorted_eps (e :: l)) with (insert_ep e (sorted_eps l)). rewrite insert_ep_stable. simpl. rewrite IH. reflexivity.
Qed.

Lemma told_cons : forall (tells : entry_point -> history -> event -> Prop) h e es ev evs,
  tells e h ev -> told tells (h ++ [ev]) es evs -> told tells h (e :: es) (ev :: evs).
Proof.
  intros tells h e es ev evs T [L F]. split; [simpl; congruence|]. intros [|i] x E; simpl in *.
  - injection E as <-. exists ev. rewrite app_nil_r. auto.
  - destruct (F i x E) as (ev' & E' & T'). exists ev'. rewrite <- app_assoc in T'. auto.
Qed.

Lemma sub_in : forall A (a b : list A), sub a b -> forall x, In x a -> In x b.
Proof. induction 1; intros y I; [destruct I|right; auto|]. destruct I as [->|I]; [left; reflexivity|right; auto]. Qed.

Lemma sub_nodup : forall A B (f : A -> B) (a b : list A), sub a b -> NoDup (map f b) -> NoDup (map f a).
Proof.
  induction 1 as [|x a b S IH|x a b S IH]; simpl; intro N; [constructor| |]; inversion N; subst; [auto|].
  constructor; [|auto]. intro I. apply H1. apply in_map_iff in I. destruct I as (y & E & I).
  apply in_map_iff. exists y. split; [exact E|]. exact (sub_in _ _ _ S y I).
Qed.

Section Oracles.
  Variable load : entry_point -> history -> res bool.
  Variable install : entry_point -> history -> res unit.

  Definition stage_of (e : entry_point) (st : stages) : option nat := dget str_eqb (ep_text e) st.

  Lemma set_stage_get : forall e n st t,
    dget str_eqb t (set_stage e n st) = if str_eqb t (ep_text e) then Some n else dget str_eqb t st.
  Proof.
    intros e n st t. unfold set_stage. destruct (str_eqb_spec t (ep_text e)) as [->|Ne].
    - apply dget_dset_eq. exact str_eqb_eq.
    - apply dget_dset_neq; [exact str_eqb_eq|congruence].
  Qed.

  Lemma loads : forall es st h ls, exists st' evs fs,
    fold_left (load_one load) es ((st, h), ls) = ((st', h ++ evs), rev fs ++ ls) /\
    told (tells_load load) h es evs /\ functions load h es evs fs /\ sub fs es /\
    (forall t, ~ In t (map ep_text es) -> dget str_eqb t st' = dget str_eqb t st) /\
    (NoDup (map ep_text es) -> forall i e ev, nth_error es i = Some e -> nth_error evs i = Some ev ->
       stage_of e st' = Some (match ev with Loaded _ => 1 | _ => 0 end)).
  Proof.
    induction es as [|e es IH]; intros st h ls.
    - exists st, [], []. simpl. rewrite app_nil_r. split; [reflexivity|]. split.
      { split; [reflexivity|]. intros [|i] e E; discriminate. }
      split. { intro e. split; [intros []|]. intros ([|i] & E & _); discriminate. }
      split; [constructor|]. split; [auto|]. intros _ [|i] e ev E; discriminate.
    - cbn [fold_left].
      assert (X : exists ev st1 c, load_one load ((st, h), ls) e = ((st1, h ++ [ev]), if c : bool then e :: ls else ls) /\
        tells_load load e h ev /\ (c = true <-> load e h = Ok true) /\
        (forall t, dget str_eqb t st1 = if str_eqb t (ep_text e) then Some (match ev with Loaded _ => 1 | _ => 0 end)
                   else dget str_eqb t st)).
      { unfold load_one, tells_load. destruct (load e h) as [c|x] eqn:El.
        - exists (Loaded (ep_id e)), (set_stage e 1 (set_stage e 0 st)), c. split; [reflexivity|].
          split; [left; exists c; auto|]. split; [split; congruence|]. intro t. rewrite !set_stage_get.
          destruct (str_eqb t (ep_text e)); reflexivity.
        - exists (LoadFailed (ep_id e)), (set_stage e 0 st), false. split; [reflexivity|].
          split; [right; exists x; auto|]. split; [split; discriminate|]. intro t. apply set_stage_get. }
      destruct X as (ev & st1 & c & -> & T & C & G).
      destruct (IH st1 (h ++ [ev]) (if c then e :: ls else ls)) as (st' & evs & fs & E & T' & F & Sb & O & K).
      exists st', (ev :: evs), (if c then e :: fs else fs). split.
      { transitivity (st', (h ++ [ev]) ++ evs, rev fs ++ (if c then e :: ls else ls)); [exact E|].
        rewrite <- app_assoc. destruct c; simpl; [rewrite <- app_assoc|]; reflexivity. }
      split; [exact (told_cons _ h e es ev evs T T')|]. split.
      { intro x. split.
        - intro I. assert (I' : (c = true /\ x = e) \/ In x fs).
          { destruct c; [destruct I as [<-|I]|]; auto. }
          destruct I' as [[Hc ->]|I'].
          + exists 0. simpl. rewrite app_nil_r. split; [reflexivity|apply C; exact Hc].
          + apply F in I'. destruct I' as (i & E1 & E2). exists (S i). simpl. rewrite <- app_assoc in E2. auto.
        - intros ([|i] & E1 & E2); simpl in *.
          + injection E1 as <-. rewrite app_nil_r in E2. apply C in E2. rewrite E2. left. reflexivity.
          + assert (I : In x fs) by (apply F; exists i; rewrite <- app_assoc; auto).
            destruct c; [right|]; exact I. }
      split; [destruct c; constructor; exact Sb|]. split.
      { intros t N. simpl in N. rewrite O by tauto. rewrite G.
        destruct (str_eqb_spec t (ep_text e)) as [->|]; [tauto|reflexivity]. }
      intros N [|i] x ev' E1 E2; simpl in *; inversion N as [|? ? N1 N2]; subst.
      { injection E1 as <-. injection E2 as <-. unfold stage_of. rewrite O by exact N1. rewrite G, str_eqb_refl. reflexivity. }
      exact (K N2 i x ev' E1 E2).
  Qed.

  Lemma installs : forall es st h, exists st' evs,
    fold_left (install_one install) es (st, h) = (st', h ++ evs) /\
    told (tells_install install) h es evs /\
    (forall t, ~ In t (map ep_text es) -> dget str_eqb t st' = dget str_eqb t st) /\
    (NoDup (map ep_text es) -> forall i e ev, nth_error es i = Some e -> nth_error evs i = Some ev ->
       stage_of e st' = match ev with Installed _ => Some 2 | _ => stage_of e st end).
  Proof.
    induction es as [|e es IH]; intros st h.
    - exists st, []. simpl. rewrite app_nil_r. split; [reflexivity|]. split.
      { split; [reflexivity|]. intros [|i] e E; discriminate. }
      split; [auto|]. intros _ [|i] e ev E; discriminate.
    - cbn [fold_left].
      assert (X : exists ev st1, install_one install (st, h) e = (st1, h ++ [ev]) /\
        tells_install install e h ev /\
        (forall t, dget str_eqb t st1 = if str_eqb t (ep_text e) then match ev with Installed _ => Some 2 | _ => dget str_eqb t st end
                   else dget str_eqb t st)).
      { unfold install_one, tells_install. destruct (install e h) as [[]|x] eqn:El.
        - exists (Installed (ep_id e)), (set_stage e 2 st). split; [reflexivity|]. split; [auto|].
          intro t. apply set_stage_get.
        - exists (InstallFailed (ep_id e)), st. split; [reflexivity|]. split; [right; exists x; auto|].
          intro t. destruct (str_eqb t (ep_text e)); reflexivity. }
      destruct X as (ev & st1 & -> & T & G).
      destruct (IH st1 (h ++ [ev])) as (st' & evs & E & T' & O & K).
      exists st', (ev :: evs). split.
      { transitivity (st', (h ++ [ev]) ++ evs); [exact E|]. rewrite <- app_assoc. reflexivity. }
      split; [exact (told_cons _ h e es ev evs T T')|]. split.
      { intros t N. simpl in N. rewrite O by tauto. rewrite G.
        destruct (str_eqb_spec t (ep_text e)) as [->|]; [tauto|reflexivity]. }
      intros N [|i] x ev' E1 E2; simpl in *; inversion N as [|? ? N1 N2]; subst.
      { injection E1 as <-. injection E2 as <-. unfold stage_of. rewrite O by exact N1. rewrite G, str_eqb_refl. reflexivity. }
      rewrite (K N2 i x ev' E1 E2). destruct ev'; try reflexivity; unfold stage_of; rewrite G;
        (destruct (str_eqb_spec (ep_text x) (ep_text e)) as [Et|]; [|reflexivity]);
        exfalso; apply N1; rewrite <- Et; apply in_map; exact (nth_error_In _ _ E1).
  Qed.
End Oracles.

(** ** The plugins of the project *)

Lemma update_get : forall new d k, dget str_eqb k (dict_update d new)
  = match dget str_eqb k (rev new) with Some v => Some v | None => dget str_eqb k d end.
Proof.
  induction new as [|[k' v] new IH] using rev_ind; intros d k; [reflexivity|].
  unfold dict_update in *. rewrite fold_left_app, rev_app_distr. cbn [fold_left rev app dget fst snd].
  destruct (str_eqb_spec k k') as [->|Ne].
  - apply dget_dset_eq. exact str_eqb_eq.
  - rewrite dget_dset_neq; [apply IH|exact str_eqb_eq|congruence].
Qed.
