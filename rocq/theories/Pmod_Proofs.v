From Coq Require Import String.
From Verif Require Import PyBase PyBase_Proofs Json JsonPointer_Model JsonPointer_Spec
  JsonPointer_Proofs Paths_Model Paths_Spec Paths_Proofs Pmod_Model Pmod_Spec.

(** ** Induction on pmods *)

Section PmodInd.
  Variable P : pmod -> Prop.
  Variable H : forall a s r, (forall k c, In (k, c) s -> P c) -> (forall k c, In (k, c) r -> P c) ->
    P (Pmod a s r).
  Fixpoint pmod_ind' (p : pmod) : P p.
  Proof.
    destruct p as [a s r]. apply H.
    - induction s as [|[k0 c0] s IH]; intros k c Hin; [destruct Hin|].
      pose proof (pmod_ind' c0) as Hc. destruct Hin as [E|Hin]; [congruence|apply (IH k c Hin)].
    - induction r as [|[k0 c0] r IH]; intros k c Hin; [destruct Hin|].
      pose proof (pmod_ind' c0) as Hc. destruct Hin as [E|Hin]; [congruence|apply (IH k c Hin)].
  Defined.
End PmodInd.

(** ** Ordered dicts are determined by their keys and lookups *)

Notation pget := (dget str_eqb).
Notation pset := (dset str_eqb).

Lemma dict_ext : forall V (a b : list (pystr * V)), NoDup (map fst a) -> map fst a = map fst b ->
  (forall k, pget k a = pget k b) -> a = b.
Proof.
  induction a as [|[k v] a IH]; intros b Hnd Hk Hg; destruct b as [|[k' v'] b]; simpl in Hk;
    try discriminate; [reflexivity|].
  injection Hk as -> Hk. inversion Hnd as [|x xs Hni Hnd' [Ex Exs]]. clear Ex Exs x xs.
  assert (Ev : v = v').
  { specialize (Hg k'). simpl in Hg. rewrite str_eqb_refl in Hg. congruence. }
  subst. f_equal. apply IH; [exact Hnd'|assumption|].
  intro k. specialize (Hg k). simpl in Hg. destruct (str_eqb_spec k k') as [E|Hne]; [rewrite E; clear E|exact Hg].
  transitivity (@None V).
  - apply (proj2 (dget_None_notin str_eqb str_eqb_eq k' a)). exact Hni.
  - symmetry. apply (proj2 (dget_None_notin str_eqb str_eqb_eq k' b)). rewrite <- Hk. exact Hni.
Qed.

Lemma dmem_In : forall V k (d : list (pystr * V)), dmem str_eqb k d = true <-> In k (map fst d).
Proof.
  intros V k d. unfold dmem. pose proof (dget_None_notin str_eqb str_eqb_eq k d) as H.
  destruct (pget k d) as [v|] eqn:E.
  - split; [|reflexivity]. intros _. apply dget_Some_In in E; [|exact str_eqb_eq].
    apply (in_map fst) in E. exact E.
  - split; [discriminate|]. intro Hi. exfalso. apply H; [reflexivity|exact Hi].
Qed.

(** ** Merging, key by key *)

Definition omerge (x y : option pmod) : option pmod :=
  match x, y with
  | Some a, Some b => Some (merge a b)
  | Some a, None => Some a
  | None, y => y
  end.

Definition step_fold (d : list (pystr * pmod)) (no : pystr * pmod) : list (pystr * pmod) :=
  pset (fst no) (match pget (fst no) d with
                 | Some spmod => merge spmod (snd no)
                 | None => snd no
                 end) d.

Lemma fold_step_get : forall os d k, NoDup (map fst os) ->
  pget k (fold_left step_fold os d) = omerge (pget k d) (pget k os).
Proof.
  induction os as [|[n o] os IH]; intros d k Hnd; cbn [fold_left].
  - simpl. destruct (pget k d); reflexivity.
  - simpl in Hnd. inversion Hnd as [|? ? Hni Hnd']; subst. rewrite IH by exact Hnd'.
    unfold step_fold at 1. cbn [fst snd dget].
    destruct (str_eqb_spec k n) as [->|Hne].
    + rewrite dget_dset_eq by exact str_eqb_eq.
      assert (E : pget n os = None) by (apply dget_None_notin; [exact str_eqb_eq|exact Hni]).
      rewrite E. destruct (pget n d); reflexivity.
    + rewrite dget_dset_neq by (exact str_eqb_eq || congruence). reflexivity.
Qed.

(** The keys of a dict after updating it with another one. *)
Definition union_keys (a b : list pystr) : list pystr :=
  a ++ filter (fun k => negb (existsb (str_eqb k) a)) b.

Lemma existsb_In : forall k l, existsb (str_eqb k) l = true <-> In k l.
Proof.
  intros k l. rewrite existsb_exists. split.
  - intros (x & Hx & E). apply str_eqb_eq in E. subst. exact Hx.
  - intro H. exists k. split; [exact H|apply str_eqb_refl].
Qed.
Lemma existsb_notIn : forall k l, existsb (str_eqb k) l = false <-> ~ In k l.
Proof. intros. rewrite <- existsb_In. destruct (existsb (str_eqb k) l); split; congruence. Qed.

Lemma filter_ext_in' : forall A (f g : A -> bool) l, (forall a, In a l -> f a = g a) -> filter f l = filter g l.
Proof. intros. apply filter_ext_in. assumption. Qed.

Lemma fold_step_keys : forall os d, NoDup (map fst os) ->
  map fst (fold_left step_fold os d) = union_keys (map fst d) (map fst os).
Proof.
  unfold union_keys. induction os as [|[n o] os IH]; intros d Hnd; cbn [fold_left].
  - simpl. rewrite app_nil_r. reflexivity.
  - simpl in Hnd. inversion Hnd as [|? ? Hni Hnd']; subst. rewrite IH by exact Hnd'.
    unfold step_fold. cbn [fst snd map filter].
    destruct (existsb (str_eqb n) (map fst d)) eqn:E; cbn [negb].
    + apply existsb_In in E. rewrite (dkeys_dset_in str_eqb str_eqb_eq) by exact E. reflexivity.
    + apply existsb_notIn in E. rewrite (dkeys_dset_notin str_eqb str_eqb_eq) by exact E.
      rewrite map_app. cbn [map fst]. rewrite <- app_assoc. cbn [app]. do 2 f_equal.
      apply filter_ext_in'. intros k Hk. rewrite existsb_app. cbn [existsb].
      assert (Hkn : str_eqb k n = false) by (apply str_eqb_neq; intros ->; contradiction).
      rewrite Hkn. rewrite !orb_false_r. reflexivity.
Qed.

Lemma wf_inv : forall p, wf p -> NoDup (map fst (p_steps p)) /\ NoDup (map fst (p_regxs p))
  /\ (forall k c, In (k, c) (p_steps p) -> wf c) /\ (forall k c, In (k, c) (p_regxs p) -> wf c).
Proof. intros p H. destruct H as [a s r H1 H2 H3 H4]. cbn. auto. Qed.

Lemma wf_get_steps : forall p k c, wf p -> pget k (p_steps p) = Some c -> wf c.
Proof.
  intros p k c H E. apply wf_inv in H. destruct H as (_ & _ & H & _). apply (H k).
  apply dget_Some_In in E; [exact E|exact str_eqb_eq].
Qed.
Lemma wf_get_regxs : forall p k c, wf p -> pget k (p_regxs p) = Some c -> wf c.
Proof.
  intros p k c H E. apply wf_inv in H. destruct H as (_ & _ & _ & H). apply (H k).
  apply dget_Some_In in E; [exact E|exact str_eqb_eq].
Qed.

Lemma NoDup_app_r : forall A (a b : list A), NoDup (a ++ b) -> NoDup b.
Proof. induction a as [|x a IH]; intros b H; [exact H|]. inversion H; subst. apply IH. assumption. Qed.

Lemma merge_alias : forall a b, p_alias (merge a b) =
  match p_alias b with Some x => Some x | None => p_alias a end.
Proof. intros a [oa os or]. reflexivity. Qed.

Lemma merge_steps_eq : forall a b, p_steps (merge a b) =
  match p_steps b, p_steps a with
  | [], s => s
  | os, [] => os
  | os, s => fold_left step_fold os s
  end.
Proof. intros [aa sa ra] [oa [|o os] or]; cbn; [reflexivity|]. destruct sa; reflexivity. Qed.

Lemma merge_regxs_eq : forall a b, p_regxs (merge a b) =
  match p_regxs b, p_regxs a with
  | [], s => s
  | os, [] => os
  | os, s => filter (fun ns => negb (dmem str_eqb (fst ns) os)) s
             ++ map (fun no => (fst no, match pget (fst no) s with
                                        | Some spmod => merge spmod (snd no)
                                        | None => snd no end)) os
  end.
Proof. intros [aa sa ra] [oa os [|o or]]; cbn; [reflexivity|]. destruct ra; reflexivity. Qed.

Lemma filter_all : forall A (f : A -> bool) l, (forall a, In a l -> f a = true) -> filter f l = l.
Proof.
  induction l as [|a l IH]; intro H; simpl; [reflexivity|].
  rewrite H by (left; reflexivity). f_equal. apply IH. intros; apply H; right; assumption.
Qed.

Lemma merge_steps_get : forall a b k, wf b ->
  pget k (p_steps (merge a b)) = omerge (pget k (p_steps a)) (pget k (p_steps b)).
Proof.
  intros a b k Hb. apply wf_inv in Hb. destruct Hb as (Hnd & _). rewrite merge_steps_eq.
  destruct (p_steps b) as [|o os] eqn:Eb.
  - simpl. destruct (pget k (p_steps a)); reflexivity.
  - destruct (p_steps a) as [|s ss] eqn:Ea; [reflexivity|].
    apply fold_step_get. exact Hnd.
Qed.

Lemma merge_steps_keys : forall a b, wf b ->
  map fst (p_steps (merge a b)) = union_keys (map fst (p_steps a)) (map fst (p_steps b)).
Proof.
  intros a b Hb. apply wf_inv in Hb. destruct Hb as (Hnd & _). rewrite merge_steps_eq.
  destruct (p_steps b) as [|o os] eqn:Eb.
  - unfold union_keys. simpl. rewrite app_nil_r. reflexivity.
  - destruct (p_steps a) as [|s ss] eqn:Ea.
    + unfold union_keys. cbn [map app existsb negb]. symmetry. apply filter_all. reflexivity.
    + apply fold_step_keys. exact Hnd.
Qed.

Lemma dget_map_snd : forall (f : pystr -> pmod -> pmod) (d : list (pystr * pmod)) k,
  pget k (map (fun no => (fst no, f (fst no) (snd no))) d) = option_map (f k) (pget k d).
Proof.
  induction d as [|[k' v] d IH]; intro k; simpl; [reflexivity|].
  destruct (str_eqb_spec k k') as [->|H]; [reflexivity|apply IH].
Qed.

Lemma dget_filter : forall (f : pystr -> bool) (d : list (pystr * pmod)) k,
  pget k (filter (fun ns => f (fst ns)) d) = if f k then pget k d else None.
Proof.
  induction d as [|[k' v] d IH]; intro k; simpl; [destruct (f k); reflexivity|].
  destruct (f k') eqn:E; simpl.
  - destruct (str_eqb_spec k k') as [->|H]; [rewrite E; reflexivity|apply IH].
  - rewrite IH. destruct (str_eqb_spec k k') as [->|H]; [rewrite E; reflexivity|reflexivity].
Qed.

Lemma map_fst_filter : forall (f : pystr -> bool) (d : list (pystr * pmod)),
  map fst (filter (fun ns => f (fst ns)) d) = filter f (map fst d).
Proof.
  induction d as [|[k v] d IH]; simpl; [reflexivity|]. destruct (f k); simpl; rewrite IH; reflexivity.
Qed.

Lemma dmem_existsb : forall V k (d : list (pystr * V)), dmem str_eqb k d = existsb (str_eqb k) (map fst d).
Proof.
  intros. apply eq_true_iff_eq. rewrite dmem_In, existsb_In. reflexivity.
Qed.

Lemma merge_regxs_get : forall a b k,
  pget k (p_regxs (merge a b)) = omerge (pget k (p_regxs a)) (pget k (p_regxs b)).
Proof.
  intros a b k. rewrite merge_regxs_eq.
  destruct (p_regxs b) as [|o os] eqn:Eb.
  - simpl. destruct (pget k (p_regxs a)); reflexivity.
  - destruct (p_regxs a) as [|s ss] eqn:Ea; [reflexivity|].
    generalize (o :: os) (s :: ss). clear. intros os ss.
    rewrite dget_app.
    rewrite (dget_filter (fun n => negb (dmem str_eqb n os))).
    rewrite (dget_map_snd (fun n o => match pget n ss with Some sp => merge sp o | None => o end)).
    unfold dmem. destruct (pget k os) as [x|] eqn:E; cbn [negb].
    + destruct (pget k ss); reflexivity.
    + destruct (pget k ss); reflexivity.
Qed.

Definition over_keys (a b : list pystr) : list pystr :=
  filter (fun k => negb (existsb (str_eqb k) b)) a ++ b.

Lemma merge_regxs_keys : forall a b,
  map fst (p_regxs (merge a b)) = over_keys (map fst (p_regxs a)) (map fst (p_regxs b)).
Proof.
  intros a b. rewrite merge_regxs_eq. unfold over_keys.
  destruct (p_regxs b) as [|o os] eqn:Eb.
  - cbn [map existsb negb]. rewrite app_nil_r. symmetry. apply filter_all. reflexivity.
  - destruct (p_regxs a) as [|s ss] eqn:Ea; [reflexivity|].
    generalize (o :: os) (s :: ss). clear. intros os ss.
    rewrite map_app, map_map. cbn [fst]. f_equal.
    rewrite (map_fst_filter (fun n => negb (dmem str_eqb n os))).
    apply filter_ext. intro k. rewrite dmem_existsb. reflexivity.
Qed.

Lemma NoDup_union_keys : forall a b, NoDup a -> NoDup b -> NoDup (union_keys a b).
Proof.
  intros a b Ha Hb. unfold union_keys.
  assert (Hd : forall x, In x (filter (fun k => negb (existsb (str_eqb k) a)) b) -> ~ In x a).
  { intros x Hx. apply filter_In in Hx. destruct Hx as [_ Hx]. apply negb_true_iff in Hx.
    apply existsb_notIn. exact Hx. }
  assert (Hn : NoDup (filter (fun k => negb (existsb (str_eqb k) a)) b)) by (apply NoDup_filter; exact Hb).
  revert Hd Hn. generalize (filter (fun k => negb (existsb (str_eqb k) a)) b). clear Hb b.
  induction a as [|x a IH]; intros l Hd Hn; simpl; [exact Hn|].
  inversion Ha; subst. constructor.
  - rewrite in_app_iff. intros [H|H]; [contradiction|]. apply (Hd x H). left; reflexivity.
  - apply IH; [assumption| |exact Hn]. intros y Hy Hya. apply (Hd y Hy). right; exact Hya.
Qed.

Lemma NoDup_app' : forall (a b : list pystr), NoDup a -> NoDup b -> (forall x, In x a -> ~ In x b) -> NoDup (a ++ b).
Proof.
  induction a as [|x a IH]; intros b Ha Hb Hd; simpl; [exact Hb|]. inversion Ha; subst.
  constructor.
  - rewrite in_app_iff. intros [H|H]; [contradiction|]. apply (Hd x); [left; reflexivity|exact H].
  - apply IH; try assumption. intros y Hy. apply Hd. right; exact Hy.
Qed.

Lemma NoDup_over_keys : forall a b, NoDup a -> NoDup b -> NoDup (over_keys a b).
Proof.
  intros a b Ha Hb. unfold over_keys. apply NoDup_app'.
  - apply NoDup_filter. exact Ha.
  - exact Hb.
  - intros x Hx. apply filter_In in Hx. destruct Hx as [_ Hx]. apply negb_true_iff in Hx.
    apply existsb_notIn. exact Hx.
Qed.

Lemma wf_intro : forall p, NoDup (map fst (p_steps p)) -> NoDup (map fst (p_regxs p)) ->
  (forall k c, pget k (p_steps p) = Some c -> wf c) -> (forall k c, pget k (p_regxs p) = Some c -> wf c) -> wf p.
Proof.
  intros [a s r] H1 H2 H3 H4. cbn in *. constructor; try assumption.
  - intros k c Hc. apply (H3 k). apply dget_In_NoDup; [exact str_eqb_eq|assumption|assumption].
  - intros k c Hc. apply (H4 k). apply dget_In_NoDup; [exact str_eqb_eq|assumption|assumption].
Qed.

Lemma wf_merge : forall b a, wf a -> wf b -> wf (merge a b).
Proof.
  induction b as [oa os or IHs IHr] using pmod_ind'. intros a Ha Hb.
  pose proof (wf_inv _ Ha) as (A1 & A2 & A3 & A4). pose proof (wf_inv _ Hb) as (B1 & B2 & B3 & B4).
  apply wf_intro.
  - rewrite merge_steps_keys by exact Hb. apply NoDup_union_keys; assumption.
  - rewrite merge_regxs_keys. apply NoDup_over_keys; assumption.
  - intros k c E. rewrite merge_steps_get in E by exact Hb.
    destruct (pget k (p_steps a)) as [ca|] eqn:Ea; destruct (pget k (p_steps (Pmod oa os or))) as [cb|] eqn:Eb;
      cbn [omerge] in E; inversion E; subst.
    + apply IHs with k; [|apply (wf_get_steps _ _ _ Ha Ea)|apply (wf_get_steps _ _ _ Hb Eb)].
      apply dget_Some_In in Eb; [exact Eb|exact str_eqb_eq].
    + apply (wf_get_steps _ _ _ Ha Ea).
    + apply (wf_get_steps _ _ _ Hb Eb).
  - intros k c E. rewrite merge_regxs_get in E.
    destruct (pget k (p_regxs a)) as [ca|] eqn:Ea; destruct (pget k (p_regxs (Pmod oa os or))) as [cb|] eqn:Eb;
      cbn [omerge] in E; inversion E; subst.
    + apply IHr with k; [|apply (wf_get_regxs _ _ _ Ha Ea)|apply (wf_get_regxs _ _ _ Hb Eb)].
      apply dget_Some_In in Eb; [exact Eb|exact str_eqb_eq].
    + apply (wf_get_regxs _ _ _ Ha Ea).
    + apply (wf_get_regxs _ _ _ Hb Eb).
Qed.

Lemma pmod_ext : forall p q, wf p -> p_alias p = p_alias q ->
  map fst (p_steps p) = map fst (p_steps q) -> (forall k, pget k (p_steps p) = pget k (p_steps q)) ->
  map fst (p_regxs p) = map fst (p_regxs q) -> (forall k, pget k (p_regxs p) = pget k (p_regxs q)) -> p = q.
Proof.
  intros [a s r] [a' s' r'] Hw Ea Ks Gs Kr Gr. cbn in *. apply wf_inv in Hw.
  destruct Hw as (N1 & N2 & _). cbn in *. f_equal; [exact Ea|apply dict_ext; assumption|apply dict_ext; assumption].
Qed.

Lemma existsb_app_ : forall k a b, existsb (str_eqb k) (a ++ b) = existsb (str_eqb k) a || existsb (str_eqb k) b.
Proof. intros. apply existsb_app. Qed.

Lemma existsb_filter : forall k (f : pystr -> bool) l, existsb (str_eqb k) (filter f l) = f k && existsb (str_eqb k) l.
Proof.
  intros. apply eq_true_iff_eq. rewrite andb_true_iff, !existsb_In, filter_In. tauto.
Qed.

Lemma filter_filter : forall A (f g : A -> bool) l, filter f (filter g l) = filter (fun x => g x && f x) l.
Proof.
  induction l as [|x l IH]; simpl; [reflexivity|]. destruct (g x) eqn:E; simpl; [|exact IH].
  destruct (f x); rewrite IH; reflexivity.
Qed.

Lemma filter_app_ : forall A (f : A -> bool) a b, filter f (a ++ b) = filter f a ++ filter f b.
Proof. intros. apply filter_app. Qed.

Lemma union_keys_assoc : forall a b c, union_keys (union_keys a b) c = union_keys a (union_keys b c).
Proof.
  intros a b c. unfold union_keys. rewrite filter_app, filter_filter, <- app_assoc. do 2 f_equal.
  apply filter_ext. intro k. rewrite existsb_app, existsb_filter.
  destruct (existsb (str_eqb k) a), (existsb (str_eqb k) b); reflexivity.
Qed.

Lemma over_keys_assoc : forall a b c, over_keys (over_keys a b) c = over_keys a (over_keys b c).
Proof.
  intros a b c. unfold over_keys. rewrite filter_app, filter_filter, <- app_assoc. f_equal.
  apply filter_ext. intro k. rewrite existsb_app, existsb_filter.
  destruct (existsb (str_eqb k) b), (existsb (str_eqb k) c); reflexivity.
Qed.

Lemma merge_assoc : forall c a b, wf a -> wf b -> wf c ->
  merge (merge a b) c = merge a (merge b c).
Proof.
  induction c as [ca cs cr IHs IHr] using pmod_ind'. intros a b Ha Hb Hc.
  set (c := Pmod ca cs cr) in *.
  assert (Hab : wf (merge a b)) by (apply wf_merge; assumption).
  assert (Hbc : wf (merge b c)) by (apply wf_merge; assumption).
  apply pmod_ext.
  - apply wf_merge; assumption.
  - rewrite !merge_alias. destruct (p_alias c); [reflexivity|]. destruct (p_alias b); reflexivity.
  - rewrite !merge_steps_keys by assumption. apply union_keys_assoc.
  - intro k. rewrite !merge_steps_get by assumption.
    destruct (pget k (p_steps a)) as [xa|] eqn:Ea; [|reflexivity].
    destruct (pget k (p_steps b)) as [xb|] eqn:Eb; [|reflexivity].
    destruct (pget k (p_steps c)) as [xc|] eqn:Ec; [|reflexivity]. cbn [omerge]. f_equal.
    apply IHs with k; [apply dget_Some_In in Ec; [exact Ec|exact str_eqb_eq]
      |exact (wf_get_steps _ _ _ Ha Ea)|exact (wf_get_steps _ _ _ Hb Eb)|exact (wf_get_steps _ _ _ Hc Ec)].
  - rewrite !merge_regxs_keys. apply over_keys_assoc.
  - intro k. rewrite !merge_regxs_get.
    destruct (pget k (p_regxs a)) as [xa|] eqn:Ea; [|reflexivity].
    destruct (pget k (p_regxs b)) as [xb|] eqn:Eb; [|reflexivity].
    destruct (pget k (p_regxs c)) as [xc|] eqn:Ec; [|reflexivity]. cbn [omerge]. f_equal.
    apply IHr with k; [apply dget_Some_In in Ec; [exact Ec|exact str_eqb_eq]
      |exact (wf_get_regxs _ _ _ Ha Ea)|exact (wf_get_regxs _ _ _ Hb Eb)|exact (wf_get_regxs _ _ _ Hc Ec)].
Qed.

Lemma merge_empty_r : forall a, merge a empty_pmod = a.
Proof. intros [x s r]. reflexivity. Qed.

Lemma merge_empty_l : forall a, merge empty_pmod a = a.
Proof. intros [[x|] [|s ss] [|r rs]]; reflexivity. Qed.

Lemma merge_idem : forall a, wf a -> merge a a = a.
Proof.
  induction a as [x s r IHs IHr] using pmod_ind'. intro H. set (a := Pmod x s r) in *.
  apply pmod_ext.
  - apply wf_merge; assumption.
  - rewrite merge_alias. destruct (p_alias a); reflexivity.
  - rewrite merge_steps_keys by exact H. unfold union_keys.
    replace (filter _ _) with (@nil (list N)); [apply app_nil_r|]. symmetry.
    assert (G : forall l l', (forall z, In z l -> In z l') ->
              filter (fun k => negb (existsb (str_eqb k) l')) l = []).
    { induction l as [|z l IH]; intros l' Hl; [reflexivity|]. simpl.
      rewrite (proj2 (existsb_In z l')) by (apply Hl; left; reflexivity). cbn [negb].
      apply IH. intros y Hy. apply Hl. right; exact Hy. }
    apply G. auto.
  - intro k. rewrite merge_steps_get by exact H.
    destruct (pget k (p_steps a)) as [c|] eqn:E; [|reflexivity]. cbn [omerge]. f_equal.
    apply IHs with k; [apply dget_Some_In in E; [exact E|exact str_eqb_eq]|eapply wf_get_steps; eassumption].
  - rewrite merge_regxs_keys. unfold over_keys.
    replace (filter _ _) with (@nil (list N)); [reflexivity|]. symmetry.
    assert (G : forall l l', (forall z, In z l -> In z l') ->
              filter (fun k => negb (existsb (str_eqb k) l')) l = []).
    { induction l as [|z l IH]; intros l' Hl; [reflexivity|]. simpl.
      rewrite (proj2 (existsb_In z l')) by (apply Hl; left; reflexivity). cbn [negb].
      apply IH. intros y Hy. apply Hl. right; exact Hy. }
    apply G. auto.
  - intro k. rewrite merge_regxs_get.
    destruct (pget k (p_regxs a)) as [c|] eqn:E; [|reflexivity]. cbn [omerge]. f_equal.
    apply IHr with k; [apply dget_Some_In in E; [exact E|exact str_eqb_eq]|eapply wf_get_regxs; eassumption].
Qed.

(** ** Overriding *)

Lemma child_get : forall p k c, wf p -> child p k c <-> pget k (p_steps p) = Some c.
Proof.
  intros p k c H. apply wf_inv in H. destruct H as (H & _). unfold child. split; intro E.
  - apply dget_In_NoDup; [exact str_eqb_eq|assumption|assumption].
  - apply dget_Some_In in E; [exact E|exact str_eqb_eq].
Qed.
Lemma rchild_get : forall p k c, wf p -> rchild p k c <-> pget k (p_regxs p) = Some c.
Proof.
  intros p k c H. apply wf_inv in H. destruct H as (_ & H & _). unfold rchild. split; intro E.
  - apply dget_In_NoDup; [exact str_eqb_eq|assumption|assumption].
  - apply dget_Some_In in E; [exact E|exact str_eqb_eq].
Qed.

Lemma no_child_get : forall p k, wf p -> (forall c, ~ child p k c) -> pget k (p_steps p) = None.
Proof.
  intros p k H Hn. destruct (pget k (p_steps p)) as [c|] eqn:E; [|reflexivity].
  exfalso. apply (Hn c). apply child_get; assumption.
Qed.
Lemma no_rchild_get : forall p k, wf p -> (forall c, ~ rchild p k c) -> pget k (p_regxs p) = None.
Proof.
  intros p k H Hn. destruct (pget k (p_regxs p)) as [c|] eqn:E; [|reflexivity].
  exfalso. apply (Hn c). apply rchild_get; assumption.
Qed.

Lemma filter_order : forall A (f : A -> bool) l k1 k2 x y z,
  filter f l = x ++ k1 :: y ++ k2 :: z -> exists x y z, l = x ++ k1 :: y ++ k2 :: z.
Proof.
  assert (F1 : forall A (f : A -> bool) l x k z, filter f l = x ++ k :: z ->
               exists x' z', l = x' ++ k :: z' /\ filter f z' = z).
  { induction l as [|a l IH]; intros x k z E; simpl in E; [destruct x; discriminate|].
    destruct (f a) eqn:Ea.
    - destruct x as [|b x]; inversion E; subst.
      + exists [], l. auto.
      + destruct (IH _ _ _ H1) as (x' & z' & -> & <-). exists (b :: x'), z'. auto.
    - destruct (IH _ _ _ E) as (x' & z' & -> & <-). exists (a :: x'), z'. auto. }
  intros A f l k1 k2 x y z E. destruct (F1 _ _ _ _ _ _ E) as (x' & z' & -> & E').
  destruct (F1 _ _ _ _ _ _ E') as (y' & z'' & -> & _). exists x', y', z''. reflexivity.
Qed.

Lemma merge_overrides : forall b a, wf a -> wf b -> overrides a b (merge a b).
Proof.
  induction b as [oa os or IHs IHr] using pmod_ind'. intros a Ha Hb.
  set (b := Pmod oa os or) in *.
  assert (Hm : wf (merge a b)) by (apply wf_merge; assumption).
  constructor.
  - intros x E. rewrite merge_alias, E. reflexivity.
  - intro E. rewrite merge_alias, E. reflexivity.
  - intros k ca cb Ka Kb. exists (merge ca cb). split.
    + apply child_get; [exact Hm|]. rewrite merge_steps_get by exact Hb.
      apply child_get in Ka; [|exact Ha]. apply child_get in Kb; [|exact Hb]. rewrite Ka, Kb. reflexivity.
    + apply IHs with k; [exact Kb| |].
      * apply child_get in Ka; [|exact Ha]. exact (wf_get_steps _ _ _ Ha Ka).
      * apply child_get in Kb; [|exact Hb]. exact (wf_get_steps _ _ _ Hb Kb).
  - intros k ca Ka Kb. apply child_get; [exact Hm|]. rewrite merge_steps_get by exact Hb.
    apply child_get in Ka; [|exact Ha]. apply no_child_get in Kb; [|exact Hb]. rewrite Ka, Kb. reflexivity.
  - intros k cb Kb Ka. apply child_get; [exact Hm|]. rewrite merge_steps_get by exact Hb.
    apply child_get in Kb; [|exact Hb]. apply no_child_get in Ka; [|exact Ha]. rewrite Ka, Kb. reflexivity.
  - intros k cm Km. apply child_get in Km; [|exact Hm]. rewrite merge_steps_get in Km by exact Hb.
    destruct (pget k (p_steps a)) as [ca|] eqn:Ea.
    + left. exists ca. apply child_get; assumption.
    + right. exists cm. apply child_get; [exact Hb|]. exact Km.
  - intros k ca cb Ka Kb. exists (merge ca cb). split.
    + apply rchild_get; [exact Hm|]. rewrite merge_regxs_get.
      apply rchild_get in Ka; [|exact Ha]. apply rchild_get in Kb; [|exact Hb]. rewrite Ka, Kb. reflexivity.
    + apply IHr with k; [exact Kb| |].
      * apply rchild_get in Ka; [|exact Ha]. exact (wf_get_regxs _ _ _ Ha Ka).
      * apply rchild_get in Kb; [|exact Hb]. exact (wf_get_regxs _ _ _ Hb Kb).
  - intros k ca Ka Kb. apply rchild_get; [exact Hm|]. rewrite merge_regxs_get.
    apply rchild_get in Ka; [|exact Ha]. apply no_rchild_get in Kb; [|exact Hb]. rewrite Ka, Kb. reflexivity.
  - intros k cb Kb Ka. apply rchild_get; [exact Hm|]. rewrite merge_regxs_get.
    apply rchild_get in Kb; [|exact Hb]. apply no_rchild_get in Ka; [|exact Ha]. rewrite Ka, Kb. reflexivity.
  - exists (filter (fun k => negb (existsb (str_eqb k) (map fst (p_regxs b)))) (map fst (p_regxs a))).
    split; [apply merge_regxs_keys|]. split.
    + intro k. rewrite filter_In, negb_true_iff, existsb_notIn. reflexivity.
    + intros k1 k2 (x & y & z & E). apply filter_order in E. exact E.
Qed.
