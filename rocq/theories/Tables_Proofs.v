(** * Merging tables: proofs *)
From Coq Require Import Permutation Lia.
From Verif Require Import PyBase PyBase_Proofs Json Pandel_Model Pandel_Proofs Tables_Model Tables_Spec.

(** ** Heaps *)
Lemma store_length : forall h m t, length (store m t h) = length h.
Proof. induction h as [|x h IH]; intros [|m] t; cbn [store length]; auto. Qed.
Lemma load_store_same : forall h m t, (m < length h)%nat -> load (store m t h) m = t.
Proof.
  unfold load. induction h as [|x h IH]; intros [|m] t L; cbn [store length nth] in *; try lia; [reflexivity|]. apply IH. lia.
Qed.
Lemma nth_store_other : forall h m n t, m <> n -> nth_error (store m t h) n = nth_error h n.
Proof.
  induction h as [|x h IH]; intros [|m] [|n] t N; cbn [store nth_error]; try reflexivity; try congruence. apply IH. congruence.
Qed.
Lemma load_nth : forall h m, load h m = match nth_error h m with Some t => t | None => no_table end.
Proof. unfold load. induction h as [|x h IH]; intros [|m]; cbn [nth nth_error]; auto. Qed.
Lemma load_store_other : forall h m n t, m <> n -> load (store m t h) n = load h n.
Proof. intros h m n t N. rewrite !load_nth, nth_store_other by exact N. reflexivity. Qed.
Lemma store_store : forall h m t u, store m u (store m t h) = store m u h.
Proof. induction h as [|x h IH]; intros [|m] t u; cbn [store]; auto. rewrite IH. reflexivity. Qed.
Lemma store_load : forall h m, store m (load h m) h = h.
Proof. unfold load. induction h as [|x h IH]; intros [|m]; cbn [store nth]; auto. rewrite IH. reflexivity. Qed.
Lemma load_alloc : forall h t, load (h ++ [t]) (length h) = t.
Proof. intros h t. unfold load. rewrite app_nth2, Nat.sub_diag by lia. reflexivity. Qed.
Lemma nth_alloc : forall (h : heap) t n, (n < length h)%nat -> nth_error (h ++ [t]) n = nth_error h n.
Proof. intros h t n L. apply nth_error_app1. exact L. Qed.

(** ** Cells *)
Definition cell (t : table) (r : Z) (c : pystr) : option Z :=
  match sget c (t_cols t) with Some col => look r (t_rows t) col | None => None end.
Definition over (a b : option Z) : option Z := match b with Some _ => b | None => a end.

Lemma look_spec : forall r v rows col, NoDup rows -> length col = length rows ->
  (look r rows col = Some v <-> exists i, nth_error rows i = Some r /\ nth_error col i = Some (Some v)).
Proof.
  intros r v. induction rows as [|x rows IH]; intros [|y col] ND L; cbn [length] in L; try lia; cbn [look].
  - split; [discriminate|]. intros (i & E & _). destruct i; discriminate.
  - inversion ND as [|? ? NI ND']; subst. destruct (x =? r)%Z eqn:E.
    + apply Z.eqb_eq in E. subst. split.
      * intros ->. exists 0%nat. split; reflexivity.
      * intros (i & E1 & E2). destruct i as [|i]; cbn [nth_error] in *; [congruence|]. exfalso. apply NI. exact (nth_error_In _ _ E1).
    + apply Z.eqb_neq in E. rewrite IH by (auto; lia). split; intros (i & E1 & E2).
      * exists (S i). split; assumption.
      * destruct i as [|i]; cbn [nth_error] in *; [congruence|]. exists i. split; assumption.
Qed.
Lemma look_out : forall r rows col, ~ In r rows -> look r rows col = None.
Proof.
  intros r. induction rows as [|x rows IH]; intros [|y col] NI; cbn [look]; try reflexivity.
  destruct (x =? r)%Z eqn:E; [apply Z.eqb_eq in E; subst; exfalso; apply NI; left; reflexivity|]. apply IH. intros X. apply NI. right. exact X.
Qed.
Lemma look_map : forall (f : Z -> option Z) r rows, In r rows -> look r rows (map f rows) = f r.
Proof.
  intros f r. induction rows as [|x rows IH]; intros I; cbn [map look]; [destruct I|].
  destruct (x =? r)%Z eqn:E; [apply Z.eqb_eq in E; subst; reflexivity|]. apply IH. destruct I as [->|I]; [rewrite Z.eqb_refl in E; discriminate|exact I].
Qed.
Lemma look_none : forall r rows (l : list Z), look r rows (map (fun _ => None) l) = None.
Proof.
  intros r. induction rows as [|x rows IH]; intros [|y l]; cbn [map look]; try reflexivity. destruct (x =? r)%Z; auto.
Qed.
Lemma look_overlaid : forall r rows a b, length a = length rows -> length b = length rows ->
  look r rows (overlaid a b) = over (look r rows a) (look r rows b).
Proof.
  intros r. induction rows as [|x rows IH]; intros [|y a] [|z b] La Lb; cbn [length] in *; try lia; [reflexivity|]. cbn [overlaid look].
  destruct (x =? r)%Z; [destruct z; reflexivity|]. apply IH; lia.
Qed.
Lemma overlaid_length : forall a b, length a = length b -> length (overlaid a b) = length a.
Proof. induction a as [|x a IH]; intros [|y b] L; cbn [length overlaid] in *; try lia. rewrite IH by lia. reflexivity. Qed.

Lemma sget_in : forall V k (v : V) d, sget k d = Some v -> In (k, v) d.
Proof.
  intros V k v. induction d as [|[k' v'] d IH]; unfold sget; cbn [dget]; [discriminate|]. destruct (str_eqb k k') eqn:E.
  - apply str_eqb_eq in E. intros X. injection X as ->. subst. left. reflexivity.
  - intros X. right. apply IH. exact X.
Qed.
Lemma in_sget : forall V k (v : V) d, NoDup (map fst d) -> In (k, v) d -> sget k d = Some v.
Proof.
  intros V k v. induction d as [|[k' v'] d IH]; cbn [map fst]; intros ND I; [destruct I|]. inversion ND as [|? ? NI ND']; subst.
  unfold sget. cbn [dget]. destruct I as [X|I].
  - injection X as -> ->. rewrite str_eqb_refl. reflexivity.
  - destruct (str_eqb k k') eqn:E; [|exact (IH ND' I)]. apply str_eqb_eq in E. subst. exfalso. apply NI. exact (in_map fst _ _ I).
Qed.
Lemma sget_none : forall V k (d : list (pystr * V)), sget k d = None <-> ~ In k (map fst d).
Proof.
  intros V k. induction d as [|[k' v'] d IH]; unfold sget; cbn [dget map fst]; [split; [intros _ []|reflexivity]|]. destruct (str_eqb k k') eqn:E.
  - apply str_eqb_eq in E. subst. split; [discriminate|]. intros X. exfalso. apply X. left. reflexivity.
  - apply str_eqb_neq in E. unfold sget in IH. rewrite IH. split; intros X.
    + intros [->|Y]; [apply E; reflexivity|exact (X Y)].
    + intros Y. apply X. right. exact Y.
Qed.
Lemma smem_in : forall V k (d : list (pystr * V)), smem k d = true <-> In k (map fst d).
Proof.
  intros V k d. unfold smem, dmem. fold (@sget V). change (dget str_eqb k d) with (sget k d). destruct (sget k d) eqn:E.
  - split; [|reflexivity]. intros _. apply sget_in in E. exact (in_map fst _ _ E).
  - apply sget_none in E. split; [discriminate|]. intros X. destruct (E X).
Qed.
Lemma sset_new : forall V k (v : V) d, ~ In k (map fst d) -> sset k v d = d ++ [(k, v)].
Proof.
  intros V k v. induction d as [|[k' v'] d IH]; cbn [map fst]; intros NI; [reflexivity|]. unfold sset. cbn [dset].
  destruct (str_eqb k k') eqn:E; [apply str_eqb_eq in E; subst; exfalso; apply NI; left; reflexivity|].
  cbn [app]. f_equal. apply IH. intros X. apply NI. right. exact X.
Qed.

Lemma tells_cell : forall t r c v, sound t -> (tells t r c v <-> cell t r c = Some v).
Proof.
  intros t r c v (NR & NC & L). unfold tells, cell. split.
  - intros (i & col & E1 & I & E2). rewrite (in_sget _ _ _ _ NC I). apply look_spec; [exact NR|exact (L _ _ I)|]. exists i. split; assumption.
  - destruct (sget c (t_cols t)) as [col|] eqn:E; [|discriminate]. apply sget_in in E. intros X.
    apply look_spec in X; [|exact NR|exact (L _ _ E)]. destruct X as (i & E1 & E2). exists i, col. repeat split; assumption.
Qed.
Lemma cell_row : forall t r c v, cell t r c = Some v -> In r (t_rows t).
Proof.
  intros t r c v E. destruct (in_dec Z.eq_dec r (t_rows t)) as [I|N]; [exact I|]. unfold cell in E. destruct (sget c (t_cols t)); [|discriminate].
  rewrite look_out in E by exact N. discriminate.
Qed.
Lemma cell_col : forall t r c v, cell t r c = Some v -> In c (map fst (t_cols t)).
Proof.
  intros t r c v E. unfold cell in E. destruct (sget c (t_cols t)) eqn:G; [|discriminate]. apply sget_in in G. exact (in_map fst _ _ G).
Qed.
Lemma no_table_sound : sound no_table.
Proof. repeat split; try constructor. intros c col []. Qed.

(** ** Updating *)
Lemma sget_updated : forall a b c, sget c (t_cols (updated a b)) =
  match sget c (t_cols a) with
  | Some col => Some (match sget c (t_cols b) with Some bcol => overlaid col (reindexed (t_rows a) (t_rows b) bcol) | None => col end)
  | None => None
  end.
Proof.
  intros a b c. unfold updated. cbn [t_cols]. induction (t_cols a) as [|[k col] l IH]; [reflexivity|]. unfold sget in *. cbn [map dget fst snd].
  destruct (str_eqb c k) eqn:E; [apply str_eqb_eq in E; subst; reflexivity|exact IH].
Qed.
Lemma updated_names : forall a b, map fst (t_cols (updated a b)) = map fst (t_cols a).
Proof. intros a b. unfold updated. cbn [t_cols]. rewrite map_map. apply map_ext. reflexivity. Qed.
Lemma updated_sound : forall a b, sound a -> sound (updated a b).
Proof.
  intros a b (NR & NC & L). split; [exact NR|]. split; [rewrite updated_names; exact NC|]. intros c col I. cbn [t_rows updated] in *.
  unfold updated in I. cbn [t_cols] in I. apply in_map_iff in I. destruct I as ((k & x) & E & I). cbn [fst snd] in E. specialize (L _ _ I).
  destruct (sget k (t_cols b)); injection E as <- <-; [|exact L]. rewrite overlaid_length; [exact L|]. unfold reindexed. rewrite map_length. exact L.
Qed.
Lemma updated_cell : forall a b r c, sound a ->
  cell (updated a b) r c =
  if in_dec (list_eq_dec N.eq_dec) c (map fst (t_cols a)) then if in_dec Z.eq_dec r (t_rows a) then over (cell a r c) (cell b r c) else None else None.
Proof.
  intros a b r c (NR & NC & L). unfold cell. rewrite sget_updated. cbn [t_rows updated]. destruct (sget c (t_cols a)) as [col|] eqn:E.
  - assert (I := sget_in _ _ _ _ E). destruct (in_dec _ c _) as [_|N]; [|exfalso; exact (N (in_map fst _ _ I))].
    destruct (in_dec Z.eq_dec r (t_rows a)) as [R|R]; [|apply look_out; exact R].
    destruct (sget c (t_cols b)) as [bcol|]; [|reflexivity]. rewrite look_overlaid.
    + unfold reindexed. rewrite look_map by exact R. reflexivity.
    + exact (L _ _ I).
    + unfold reindexed. apply map_length.
  - apply sget_none in E. destruct (in_dec _ c _) as [I|_]; [destruct (E I)|reflexivity].
Qed.

(** ** Adding columns *)
Fixpoint with_columns (t : table) (ks : list pystr) (b : table) : table :=
  match ks with
  | [] => t
  | k :: ks' =>
      match sget k (t_cols b) with
      | Some bcol => with_columns (Table (t_rows t) (sset k (reindexed (t_rows t) (t_rows b) bcol) (t_cols t))) ks' b
      | None => with_columns t ks' b
      end
  end.
Lemma set_columns_rows : forall b ks h m, (m < length h)%nat -> t_rows (load h m) <> [] ->
  set_columns h m ks b = (store m (with_columns (load h m) ks b) h, m).
Proof.
  intros b. induction ks as [|k ks IH]; intros h m L R; cbn [set_columns with_columns]; [rewrite store_load; reflexivity|].
  destruct (sget k (t_cols b)) as [bcol|]; [|exact (IH h m L R)]. unfold set_column. destruct (t_rows (load h m)) as [|x rows] eqn:E; [congruence|].
  rewrite IH; [rewrite load_store_same by exact L; rewrite store_store; reflexivity|rewrite store_length; exact L|].
  rewrite load_store_same by exact L. discriminate.
Qed.
Lemma with_columns_rows : forall b ks t, t_rows (with_columns t ks b) = t_rows t.
Proof.
  intros b. induction ks as [|k ks IH]; intros t; cbn [with_columns]; [reflexivity|]. destruct (sget k (t_cols b)); rewrite IH; reflexivity.
Qed.
Lemma with_columns_app : forall b ks t, NoDup ks -> (forall k, In k ks -> In k (map fst (t_cols b)) /\ ~ In k (map fst (t_cols t))) ->
  exists cols, t_cols (with_columns t ks b) = t_cols t ++ cols /\ map fst cols = ks /\
    forall k col, In (k, col) cols -> exists bcol, sget k (t_cols b) = Some bcol /\ col = reindexed (t_rows t) (t_rows b) bcol.
Proof.
  intros b. induction ks as [|k ks IH]; intros t ND A; cbn [with_columns].
  - exists []. rewrite app_nil_r. repeat split. intros k col [].
  - inversion ND as [|? ? NI ND']; subst. destruct (A k (or_introl eq_refl)) as (Ib & Nt). destruct (sget k (t_cols b)) as [bcol|] eqn:G.
    + rewrite sset_new by exact Nt. edestruct (IH (Table (t_rows t) (t_cols t ++ [(k, reindexed (t_rows t) (t_rows b) bcol)])) ND') as (cols & E & M & C).
      * intros j J. destruct (A j (or_intror J)) as (Jb & Jt). split; [exact Jb|]. cbn [t_cols]. rewrite map_app. intros X.
        apply in_app_or in X. destruct X as [X|[X|[]]]; [exact (Jt X)|]. cbn [fst] in X. subst. exact (NI J).
      * cbn [t_cols] in E. exists ((k, reindexed (t_rows t) (t_rows b) bcol) :: cols). rewrite E, <- app_assoc. cbn [app map fst]. rewrite M.
        repeat split. intros j col [X|X]; [injection X as <- <-; exists bcol; split; [exact G|reflexivity]|exact (C _ _ X)].
    + apply sget_none in G. destruct (G Ib).
Qed.

Section Induct.
  Variable P : value -> Prop.
  Hypothesis Pnull : P VNull.
  Hypothesis Pbool : forall b, P (VBool b).
  Hypothesis Pnum : forall z, P (VNum z).
  Hypothesis Pstr : forall s, P (VStr s).
  Hypothesis Pseries : forall s, P (VSeries s).
  Hypothesis Pframe : forall m, P (VFrame m).
  Hypothesis Plist : forall l, (forall v, In v l -> P v) -> P (VList l).
  Hypothesis Pdict : forall d, (forall k v, In (k, v) d -> P v) -> P (VDict d).
  Fixpoint value_induct (v : value) : P v.
  Proof.
    destruct v as [|b|z|s|s|m|l|d]; [exact Pnull|apply Pbool|apply Pnum|apply Pstr|apply Pseries|apply Pframe| |].
    - apply Plist. induction l as [|x l IH]; intros v I; [destruct I|]. destruct I as [<-|I]; [apply value_induct|exact (IH v I)].
    - apply Pdict. induction d as [|[k0 x] d IH]; intros k v I; [destruct I|]. destruct I as [E|I]; [injection E as _ <-; apply value_induct|exact (IH k v I)].
  Defined.
End Induct.

Section Merging.
Variable frame_of : value -> res table.
Variable series_of : value -> res series.
Variable set_order : list pystr -> list pystr.
Variable union : list pystr -> list pystr -> list pystr.
Hypothesis ord : orders set_order.
Notation merge_frames := (merge_frames frame_of set_order).
Notation merge := (merge frame_of series_of set_order union).
Notation merge_all := (merge_all frame_of series_of set_order union).
Notation clone := (clone frame_of series_of set_order union).
Notation clones := (clones frame_of series_of set_order union).

Definition extra (a b : table) : list pystr := set_order (List.filter (fun k => negb (smem k (t_cols a))) (map fst (t_cols b))).
Lemma extra_in : forall a b k, In k (extra a b) <-> In k (map fst (t_cols b)) /\ ~ In k (map fst (t_cols a)).
Proof.
  intros a b k. unfold extra. assert (X : forall l, In k (set_order l) <-> In k l) by (intros l; split; apply Permutation_in; [apply ord|apply Permutation_sym, ord]).
  rewrite X, filter_In, Bool.negb_true_iff, <- Bool.not_true_iff_false, smem_in. reflexivity.
Qed.
Lemma extra_nodup : forall a b, sound b -> NoDup (extra a b).
Proof.
  intros a b (_ & NC & _). unfold extra. apply (Permutation_NoDup (Permutation_sym (ord _))). apply NoDup_filter. exact NC.
Qed.

(** The table merged, when the lower one has rows *)
Definition mix (a b : table) : table := with_columns (updated a b) (extra (updated a b) b) b.
Lemma merge_tables : forall h ma mb, (ma < length h)%nat -> t_rows (load h ma) <> [] ->
  merge h (VFrame ma) (VFrame mb) = (store ma (mix (load h ma) (load h mb)) h, Ok (VFrame ma)).
Proof.
  intros h ma mb L R. cbn [merge is_frame orb]. unfold merge_frames. cbn [to_frame].
  rewrite load_store_same by exact L. rewrite set_columns_rows.
  - rewrite load_store_same by exact L. rewrite store_store. reflexivity.
  - rewrite store_length. exact L.
  - rewrite load_store_same by exact L. exact R.
Qed.
Lemma mix_rows : forall a b, t_rows (mix a b) = t_rows a.
Proof. intros a b. unfold mix. rewrite with_columns_rows. reflexivity. Qed.
Lemma mix_cols : forall a b, sound b -> exists cols, t_cols (mix a b) = t_cols (updated a b) ++ cols /\ map fst cols = extra (updated a b) b /\
  forall k col, In (k, col) cols -> exists bcol, sget k (t_cols b) = Some bcol /\ col = reindexed (t_rows a) (t_rows b) bcol.
Proof. intros a b Sb. unfold mix. refine (with_columns_app b _ (updated a b) (extra_nodup _ _ Sb) _). intros k I. apply extra_in in I. exact I. Qed.
Lemma mix_names : forall a b, sound b -> map fst (t_cols (mix a b)) = map fst (t_cols a) ++ extra a b.
Proof.
  intros a b Sb. destruct (mix_cols a b Sb) as (cols & E & M & _). rewrite E, map_app, M, updated_names. f_equal. unfold extra. f_equal.
  apply filter_ext_in. intros k _. f_equal. apply Bool.eq_iff_eq_true. rewrite !smem_in, updated_names. reflexivity.
Qed.
Lemma nodup_app : forall (l m : list pystr), NoDup l -> NoDup m -> (forall x, In x l -> ~ In x m) -> NoDup (l ++ m).
Proof.
  induction l as [|x l IH]; intros m A B D; [exact B|]. inversion A as [|? ? NI A']; subst. cbn [app]. constructor.
  - intros X. apply in_app_or in X. destruct X as [X|X]; [exact (NI X)|exact (D x (or_introl eq_refl) X)].
  - apply IH; [exact A'|exact B|]. intros y I. apply D. right. exact I.
Qed.
Lemma mix_sound : forall a b, sound a -> sound b -> sound (mix a b).
Proof.
  intros a b Sa Sb. destruct (updated_sound a b Sa) as (NR & NC & L). split; [rewrite mix_rows; exact NR|]. split.
  - rewrite mix_names by exact Sb. apply nodup_app; [apply Sa|apply extra_nodup; exact Sb|]. intros x I J. apply extra_in in J. destruct J as (_ & J). exact (J I).
  - destruct (mix_cols a b Sb) as (cols & E & M & C). rewrite mix_rows, E. intros c col I. apply in_app_or in I. destruct I as [I|I]; [exact (L _ _ I)|].
    destruct (C _ _ I) as (bcol & _ & ->). unfold reindexed. apply map_length.
Qed.
Lemma sget_app : forall V k (a b : list (pystr * V)), sget k (a ++ b) = match sget k a with Some v => Some v | None => sget k b end.
Proof.
  intros V k. induction a as [|[k' v'] a IH]; intros b; [reflexivity|]. unfold sget in *. cbn [app dget]. destruct (str_eqb k k'); [reflexivity|apply IH].
Qed.
Lemma over_none : forall x, over None x = x.
Proof. intros [x|]; reflexivity. Qed.
Lemma mix_cell : forall a b r c, sound a -> sound b ->
  cell (mix a b) r c = if in_dec Z.eq_dec r (t_rows a) then over (cell a r c) (cell b r c) else None.
Proof.
  intros a b r c Sa Sb. destruct (mix_cols a b Sb) as (cols & E & M & C). unfold cell at 1. rewrite mix_rows, E, sget_app.
  assert (U := updated_cell a b r c Sa). unfold cell at 1 in U. cbn [t_rows updated] in U. fold (updated a b) in U.
  assert (A : ~ In c (map fst (t_cols a)) -> cell a r c = None).
  { intros N. unfold cell. destruct (sget c (t_cols a)) eqn:G; [|reflexivity]. apply sget_in in G. exfalso. exact (N (in_map fst _ _ G)). }
  destruct (sget c (t_cols (updated a b))) as [col|] eqn:G.
  - rewrite U. assert (I := sget_in _ _ _ _ G). apply (in_map fst) in I. rewrite updated_names in I. destruct (in_dec _ c _) as [_|N]; [reflexivity|destruct (N I)].
  - apply sget_none in G. rewrite updated_names in G. rewrite (A G), over_none. destruct (sget c cols) as [col|] eqn:G2.
    + apply sget_in in G2. destruct (C _ _ G2) as (bcol & Eb & ->). unfold cell. rewrite Eb. destruct (in_dec Z.eq_dec r (t_rows a)) as [R|R].
      * unfold reindexed. apply look_map with (f := fun r => look r (t_rows b) bcol). exact R.
      * apply look_out. exact R.
    + apply sget_none in G2. rewrite M in G2. unfold cell. destruct (sget c (t_cols b)) as [bcol|] eqn:Eb; [|destruct (in_dec Z.eq_dec r (t_rows a)); reflexivity].
      exfalso. apply G2. apply extra_in. split; [exact (in_map fst _ _ (sget_in _ _ _ _ Eb))|]. rewrite updated_names. exact G.
Qed.

(** ** Winning *)
Lemma wins_snoc : forall A (says : A -> Z -> Prop) l t v, wins says (l ++ [t]) v <-> says t v \/ wins says l v /\ forall w, ~ says t w.
Proof.
  intros A says l t v. split.
  - intros (lower & u & upper & E & U & Q). destruct upper as [|z0 up0 _] using rev_ind.
    + apply app_inj_tail in E. destruct E as (-> & ->). left. exact U.
    + rename z0 into z, up0 into up. change (lower ++ u :: up ++ [z]) with (lower ++ (u :: up) ++ [z]) in E. rewrite app_assoc in E. apply app_inj_tail in E. destruct E as (-> & ->). right. split.
      * exists lower, u, up. repeat split; [exact U|]. intros x w I. apply Q. apply in_or_app. left. exact I.
      * intros w. apply Q. apply in_or_app. right. left. reflexivity.
  - intros [T|((lower & u & upper & -> & U & Q) & N)].
    + exists l, t, []. repeat split; [exact T|]. intros x w [].
    + exists lower, u, (upper ++ [t]). rewrite <- app_assoc. repeat split; [exact U|]. intros x w I. apply in_app_or in I.
      destruct I as [I|[<-|[]]]; [exact (Q _ _ I)|apply N].
Qed.

Lemma over_wins : forall a b v (sa sb : Z -> Prop), (forall w, sa w <-> a = Some w) -> (forall w, sb w <-> b = Some w) ->
  (over a b = Some v <-> sb v \/ sa v /\ forall w, ~ sb w).
Proof.
  intros a b v sa sb A B. rewrite A, B. destruct b as [x|]; cbn [over]; split.
  - left. assumption.
  - intros [X|(_ & X)]; [exact X|]. exfalso. apply (X x). apply B. reflexivity.
  - right. split; [assumption|]. intros w W. apply B in W. discriminate.
  - intros [X|(X & _)]; [discriminate|exact X].
Qed.
Lemma mix_tells : forall a b r c v, sound a -> sound b ->
  (tells (mix a b) r c v <-> In r (t_rows a) /\ (tells b r c v \/ tells a r c v /\ forall w, ~ tells b r c w)).
Proof.
  intros a b r c v Sa Sb. rewrite tells_cell by (apply mix_sound; assumption). rewrite mix_cell by assumption.
  rewrite <- (over_wins (cell a r c) (cell b r c) v (tells a r c) (tells b r c)) by (intros w; apply tells_cell; assumption).
  destruct (in_dec Z.eq_dec r (t_rows a)) as [R|R]; split; intros X; try tauto. discriminate.
Qed.

(** ** The first table *)
Lemma reindexed_same : forall rows col, NoDup rows -> length col = length rows -> reindexed rows rows col = col.
Proof.
  unfold reindexed. induction rows as [|x rows IH]; intros [|y col] ND L; cbn [length] in L; try lia; [reflexivity|]. cbn [map look].
  rewrite Z.eqb_refl. f_equal. inversion ND as [|? ? NI ND']; subst. transitivity (map (fun r => look r rows col) rows); [|apply IH; [exact ND'|lia]]. apply map_ext_in. intros r R.
  cbn [look]. destruct (x =? r)%Z eqn:E; [apply Z.eqb_eq in E; subst; destruct (NI R)|reflexivity].
Qed.
(** A frame without rows gets those of the first column it is given. *)
Definition blank (a b : table) : table := Table (t_rows b) (map (fun kc => (fst kc, map (fun _ => None) (t_rows b))) (t_cols a)).
Lemma blank_names : forall a b, map fst (t_cols (blank a b)) = map fst (t_cols a).
Proof. intros a b. unfold blank. cbn [t_cols]. rewrite map_map. apply map_ext. reflexivity. Qed.
Lemma blank_sound : forall a b, sound a -> sound b -> sound (blank a b).
Proof.
  intros a b (_ & NC & _) (NR & _ & _). split; [exact NR|]. split; [rewrite blank_names; exact NC|]. intros c col I. unfold blank in I. cbn [t_cols] in I.
  apply in_map_iff in I. destruct I as ((k & x) & E & _). injection E as <- <-. cbn [t_rows blank]. apply map_length.
Qed.
Lemma blank_cell : forall a b r c, cell (blank a b) r c = None.
Proof.
  intros a b r c. unfold cell. destruct (sget c (t_cols (blank a b))) as [col|] eqn:E; [|reflexivity]. apply sget_in in E. unfold blank in E. cbn [t_cols] in E.
  apply in_map_iff in E. destruct E as ((k & x) & E & _). injection E as <- <-. apply look_none.
Qed.
Lemma set_columns_none : forall b ks h m, sound b -> t_rows b <> [] -> t_rows (load h m) = [] -> ks <> [] ->
  (forall k, In k ks -> In k (map fst (t_cols b))) ->
  set_columns h m ks b = (h ++ [with_columns (blank (load h m) b) ks b], length h).
Proof.
  intros b ks h m Sb Rb Ra K A. destruct ks as [|k ks]; [congruence|]. cbn [set_columns with_columns].
  destruct (sget k (t_cols b)) as [bcol|] eqn:G; [|apply sget_none in G; destruct (G (A k (or_introl eq_refl)))].
  unfold set_column. rewrite Ra. unfold alloc. rewrite set_columns_rows.
  - rewrite load_alloc. cbn [t_rows blank t_cols]. rewrite (reindexed_same (t_rows b) bcol);
      [|apply Sb|destruct Sb as (_ & _ & L); exact (L _ _ (sget_in _ _ _ _ G))].
    f_equal. clear. revert h. assert (X : forall h t u, store (length h) u (h ++ [t]) = h ++ [u]); [|intros h; apply X].
    induction h as [|y h IH]; intros t u; cbn [length app store]; [reflexivity|]. rewrite IH. reflexivity.
  - rewrite app_length. cbn [length]. lia.
  - rewrite load_alloc. exact Rb.
Qed.
(** Without rows in either, there are none. *)
Lemma set_columns_void : forall b ks h m, t_rows b = [] -> t_rows (load h m) = [] -> (m < length h)%nat -> exists h' m',
  set_columns h m ks b = (h', m') /\ t_rows (load h' m') = [] /\ (length h <= length h')%nat /\ (m' < length h')%nat /\
  forall n, (n < length h)%nat -> nth_error h' n = nth_error h n.
Proof.
  intros b. induction ks as [|k ks IH]; intros h m Rb Ra L; cbn [set_columns]; [exists h, m; repeat split; auto|].
  destruct (sget k (t_cols b)) as [bcol|]; [|exact (IH h m Rb Ra L)]. unfold set_column. rewrite Ra. unfold alloc.
  edestruct (IH (h ++ [Table (t_rows b) (sset k bcol (map (fun kc => (fst kc, map (fun _ => None) (t_rows b))) (t_cols (load h m))))]) (length h) Rb) as (h' & m' & E & R & Lh & Lm & Kp).
  - rewrite load_alloc. exact Rb.
  - rewrite app_length. cbn [length]. lia.
  - exists h', m'. rewrite app_length in Lh. cbn [length] in Lh. split; [exact E|]. split; [exact R|]. split; [lia|]. split; [exact Lm|].
    intros n Ln. rewrite Kp by (rewrite app_length; cbn [length]; lia). apply nth_alloc. exact Ln.
Qed.

(** ** What is kept *)
Lemma set_columns_keeps : forall b ks h m h' m', set_columns h m ks b = (h', m') -> (m < length h)%nat ->
  (length h <= length h')%nat /\ (m' < length h')%nat /\ (m' = m \/ (length h <= m')%nat) /\ forall n, (n < length h)%nat -> n <> m -> nth_error h' n = nth_error h n.
Proof.
  intros b. induction ks as [|k ks IH]; intros h m h' m' E L; cbn [set_columns] in E.
  - injection E as <- <-. repeat split; auto.
  - destruct (sget k (t_cols b)) as [bcol|]; [|exact (IH _ _ _ _ E L)]. unfold set_column in E. destruct (t_rows (load h m)) as [|x rows].
    + unfold alloc in E. apply IH in E; [|rewrite app_length; cbn [length]; lia]. rewrite app_length in E. cbn [length] in E. destruct E as (E1 & E2 & E3 & E4).
      split; [lia|]. split; [exact E2|]. split; [right; lia|]. intros n Ln N. rewrite E4 by lia. apply nth_alloc. exact Ln.
    + apply IH in E; [|rewrite store_length; exact L]. rewrite store_length in E. destruct E as (E1 & E2 & E3 & E4).
      repeat split; try assumption. intros n Ln N. rewrite E4 by assumption. apply nth_store_other. congruence.
Qed.

Lemma to_frame_keeps : forall h v h' r, to_frame frame_of h v = (h', r) -> within (length h) v ->
  (length h <= length h')%nat /\ (forall n, (n < length h)%nat -> nth_error h' n = nth_error h n) /\
  forall m, r = Ok m -> (m < length h')%nat /\ (v = VFrame m \/ (length h <= m)%nat).
Proof.
  intros h v h' r E W. unfold to_frame in E.
  assert (X : forall t, (h', r) = (h ++ [t], Ok (length h)) ->
    (length h <= length h')%nat /\ (forall n, (n < length h)%nat -> nth_error h' n = nth_error h n) /\
    forall m, r = Ok m -> (m < length h')%nat /\ (v = VFrame m \/ (length h <= m)%nat)).
  { intros t Q. injection Q as -> ->. rewrite app_length. cbn [length]. split; [lia|]. split; [intros n Ln; apply nth_alloc; exact Ln|].
    intros m M. injection M as <-. split; [lia|right; lia]. }
  destruct v; try (destruct (frame_of _) as [t|e]; [apply (X t); symmetry; exact E|injection E as <- <-; split; [lia|]; split; [reflexivity|discriminate]]).
  - apply (X no_table). symmetry. exact E.
  - injection E as <- <-. split; [lia|]. split; [reflexivity|]. intros k K. injection K as <-. split; [apply W; constructor|left; reflexivity].
Qed.
Lemma updated_nothing : forall a, updated a no_table = a.
Proof.
  intros [rows cols]. unfold updated. cbn [t_rows t_cols no_table]. f_equal. induction cols as [|[k col] cols IH]; [reflexivity|]. cbn [map fst snd]. rewrite IH. reflexivity.
Qed.
Lemma set_order_nil : set_order [] = [].
Proof. apply Permutation_nil. apply Permutation_sym. apply ord. Qed.

Definition keeps (h h' : heap) (a b : value) (r : res value) : Prop :=
  (length h <= length h')%nat /\
  (forall m, (m < length h)%nat -> ~ met a b m -> nth_error h' m = nth_error h m) /\
  forall v, r = Ok v -> forall m, holds v m -> (m < length h')%nat /\ (holds a m \/ holds b m \/ (length h <= m)%nat).
Lemma merge_frames_keeps : forall h a b h' r, merge_frames h a b = (h', r) -> within (length h) a -> within (length h) b -> keeps h h' a b r.
Proof.
  intros h a b h' r E Wa Wb. unfold Tables_Model.merge_frames in E. destruct (to_frame frame_of h a) as [h1 [ma|e]] eqn:Ea.
  2:{ injection E as <- <-. destruct (to_frame_keeps _ _ _ _ Ea Wa) as (L1 & K1 & _). split; [exact L1|]. split; [intros m M _; exact (K1 _ M)|discriminate]. }
  destruct (to_frame_keeps _ _ _ _ Ea Wa) as (L1 & K1 & R1). destruct (R1 _ eq_refl) as (Lma & Ma).
  destruct (to_frame frame_of h1 b) as [h2 [mb|e]] eqn:Eb; assert (Wb1 : within (length h1) b) by (intros m M; apply Wb in M; lia).
  2:{ injection E as <- <-. destruct (to_frame_keeps _ _ _ _ Eb Wb1) as (L2 & K2 & _). split; [lia|]. split; [intros m M _; rewrite K2 by lia; exact (K1 _ M)|discriminate]. }
  destruct (to_frame_keeps _ _ _ _ Eb Wb1) as (L2 & K2 & R2).
  destruct (set_columns _ ma _ _) as [h3 m3] eqn:Es. injection E as <- <-.
  assert (K := set_columns_keeps _ _ _ _ _ _ Es). rewrite store_length in K. destruct K as (L3 & Lm3 & M3 & K3); [lia|].
  split; [lia|]. split.
  - intros m Lm N. destruct (Nat.eq_dec m ma) as [->|D].
    + destruct Ma as [->|Ma]; [|lia]. destruct b as [| | | | | | |]; try (exfalso; apply N; constructor; discriminate).
      cbn [to_frame] in Eb. unfold alloc in Eb. injection Eb as <- <-. rewrite load_alloc, updated_nothing, store_load in Es.
      cbn [no_table t_cols map List.filter] in Es. rewrite set_order_nil in Es. cbn [set_columns] in Es. injection Es as <- <-. rewrite K2 by lia. apply K1. exact Lm.
    + rewrite K3 by (try lia; exact D). rewrite nth_store_other by congruence. rewrite K2 by lia. apply K1. exact Lm.
  - intros v V m Hm. injection V as <-. inversion Hm; subst. split; [exact Lm3|]. destruct M3 as [->|M3]; [|right; right; lia].
    destruct Ma as [->|Ma]; [left; constructor|right; right; lia].
Qed.

(** ** What is kept, in trees *)
Definition grows (h h' : heap) : Prop := (length h <= length h')%nat /\ forall m, (m < length h)%nat -> nth_error h' m = nth_error h m.
Lemma grows_refl : forall h, grows h h.
Proof. intros h. split; [lia|reflexivity]. Qed.
Lemma grows_trans : forall a b c, grows a b -> grows b c -> grows a c.
Proof. intros a b c (L1 & K1) (L2 & K2). split; [lia|]. intros m M. rewrite K2 by lia. apply K1. exact M. Qed.
Lemma within_more : forall n n' v, within n v -> (n <= n')%nat -> within n' v.
Proof. intros n n' v W L m M. apply W in M. lia. Qed.
Definition from (h h' : heap) (s v : value) : Prop := forall m, holds v m -> (m < length h')%nat /\ (holds s m \/ (length h <= m)%nat).

Lemma elems_clones : forall l h,
  (fix elems (l : list value) (h : heap) : heap * res (list value) :=
     match l with
     | [] => (h, Ok [])
     | x :: l' =>
         match clone h x with
         | (h, Ok y) =>
             match elems l' h with
             | (h, Ok r) => (h, Ok (y :: r))
             | (h, Raise e) => (h, Raise e)
             end
         | (h, Raise e) => (h, Raise e)
         end
     end) l h = clones h l.
Proof. induction l as [|x l IH]; intros h; [reflexivity|]. cbn [clones]. destruct (clone h x) as [h1 [y|e]]; [|reflexivity]. rewrite IH. reflexivity. Qed.
Lemma clones_list : forall l, (forall v, In v l -> forall h h' r, clone h v = (h', r) -> within (length h) v -> grows h h' /\ forall u, r = Ok u -> from h h' v u) ->
  forall h h' r, clones h l = (h', r) -> within (length h) (VList l) -> grows h h' /\ forall us, r = Ok us -> from h h' (VList l) (VList us).
Proof.
  induction l as [|x l IH]; intros A h h' r E W; cbn [Tables_Model.clones] in E.
  - injection E as <- <-. split; [apply grows_refl|]. intros us U. injection U as <-. intros m M. inversion M as [|? ? ? I|]; subst. destruct I.
  - destruct (clone h x) as [h1 r1] eqn:E1. destruct (A x (or_introl eq_refl) _ _ _ E1) as (G1 & F1).
    { intros m M. apply W. apply (H_list _ x); [left; reflexivity|exact M]. }
    destruct r1 as [y|e]; [|injection E as <- <-; split; [exact G1|discriminate]].
    destruct (clones h1 l) as [h2 r2] eqn:E2. assert (L1 := proj1 G1). edestruct (IH (fun v I => A v (or_intror I)) _ _ _ E2) as (G2 & F2).
    { intros m M. inversion M as [|? v ? I Hv|]; subst. assert (X : (m < length h)%nat) by (apply W; apply (H_list _ v); [right; exact I|exact Hv]). lia. }
    assert (L2 := proj1 G2).
    destruct r2 as [us2|e]; injection E as <- <-; (split; [exact (grows_trans _ _ _ G1 G2)|]); [|discriminate].
    intros us U. injection U as <-. intros m M. inversion M as [|? v ? I Hv|]; subst. destruct I as [<-|I].
    + destruct (F1 _ eq_refl _ Hv) as (X & [Y|Y]); (split; [lia|]); [left; apply (H_list _ x); [left; reflexivity|exact Y]|right; exact Y].
    + destruct (F2 _ eq_refl m (H_list _ v m I Hv)) as (X & [Y|Y]); (split; [exact X|]); [|right; lia].
      left. inversion Y as [|? w ? J Hw|]; subst. apply (H_list _ w); [right; exact J|exact Hw].
Qed.
Lemma clone_grows : forall a h h' r, clone h a = (h', r) -> within (length h) a -> grows h h' /\ forall u, r = Ok u -> from h h' a u.
Proof.
  assert (Q : forall a h, within (length h) a -> from h h a a) by (intros a h W m M; split; [exact (W _ M)|left; exact M]).
  induction a as [|b|z|s|s|m|l IH|d IH] using value_induct; intros h h' r E W; cbn [Tables_Model.clone] in E.
  - injection E as <- <-. split; [apply grows_refl|discriminate].
  - injection E as <- <-. split; [apply grows_refl|]. intros u U. injection U as <-. apply Q. exact W.
  - injection E as <- <-. split; [apply grows_refl|]. intros u U. injection U as <-. apply Q. exact W.
  - injection E as <- <-. split; [apply grows_refl|]. intros u U. injection U as <-. apply Q. exact W.
  - injection E as <- <-. split; [apply grows_refl|]. intros u U. cbn in U. injection U as <-. intros m M. inversion M.
  - destruct (merge_frames_keeps _ _ _ _ _ E W) as (L & K & F); [intros m0 M; inversion M|]. split.
    + split; [exact L|]. intros n N. apply K; [exact N|]. intros X. inversion X; congruence.
    + intros u U n N. destruct (F u U n N) as (X & [Y|[Y|Y]]); (split; [exact X|]); [left; exact Y|inversion Y|right; exact Y].
  - rewrite elems_clones in E. destruct (clones h l) as [h1 r1] eqn:E1. injection E as <- <-. destruct (clones_list l IH _ _ _ E1 W) as (G & F).
    split; [exact G|]. intros u U. destruct r1 as [us|e]; [|discriminate]. cbn [rbind] in U. injection U as <-. exact (F us eq_refl).
  - injection E as <- <-. split; [apply grows_refl|]. intros u U. injection U as <-. apply Q. exact W.
Qed.

Lemma holds_sset : forall k v d m, holds (VDict (sset k v d)) m -> holds v m \/ holds (VDict d) m.
Proof.
  intros k v d m H. inversion H as [| |? j x ? I Hx]; subst. clear H. revert I. induction d as [|[k' v'] d IH]; unfold sset; cbn [dset]; intros I.
  - destruct I as [E|[]]. injection E as <- <-. left. exact Hx.
  - destruct (str_eqb k k').
    + destruct I as [E|I]; [injection E as <- <-; left; exact Hx|right; apply (H_dict _ j x); [right; exact I|exact Hx]].
    + destruct I as [E|I]; [injection E as <- <-; right; apply (H_dict _ k' v'); [left; reflexivity|exact Hx]|].
      destruct (IH I) as [X|X]; [left; exact X|right]. inversion X as [| |? j2 x2 ? I2 Hx2]; subst. apply (H_dict _ j2 x2); [right; exact I2|exact Hx2].
Qed.
Lemma in_sset_other : forall k j (v x : value) d, j <> k -> In (j, x) (sset k v d) -> In (j, x) d.
Proof.
  intros k j v x d N. induction d as [|[k' v'] d IH]; unfold sset; cbn [dset]; intros I.
  - destruct I as [E|[]]. congruence.
  - destruct (str_eqb k k') eqn:Q.
    + apply str_eqb_eq in Q. destruct I as [E|I]; [congruence|right; exact I].
    + destruct I as [E|I]; [left; exact E|right; exact (IH I)].
Qed.
Lemma items_hold : forall v l m, items_of v = Ok l -> holds (VList l) m -> holds v m.
Proof.
  intros v l m E H. destruct v; try discriminate; injection E as <-; [|exact H]. inversion H as [|? x ? I Hx|]; subst.
  apply in_map_iff in I. destruct I as (c & <- & _). inversion Hx.
Qed.

Fixpoint keys (db : list (pystr * value)) (h : heap) (da : list (pystr * value)) : heap * res (list (pystr * value)) :=
  match db with
  | [] => (h, Ok da)
  | (k, bv) :: db' =>
      match sget k da with
      | Some av =>
          match merge h av bv with
          | (h, Ok v) => keys db' h (sset k v da)
          | (h, Raise e) => (h, Raise e)
          end
      | None => keys db' h (sset k bv da)
      end
  end.
Lemma merge_dict : forall h a db, is_frame a = false -> is_series a = false ->
  merge h a (VDict db) = match to_dict a with
                         | Raise e => (h, Raise e)
                         | Ok da => let '(h, r) := keys db h da in (h, do d <- r; Ok (VDict d))
                         end.
Proof. intros h a db F Se. cbn [Tables_Model.merge is_frame is_series is_dict]. rewrite F, Se, Bool.orb_true_r. cbn [orb]. reflexivity. Qed.

Lemma keys_keeps : forall db, (forall k v, In (k, v) db -> forall a h h' r, merge h a v = (h', r) -> within (length h) a -> within (length h) v -> keeps h h' a v r) ->
  NoDup (map fst db) -> forall h da h' r, keys db h da = (h', r) -> within (length h) (VDict da) -> within (length h) (VDict db) ->
  keeps h h' (VDict da) (VDict db) (do d <- r; Ok (VDict d)).
Proof.
  induction db as [|[k bv] db IH]; intros A ND h da h' r E Wa Wb; cbn [keys] in E.
  - injection E as <- <-. split; [lia|]. split; [reflexivity|]. intros v V m M. cbn [rbind] in V. injection V as <-. split; [exact (Wa _ M)|left; exact M].
  - cbn [map fst] in ND. inversion ND as [|? ? NI ND']; subst.
    assert (Hb : forall m, holds (VDict db) m -> holds (VDict ((k, bv) :: db)) m).
    { intros m M. inversion M as [| |? j x ? I Hx]; subst. apply (H_dict _ j x); [right; exact I|exact Hx]. }
    assert (Hv : forall m, holds bv m -> holds (VDict ((k, bv) :: db)) m) by (intros m M; apply (H_dict _ k bv); [left; reflexivity|exact M]).
    assert (Mt : forall v m, met (VDict (sset k v da)) (VDict db) m -> met (VDict da) (VDict ((k, bv) :: db)) m).
    { intros v m M. inversion M as [|? ? j x y ? I J Mxy]; subst. apply (M_key _ _ j x y); [|right; exact J|exact Mxy].
      apply (in_sset_other k j v); [|exact I]. intros ->. apply NI. exact (in_map fst _ _ J). }
    destruct (sget k da) as [av|] eqn:G.
    + assert (Ia := sget_in _ _ _ _ G). assert (Ha : forall m, holds av m -> holds (VDict da) m) by (intros m M; exact (H_dict _ _ _ _ Ia M)).
      destruct (merge h av bv) as [h1 r1] eqn:E1.
      destruct (A k bv (or_introl eq_refl) _ _ _ _ E1 (fun m M => Wa m (Ha m M)) (fun m M => Wb m (Hv m M))) as (L1 & K1 & F1).
      assert (N1 : forall m, ~ met (VDict da) (VDict ((k, bv) :: db)) m -> ~ met av bv m).
      { intros m N M. apply N. apply (M_key _ _ k av bv); [exact Ia|left; reflexivity|exact M]. }
      destruct r1 as [v|e].
      2:{ injection E as <- <-. split; [exact L1|]. split; [|discriminate]. intros m Lm N. apply K1; [exact Lm|exact (N1 m N)]. }
      edestruct (IH (fun j x I => A j x (or_intror I)) ND' _ _ _ _ E) as (L2 & K2 & F2).
      { intros m M. apply holds_sset in M. destruct M as [M|M]; [exact (proj1 (F1 _ eq_refl _ M))|]. apply Wa in M. lia. }
      { intros m M. apply Hb in M. apply Wb in M. lia. }
      split; [lia|]. split.
      * intros m Lm N. rewrite K2; [apply K1; [exact Lm|exact (N1 m N)]|lia|]. intros M. exact (N (Mt _ _ M)).
      * intros u U m M. destruct (F2 u U m M) as (X & [Y|[Y|Y]]); (split; [exact X|]); [|right; left; exact (Hb _ Y)|right; right; lia].
        apply holds_sset in Y. destruct Y as [Y|Y]; [|left; exact Y]. destruct (F1 _ eq_refl _ Y) as (_ & [Z|[Z|Z]]); [left; exact (Ha _ Z)|right; left; exact (Hv _ Z)|right; right; exact Z].
    + edestruct (IH (fun j x I => A j x (or_intror I)) ND' _ _ _ _ E) as (L2 & K2 & F2).
      { intros m M. apply holds_sset in M. destruct M as [M|M]; [exact (Wb _ (Hv _ M))|exact (Wa _ M)]. }
      { intros m M. exact (Wb _ (Hb _ M)). }
      split; [exact L2|]. split.
      * intros m Lm N. apply K2; [exact Lm|]. intros M. exact (N (Mt _ _ M)).
      * intros u U m M. destruct (F2 u U m M) as (X & [Y|[Y|Y]]); (split; [exact X|]); [|right; left; exact (Hb _ Y)|right; right; exact Y].
        apply holds_sset in Y. destruct Y as [Y|Y]; [right; left; exact (Hv _ Y)|left; exact Y].
Qed.

Lemma keeps_same : forall h a b r, within (length h) a -> within (length h) b -> (forall v, r = Ok v -> forall m, holds v m -> holds a m \/ holds b m) -> keeps h h a b r.
Proof.
  intros h a b r Wa Wb H. split; [lia|]. split; [reflexivity|]. intros v V m M. destruct (H v V m M) as [X|X]; (split; [|tauto]); [exact (Wa _ X)|exact (Wb _ X)].
Qed.
Lemma merge_series_keeps : forall h a b, within (length h) a -> within (length h) b -> keeps h h a b (merge_series series_of union a b).
Proof.
  intros h a b Wa Wb. apply keeps_same; [exact Wa|exact Wb|]. intros v V m M. unfold merge_series in V.
  destruct (to_series series_of a) as [x|e]; [|discriminate]. cbn [rbind] in V. destruct (to_series series_of b) as [y|e]; [|discriminate]. cbn [rbind] in V. injection V as <-. inversion M.
Qed.
Lemma clones_keeps : forall h s a b l h' r, items_of s = Ok l -> s = a \/ s = b -> clones h l = (h', r) -> within (length h) a -> within (length h) b ->
  keeps h h' a b (do l <- r; Ok (VList l)).
Proof.
  intros h s a b l h' r I S E Wa Wb. assert (Ws : within (length h) s) by (destruct S as [-> | ->]; assumption).
  destruct (clones_list l (fun v _ => clone_grows v) _ _ _ E) as ((L & K) & F); [intros m M; apply Ws; exact (items_hold _ _ _ I M)|].
  split; [exact L|]. split; [intros m Lm _; exact (K m Lm)|]. intros v V m M. destruct r as [us|e]; [|discriminate]. cbn [rbind] in V. injection V as <-.
  destruct (F us eq_refl m M) as (X & [Y|Y]); (split; [exact X|]); [|right; right; exact Y]. apply (items_hold _ _ _ I) in Y. destruct S as [-> | ->]; tauto.
Qed.
Lemma merge_keeps : forall b a h h' r, merge h a b = (h', r) -> proper b -> within (length h) a -> within (length h) b -> keeps h h' a b r.
Proof.
  induction b as [|bb|z|s|s|mb|l IH|d IH] using value_induct; intros a h h' r E Pb Wa Wb.
  8:{ destruct (is_frame a) eqn:Fr; [destruct a; try discriminate; exact (merge_frames_keeps _ _ _ _ _ E Wa Wb)|].
      destruct (is_series a) eqn:Se; [destruct a; try discriminate; injection E as <- <-; apply merge_series_keeps; assumption|].
      rewrite merge_dict in E by assumption. inversion Pb as [| | | | | | |? ND Pd]; subst. destruct (to_dict a) as [da|e] eqn:Ta.
      - destruct (keys d h da) as [h1 r1] eqn:Ek. injection E as <- <-.
        assert (X : keeps h h1 (VDict da) (VDict d) (do d <- r1; Ok (VDict d))).
        { apply (keys_keeps d); [|exact ND|exact Ek| |exact Wb].
          - intros k v I a0 h0 h0' r0 E0 W1 W2. exact (IH k v I _ _ _ _ E0 (Pd _ _ I) W1 W2).
          - destruct a; try discriminate; injection Ta as <-; [intros m M; inversion M; subst; match goal with X : In _ [] |- _ => destruct X end|exact Wa]. }
        destruct a; try discriminate; injection Ta as <-; [|exact X]. destruct X as (L & K & F). split; [exact L|]. split.
        + intros m Lm N. apply K; [exact Lm|]. intros M. inversion M; subst. match goal with X : In _ [] |- _ => destruct X end.
        + intros v V m M. destruct (F v V m M) as (X & [Y|Y]); (split; [exact X|]); [inversion Y; subst; match goal with Q : In _ [] |- _ => destruct Q end|right; exact Y].
      - injection E as <- <-. apply keeps_same; [exact Wa|exact Wb|discriminate]. }
  6:{ cbn [Tables_Model.merge is_frame] in E. rewrite Bool.orb_true_r in E. exact (merge_frames_keeps _ _ _ _ _ E Wa Wb). }
  5:{ cbn [Tables_Model.merge is_frame is_series] in E. destruct (is_frame a) eqn:Fr; cbn [orb] in E; [exact (merge_frames_keeps _ _ _ _ _ E Wa Wb)|].
      rewrite Bool.orb_true_r in E. injection E as <- <-. apply merge_series_keeps; assumption. }
  all: cbn [Tables_Model.merge is_frame is_series is_dict is_list] in E;
    destruct a as [|ba|za|sa|sa|ma|la|da]; cbn [is_frame is_series is_dict is_list orb to_dict] in E;
    try exact (merge_frames_keeps _ _ _ _ _ E Wa Wb);
    try (injection E as <- <-; apply merge_series_keeps; assumption);
    try (injection E as <- <-; apply keeps_same; [exact Wa|exact Wb|]; intros v V m M; first [discriminate|injection V as <-; inversion M; fail|injection V as <-; tauto]).
  all: try (injection E as <- <-; apply keeps_same; [exact Wa|exact Wb|]; intros v V m M; injection V as <-; tauto).
  all: cbn [items_of] in E; try (injection E as <- <-; apply keeps_same; [exact Wa|exact Wb|discriminate]).
  all: match type of E with context [clones ?h ?l] => destruct (clones h l) as [h1 r1] eqn:Ec end; injection E as <- <-.
  all: first [apply (clones_keeps _ (VList la) _ _ _ _ _ eq_refl (or_introl eq_refl) Ec); assumption
             |refine (clones_keeps _ _ _ _ _ _ _ _ (or_intror eq_refl) Ec Wa Wb); reflexivity].
Qed.

Lemma met_holds : forall a b m, met a b m -> holds a m.
Proof. intros a b m M. induction M as [m b N|da db k av bv m I J _ IH]; [constructor|]. exact (H_dict _ _ _ _ I IH). Qed.
Lemma merge_all_keeps : forall ms top h model h' m' o, merge_all h model (ms ++ [top]) = (h', m', o) ->
  (forall v, In v (ms ++ [top]) -> proper v /\ within (length h) v) -> within (length h) model ->
  forall m, (m < length h)%nat -> ~ holds model m -> (forall v, In v ms -> ~ holds v m) -> nth_error h' m = nth_error h m.
Proof.
  induction ms as [|v ms IH]; intros top h model h' m' o E A W m Lm Nm N; cbn [app Tables_Model.merge_all] in E.
  - destruct (merge h model top) as [h1 r] eqn:E1. destruct (A top (or_introl eq_refl)) as (P & Wt).
    destruct (merge_keeps _ _ _ _ _ E1 P W Wt) as (L & K & _). assert (X : h' = h1) by (destruct r; injection E; auto). subst h'.
    apply K; [exact Lm|]. intros M. exact (Nm (met_holds _ _ _ M)).
  - destruct (merge h model v) as [h1 r] eqn:E1. destruct (A v (or_introl eq_refl)) as (P & Wv).
    destruct (merge_keeps _ _ _ _ _ E1 P W Wv) as (L & K & F). assert (X : nth_error h1 m = nth_error h m) by (apply K; [exact Lm|]; intros M; exact (Nm (met_holds _ _ _ M))).
    destruct r as [model'|e]; [|injection E as <- _ _; exact X]. rewrite <- X. refine (IH _ _ _ _ _ _ E _ _ m _ _ _).
    + intros u I. destruct (A u (or_intror I)) as (Pu & Wu). split; [exact Pu|exact (within_more _ _ _ Wu L)].
    + intros k Hk. exact (proj1 (F _ eq_refl _ Hk)).
    + lia.
    + intros Hm. destruct (F _ eq_refl _ Hm) as (_ & [Y|[Y|Y]]); [exact (Nm Y)|exact (N v (or_introl eq_refl) Y)|lia].
    + intros u I. apply N. right. exact I.
Qed.

(** ** Tables without rows *)
Lemma sset_names : forall V k (v : V) d x, In x (map fst (sset k v d)) -> x = k \/ In x (map fst d).
Proof.
  intros V k v. induction d as [|[k' v'] d IH]; intros x; unfold sset; cbn [dset].
  - intros [<-|[]]. left. reflexivity.
  - destruct (str_eqb k k') eqn:E; cbn [map fst].
    + apply str_eqb_eq in E. subst. intros [<-|I]; [left; reflexivity|right; right; exact I].
    + intros [<-|I]; [right; left; reflexivity|]. destruct (IH x I) as [->|J]; [left; reflexivity|right; right; exact J].
Qed.
Lemma sset_nodup : forall V k (v : V) d, NoDup (map fst d) -> NoDup (map fst (sset k v d)).
Proof.
  intros V k v. induction d as [|[k' v'] d IH]; intros ND; unfold sset; cbn [dset].
  - constructor; [intros []|constructor].
  - cbn [map fst] in ND. inversion ND as [|? ? NI ND']; subst. destruct (str_eqb k k') eqn:E; cbn [map fst].
    + apply str_eqb_eq in E. subst. constructor; assumption.
    + apply str_eqb_neq in E. constructor; [|exact (IH ND')]. intros I. apply sset_names in I. destruct I as [->|I]; [apply E; reflexivity|exact (NI I)].
Qed.
Lemma set_columns_void_sound : forall b ks h m h' m', sound b -> t_rows b = [] -> t_rows (load h m) = [] -> sound (load h m) ->
  set_columns h m ks b = (h', m') -> sound (load h' m').
Proof.
  intros b. induction ks as [|k ks IH]; intros h m h' m' Sb Rb Ra Sa E; cbn [set_columns] in E; [injection E as <- <-; exact Sa|].
  destruct (sget k (t_cols b)) as [bcol|] eqn:G; [|exact (IH _ _ _ _ Sb Rb Ra Sa E)]. unfold set_column in E. rewrite Ra in E. unfold alloc in E.
  apply IH in E; [exact E|exact Sb|exact Rb|rewrite load_alloc; exact Rb|]. rewrite load_alloc. rewrite Rb.
  assert (Q := blank_names (load h m) b). unfold blank in Q. rewrite Rb in Q. cbn [t_cols] in Q.
  split; [constructor|]. split.
  - cbn [t_cols]. apply sset_nodup. rewrite Q. apply Sa.
  - cbn [t_cols t_rows]. intros c col I. destruct Sb as (_ & _ & L).
    destruct (list_eq_dec N.eq_dec c k) as [->|N].
    + assert (ND : NoDup (map fst (sset k bcol (map (fun kc => (fst kc, map (fun _ : Z => @None Z) [])) (t_cols (load h m)))))) by (apply sset_nodup; rewrite Q; apply Sa).
      assert (X := in_sget _ _ _ _ ND I). rewrite sget_sset_eq in X. injection X as <-. rewrite (L _ _ (sget_in _ _ _ _ G)). rewrite Rb. reflexivity.
    + assert (X : In (c, col) (map (fun kc => (fst kc, map (fun _ : Z => @None Z) [])) (t_cols (load h m)))).
      { revert I. generalize (map (fun kc => (fst kc, map (fun _ : Z => @None Z) [])) (t_cols (load h m))). intros d.
        induction d as [|[k' v'] d IHd]; unfold sset; cbn [dset]; intros I; [destruct I as [Y|[]]; congruence|].
        destruct (str_eqb k k') eqn:Y; [apply str_eqb_eq in Y; subst; destruct I as [I|I]; [congruence|right; exact I]|].
        destruct I as [I|I]; [left; exact I|right; exact (IHd I)]. }
      apply in_map_iff in X. destruct X as ((? & ?) & Y & _). injection Y as _ <-. reflexivity.
Qed.

Lemma merge_header : forall h ma mb, (ma < length h)%nat -> t_rows (load h ma) = [] -> sound (load h ma) -> sound (load h mb) ->
  exists h' m, merge h (VFrame ma) (VFrame mb) = (h', Ok (VFrame m)) /\ (length h <= length h')%nat /\ (m < length h')%nat /\
    (m = ma \/ (length h <= m)%nat) /\ sound (load h' m) /\
    (forall n, (n < length h)%nat -> n <> ma -> nth_error h' n = nth_error h n) /\
    (forall c, In c (map fst (t_cols (load h mb))) -> ~ In c (map fst (t_cols (load h ma))) -> t_rows (load h' m) = t_rows (load h mb)) /\
    forall r c v, tells (load h' m) r c v <-> tells (load h mb) r c v /\ ~ In c (map fst (t_cols (load h ma))).
Proof.
  intros h ma mb L Ra Sa Sb. cbn [Tables_Model.merge is_frame orb]. unfold Tables_Model.merge_frames. cbn [to_frame].
  rewrite load_store_same by exact L. set (ta := load h ma) in *. set (tb := load h mb) in *. set (h1 := store ma (updated ta tb) h).
  assert (Lh1 : length h1 = length h) by apply store_length. assert (La : load h1 ma = updated ta tb) by (apply load_store_same; exact L).
  fold (extra (updated ta tb) tb). set (ks := extra (updated ta tb) tb).
  assert (Ks : forall k, In k ks <-> In k (map fst (t_cols tb)) /\ ~ In k (map fst (t_cols ta))).
  { intros k. unfold ks. rewrite extra_in, updated_names. reflexivity. }
  assert (Ru : t_rows (load h1 ma) = []) by (rewrite La; exact Ra).
  assert (Su : sound (updated ta tb)) by (apply updated_sound; exact Sa).
  destruct (set_columns h1 ma ks tb) as [h' m] eqn:E. exists h', m.
  destruct (set_columns_keeps _ _ _ _ _ _ E) as (L1 & L2 & M & K); [lia|]. rewrite Lh1 in *.
  assert (K' : forall n, (n < length h)%nat -> n <> ma -> nth_error h' n = nth_error h n).
  { intros n Ln N. rewrite K by assumption. unfold h1. apply nth_store_other. congruence. }
  split; [reflexivity|]. split; [exact L1|]. split; [exact L2|]. split; [exact M|].
  assert (No : forall t r c v, t_rows t = [] -> ~ tells t r c v).
  { intros t r c v R (i & col & E1 & _). rewrite R in E1. destruct i; discriminate. }
  destruct (list_eq_dec Z.eq_dec (t_rows tb) []) as [Rb|Rb]; [|destruct (list_eq_dec (list_eq_dec N.eq_dec) ks []) as [Ek|Ek]].
  - destruct (set_columns_void tb ks h1 ma Rb Ru) as (h2 & m2 & E2 & R2 & _); [lia|]. rewrite E in E2. injection E2 as <- <-.
    split; [apply (set_columns_void_sound tb ks h1 ma); [exact Sb|exact Rb|exact Ru|rewrite La; exact Su|exact E]|]. split; [exact K'|].
    split; [intros _ _ _; rewrite R2, Rb; reflexivity|]. intros r c v. split; [intros T; destruct (No _ _ _ _ R2 T)|intros (T & _); destruct (No _ _ _ _ Rb T)].
  - rewrite Ek in E, Ks. cbn [set_columns] in E. injection E as <- <-. rewrite La. split; [exact Su|]. split; [exact K'|]. split.
    + intros c I N. destruct (proj2 (Ks c) (conj I N)).
    + intros r c v. split; [intros T; destruct (No (updated ta tb) _ _ _ Ra T)|]. intros (T & N). exfalso. apply (tells_cell _ _ _ _ Sb) in T. apply cell_col in T.
      destruct (proj2 (Ks c) (conj T N)).
  - rewrite set_columns_none in E; [|exact Sb|exact Rb|exact Ru|exact Ek|intros k I; apply Ks; exact I]. rewrite La in E.
    assert (X := f_equal fst E). assert (Y := f_equal snd E). cbn [fst snd] in X, Y. subst h' m. rewrite load_alloc. clear E. set (bl := blank (updated ta tb) tb) in *. assert (Sbl : sound bl) by (apply blank_sound; assumption).
    assert (NDk : NoDup ks) by (apply extra_nodup; exact Sb).
    assert (Fr : forall k, In k ks -> In k (map fst (t_cols tb)) /\ ~ In k (map fst (t_cols bl))).
    { intros k I. unfold bl. rewrite blank_names, updated_names. apply Ks. exact I. }
    destruct (with_columns_app tb ks bl NDk Fr) as (cols & Ec & Mc & C).
    assert (Rw : t_rows (with_columns bl ks tb) = t_rows tb) by (rewrite with_columns_rows; reflexivity).
    assert (Sw : sound (with_columns bl ks tb)).
    { split; [rewrite Rw; apply Sb|]. split.
      - rewrite Ec, map_app, Mc. apply nodup_app; [apply Sbl|exact NDk|]. intros x X Y. exact (proj2 (Fr x Y) X).
      - rewrite Rw, Ec. intros c col I. apply in_app_or in I. destruct I as [I|I]; [destruct Sbl as (_ & _ & Q); exact (Q _ _ I)|].
        destruct (C _ _ I) as (bcol & _ & ->). unfold reindexed. apply map_length. }
    split; [exact Sw|]. split; [exact K'|]. split; [intros _ _ _; exact Rw|]. intros r c v. rewrite !tells_cell by assumption.
    unfold cell at 1. rewrite Rw, Ec, sget_app. destruct (sget c (t_cols bl)) as [col|] eqn:G.
    + assert (X := blank_cell (updated ta tb) tb r c). fold bl in X. unfold cell in X. rewrite G in X. cbn [bl blank t_rows] in X. rewrite X.
      apply sget_in in G. apply (in_map fst) in G. unfold bl in G. rewrite blank_names, updated_names in G. split; [discriminate|]. intros (_ & N). destruct (N G).
    + apply sget_none in G. unfold bl in G. rewrite blank_names, updated_names in G. destruct (sget c cols) as [col|] eqn:G2.
      * apply sget_in in G2. destruct (C _ _ G2) as (bcol & Eb & ->). change (t_rows bl) with (t_rows tb). rewrite reindexed_same;
          [|apply Sb|destruct Sb as (_ & _ & Q); exact (Q _ _ (sget_in _ _ _ _ Eb))]. unfold cell. rewrite Eb. split; [intros X; split; [exact X|exact G]|intros (X & _); exact X].
      * apply sget_none in G2. rewrite Mc in G2. split; [discriminate|]. intros (X & _). apply cell_col in X. destruct (G2 (proj2 (Ks c) (conj X G))).
Qed.

(** ** Stacks of tables *)
Lemma merge_null : forall h mb, merge h VNull (VFrame mb) = merge (h ++ [no_table]) (VFrame (length h)) (VFrame mb).
Proof. reflexivity. Qed.
Lemma load_grows : forall h h' m, grows h h' -> (m < length h)%nat -> load h' m = load h m.
Proof. intros h h' m (_ & K) L. rewrite !load_nth, K by exact L. reflexivity. Qed.
Lemma merge_stack : forall rest h0 hc m R prefix,
  grows h0 hc -> (length h0 <= m < length hc)%nat -> sound (load hc m) -> t_rows (load hc m) = R -> R <> [] ->
  (forall r c v, tells (load hc m) r c v <-> In r R /\ wins (fun t => tells t r c) prefix v) ->
  (forall k, In k rest -> (k < length h0)%nat /\ sound (load h0 k)) ->
  exists h', merge_all hc (VFrame m) (map VFrame rest) = (h', VFrame m, None) /\ grows h0 h' /\ (m < length h')%nat /\ sound (load h' m) /\ t_rows (load h' m) = R /\
    forall r c v, tells (load h' m) r c v <-> In r R /\ wins (fun t => tells t r c) (prefix ++ map (load h0) rest) v.
Proof.
  induction rest as [|k rest IH]; intros h0 hc m R prefix G (Lm & Lm') S Er Nr T A; cbn [map Tables_Model.merge_all].
  - exists hc. rewrite app_nil_r. exact (conj eq_refl (conj G (conj Lm' (conj S (conj Er T))))).
  - destruct (A k (or_introl eq_refl)) as (Lk & Sk). assert (Ek := load_grows _ _ _ G Lk).
    rewrite merge_tables by (try lia; rewrite Er; exact Nr). rewrite Ek. set (t := mix (load hc m) (load h0 k)).
    assert (St : sound t) by (apply mix_sound; assumption).
    edestruct (IH h0 (store m t hc) m R (prefix ++ [load h0 k])) as (h' & E & G' & L' & S' & R' & T').
    + split; [rewrite store_length; apply G|]. intros n Ln. rewrite nth_store_other by lia. apply G. exact Ln.
    + rewrite store_length. lia.
    + rewrite load_store_same by lia. exact St.
    + rewrite load_store_same by lia. unfold t. rewrite mix_rows. exact Er.
    + exact Nr.
    + intros r c v. rewrite load_store_same by lia. unfold t. rewrite mix_tells by assumption. rewrite Er, wins_snoc. rewrite T. tauto.
    + intros j J. apply A. right. exact J.
    + exists h'. rewrite <- app_assoc in T'. cbn [app] in T'. exact (conj E (conj G' (conj L' (conj S' (conj R' T'))))).
Qed.

(** ** Series *)
Hypothesis uni : unites union.
Definition put (a b : series) : series :=
  map (fun k => (k, match at_label k b with Some v => Some v | None => at_label k a end)) (union (map fst b) (map fst a)).
Lemma labelled_at : forall s c v, NoDup (map fst s) -> (labelled s c v <-> at_label c s = Some v).
Proof.
  intros s c v ND. unfold labelled, at_label. split.
  - intros I. rewrite (in_sget _ _ _ _ ND I). reflexivity.
  - destruct (sget c s) as [x|] eqn:E; [|discriminate]. intros ->. apply sget_in. exact E.
Qed.
Lemma put_sound : forall a b, NoDup (map fst a) -> NoDup (map fst b) -> NoDup (map fst (put a b)).
Proof.
  intros a b A B. unfold put. rewrite map_map. cbn [fst]. rewrite map_id. apply uni; assumption.
Qed.
Lemma put_labelled : forall a b c v, NoDup (map fst a) -> NoDup (map fst b) ->
  (labelled (put a b) c v <-> labelled b c v \/ labelled a c v /\ forall w, ~ labelled b c w).
Proof.
  intros a b c v A B. rewrite <- (over_wins (at_label c a) (at_label c b) v (labelled a c) (labelled b c)) by (intros w; apply labelled_at; assumption).
  unfold labelled, put. destruct (uni (map fst b) (map fst a) B A) as (_ & U). split.
  - intros I. apply in_map_iff in I. destruct I as (k & E & _). injection E as <- <-. unfold over. destruct (at_label k b); reflexivity.
  - intros E. apply in_map_iff. exists c. split; [f_equal; rewrite <- E; unfold over; destruct (at_label c b); reflexivity|]. apply U.
    unfold over, at_label in E. destruct (sget c b) as [x|] eqn:Gb.
    + left. exact (in_map fst _ _ (sget_in _ _ _ _ Gb)).
    + right. destruct (sget c a) as [y|] eqn:Ga; [|discriminate]. exact (in_map fst _ _ (sget_in _ _ _ _ Ga)).
Qed.
Lemma merge_all_series : forall rest h model s prefix, (model = VSeries s \/ model = VNull /\ s = [] /\ rest <> []) ->
  NoDup (map fst s) -> (forall c v, labelled s c v <-> wins (fun t => labelled t c) prefix v) -> (forall t, In t rest -> NoDup (map fst t)) ->
  exists s', merge_all h model (map VSeries rest) = (h, VSeries s', None) /\ NoDup (map fst s') /\
    forall c v, labelled s' c v <-> wins (fun t => labelled t c) (prefix ++ rest) v.
Proof.
  induction rest as [|t rest IH]; intros h model s prefix M ND W A.
  - destruct M as [->|(_ & _ & X)]; [|congruence]. exists s. rewrite app_nil_r. split; [reflexivity|]. split; assumption.
  - assert (E : merge h model (VSeries t) = (h, Ok (VSeries (put s t)))) by (destruct M as [->|(-> & -> & _)]; reflexivity).
    cbn [map Tables_Model.merge_all]. rewrite E. destruct (IH h (VSeries (put s t)) (put s t) (prefix ++ [t])) as (s' & E' & ND' & W').
    + left. reflexivity.
    + apply put_sound; [exact ND|]. apply A. left. reflexivity.
    + intros c v. rewrite put_labelled by (try exact ND; apply A; left; reflexivity). rewrite wins_snoc, W. reflexivity.
    + intros u U. apply A. right. exact U.
    + exists s'. rewrite <- app_assoc in W'. split; [exact E'|]. split; [exact ND'|exact W'].
Qed.

(** ** JSON trees *)
Lemma plain_clone : forall j h, clone h (plain j) = (h, plainly (Pandel_Model.clone j)).
Proof.
  induction j as [|b|z|s|l IH|d IH] using json_ind'; intros h; try reflexivity. cbn [plain Tables_Model.clone]. rewrite elems_clones.
  assert (X : clones h (map plain l) = (h, match rmap Pandel_Model.clone l with Ok l => Ok (map plain l) | Raise e => Raise e end)).
  { induction IH as [|x l Hx _ IH]; [reflexivity|]. cbn [map Tables_Model.clones rmap]. rewrite Hx. destruct (Pandel_Model.clone x); cbn [plainly rbind]; [|reflexivity].
    rewrite IH. destruct (rmap Pandel_Model.clone l); reflexivity. }
  rewrite X. rewrite clone_list, clones_rmap. destruct (rmap Pandel_Model.clone l); reflexivity.
Qed.
Lemma plain_clones : forall l h, clones h (map plain l) = (h, match rmap Pandel_Model.clone l with Ok l => Ok (map plain l) | Raise e => Raise e end).
Proof.
  induction l as [|x l IH]; intros h; [reflexivity|]. cbn [map Tables_Model.clones rmap]. rewrite plain_clone. destruct (Pandel_Model.clone x); cbn [plainly rbind]; [|reflexivity].
  rewrite IH. destruct (rmap Pandel_Model.clone l); reflexivity.
Qed.
Lemma plain_items : forall j, items_of (plain j) = match Pandel_Model.items_of j with Ok l => Ok (map plain l) | Raise e => Raise e end.
Proof. intros [| | |s| |]; try reflexivity. cbn. f_equal. rewrite map_map. reflexivity. Qed.
Definition plains (d : list (pystr * json)) : list (pystr * value) := map (fun kv => (fst kv, plain (snd kv))) d.
Lemma plain_get : forall k d, sget k (plains d) = match sget k d with Some v => Some (plain v) | None => None end.
Proof.
  intros k. induction d as [|[k' v'] d IH]; [reflexivity|]. unfold sget in *. cbn [plains map dget fst snd]. destruct (str_eqb k k'); [reflexivity|exact IH].
Qed.
Lemma plain_set : forall k v d, sset k (plain v) (plains d) = plains (sset k v d).
Proof.
  intros k v. induction d as [|[k' v'] d IH]; [reflexivity|]. unfold sset in *. cbn [plains map dset fst snd]. destruct (str_eqb k k'); [reflexivity|].
  cbn [plains map fst snd]. f_equal. exact IH.
Qed.
Lemma plain_flat : forall j, is_frame (plain j) = false /\ is_series (plain j) = false.
Proof. intros []; split; reflexivity. Qed.
Lemma plain_merge : forall b a h, merge h (plain a) (plain b) = (h, plainly (Pandel_Model.merge a b)).
Proof.
  induction b as [|bb|z|s|l _|db IH] using json_ind'; intros a h.
  6:{ cbn [plain]. destruct (plain_flat a) as (Fa & Sa). rewrite merge_dict by assumption. rewrite Pandel_Proofs.merge_dict. fold (plains db).
      assert (X : forall h da, keys (plains db) h (plains da) = (h, match merge_keys db da with Ok d => Ok (plains d) | Raise e => Raise e end)).
      { clear a h Fa Sa. induction IH as [|[k bv] db Hx _ IHd]; intros h da; [reflexivity|]. cbn [plains map fst snd keys merge_keys]. rewrite plain_get. cbn [snd] in Hx.
        destruct (sget k da) as [av|].
        - rewrite Hx. destruct (Pandel_Model.merge av bv); cbn [plainly rbind]; [|reflexivity]. rewrite plain_set. apply IHd.
        - cbn [rbind]. rewrite plain_set. apply IHd. }
      destruct a as [|ba|za|sa|la|da]; cbn [plain to_dict rbind]; try reflexivity.
      - change [] with (plains []) at 1. rewrite X. destruct (merge_keys db []); reflexivity.
      - fold (plains da). rewrite X. destruct (merge_keys db da); reflexivity. }
  all: rewrite Pandel_Proofs.merge_not_dict by reflexivity;
    destruct a as [|ba|za|sa|la|da]; cbn [plain Tables_Model.merge is_frame is_series is_dict is_list orb to_dict]; cbv [is_strict_sequence]; cbn [orb];
    try reflexivity.
  all: match goal with |- context [Pandel_Model.items_of ?x] => let X := fresh in assert (X := plain_items x); cbn [plain] in X; rewrite X; clear X; destruct (Pandel_Model.items_of x) as [li|e] end;
    cbn [rbind]; [|reflexivity]; rewrite plain_clones; destruct (rmap Pandel_Model.clone li); reflexivity.
Qed.
Lemma plain_merge_all : forall ms m h, merge_all h (plain m) (map plain ms) =
  let '(c, e) := Pandel_Model.merge_all m ms in (h, plain c, e).
Proof.
  induction ms as [|x ms IH]; intros m h; [reflexivity|]. cbn [map Tables_Model.merge_all Pandel_Model.merge_all]. rewrite plain_merge.
  destruct (Pandel_Model.merge m x); cbn [plainly]; [apply IH|reflexivity].
Qed.
End Merging.
