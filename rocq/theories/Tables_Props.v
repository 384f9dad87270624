(** * C110: merged tables have, cell by cell, the top-most values *)
From Coq Require Import String Permutation Lia.
From Verif Require Import PyBase Json.
From Verif Require Pandel_Model.
From Verif Require Import Tables_Model Tables_Spec Tables_Proofs.

(** ** What holds *)

(** A table merged into one with rows: its rows are kept, its columns come
    first, and each cell has the upper value or else the lower one.  The lower
    frame is the one written into, all others are left. *)
Theorem C110_two : forall frame_of series_of set_order union, orders set_order ->
  forall h ma mb, (ma < length h)%nat -> sound (load h ma) -> sound (load h mb) -> t_rows (load h ma) <> [] ->
  exists h', merge frame_of series_of set_order union h (VFrame ma) (VFrame mb) = (h', Ok (VFrame ma)) /\ length h' = length h /\
    (forall m, m <> ma -> nth_error h' m = nth_error h m) /\
    sound (load h' ma) /\ t_rows (load h' ma) = t_rows (load h ma) /\
    (exists more, map fst (t_cols (load h' ma)) = map fst (t_cols (load h ma)) ++ more) /\
    (forall c, In c (map fst (t_cols (load h' ma))) <-> In c (map fst (t_cols (load h ma))) \/ In c (map fst (t_cols (load h mb)))) /\
    forall r c v, tells (load h' ma) r c v <-> In r (t_rows (load h ma)) /\ wins (fun t => tells t r c) [load h ma; load h mb] v.
Proof.
  intros frame_of series_of set_order union ord h ma mb L Sa Sb R.
  exists (store ma (mix set_order (load h ma) (load h mb)) h). rewrite load_store_same by exact L.
  split; [apply merge_tables; assumption|]. split; [apply store_length|]. split; [intros m N; apply nth_store_other; congruence|].
  split; [apply mix_sound; assumption|]. split; [apply mix_rows|].
  split; [exists (extra set_order (load h ma) (load h mb)); apply mix_names; assumption|]. split.
  - intros c. rewrite mix_names by assumption. rewrite in_app_iff, extra_in by exact ord. destruct (in_dec (list_eq_dec N.eq_dec) c (map fst (t_cols (load h ma)))); tauto.
  - intros r c v. rewrite mix_tells by assumption.
    change [load h ma; load h mb] with ([load h ma] ++ [load h mb]). rewrite wins_snoc. change [load h ma] with ([] ++ [load h ma]). rewrite wins_snoc.
    assert (X : ~ wins (fun t => tells t r c) [] v) by (intros (lo & t & up & E & _); destruct lo; discriminate). tauto.
Qed.
Print Assumptions C110_two.

(** Models that are tables, one over the other: in the rows of the lowest, the
    top-most value wins; and none of the given tables has changed. *)
Theorem C110_stack : forall frame_of series_of set_order union, orders set_order ->
  forall h m1 ms, (forall k, In k (m1 :: ms) -> (k < length h)%nat /\ sound (load h k)) -> t_rows (load h m1) <> [] -> t_cols (load h m1) <> [] ->
  exists h' m, merge_all frame_of series_of set_order union h VNull (map VFrame (m1 :: ms)) = (h', VFrame m, None) /\
    (forall k, (k < length h)%nat -> nth_error h' k = nth_error h k) /\ (length h <= m)%nat /\
    sound (load h' m) /\ t_rows (load h' m) = t_rows (load h m1) /\
    forall r c v, tells (load h' m) r c v <-> In r (t_rows (load h m1)) /\ wins (fun t => tells t r c) (map (load h) (m1 :: ms)) v.
Proof.
  intros frame_of series_of set_order union ord h m1 ms A R C. destruct (A m1 (or_introl eq_refl)) as (L1 & S1).
  cbn [map merge_all]. rewrite (merge_null frame_of series_of set_order union).
  assert (E1 : load (h ++ [no_table]) m1 = load h m1) by (rewrite !load_nth, nth_alloc by exact L1; reflexivity).
  destruct (merge_header frame_of series_of set_order union ord (h ++ [no_table]) (length h) m1) as (hc & m & E & La & Lm & M & Sm & K & Rm & T).
  { rewrite app_length. cbn [length]. lia. }
  { rewrite load_alloc. reflexivity. }
  { rewrite load_alloc. apply no_table_sound. }
  { rewrite E1. exact S1. }
  rewrite E1, load_alloc in *. rewrite app_length in *. cbn [length no_table t_cols map] in *. rewrite E.
  assert (Rm' : t_rows (load hc m) = t_rows (load h m1)).
  { destruct (t_cols (load h m1)) as [|[c col] cols] eqn:Ec; [congruence|]. apply (Rm c); [left; reflexivity|intros []]. }
  edestruct (merge_stack frame_of series_of set_order union ord ms h hc m (t_rows (load h m1)) [load h m1]) as (h' & E' & G & L' & S' & R' & T').
  - split; [lia|]. intros n Ln. rewrite K by lia. apply nth_alloc. exact Ln.
  - lia.
  - exact Sm.
  - exact Rm'.
  - exact R.
  - intros r c v. rewrite T. change [load h m1] with ([] ++ [load h m1]). rewrite wins_snoc. split.
    + intros (X & _). split; [|left; exact X]. destruct X as (i & col & X & _). exact (nth_error_In _ _ X).
    + intros (_ & [X|((lo & t & up & X & _) & _)]); [split; [exact X|intros []]|destruct lo; discriminate].
  - intros k I. apply A. right. exact I.
  - exists h', m. split; [exact E'|]. split; [apply G|]. split; [lia|]. split; [exact S'|]. split; [exact R'|exact T'].
Qed.
Print Assumptions C110_stack.

(** Models that are series, one over the other *)
Theorem C110_series : forall frame_of series_of set_order union, unites union -> forall h ss, ss <> [] -> (forall s, In s ss -> NoDup (map fst s)) ->
  exists s, merge_all frame_of series_of set_order union h VNull (map VSeries ss) = (h, VSeries s, None) /\ NoDup (map fst s) /\
    forall c v, labelled s c v <-> wins (fun t => labelled t c) ss v.
Proof.
  intros frame_of series_of set_order union U h ss N A.
  refine (merge_all_series frame_of series_of set_order union U ss h VNull [] [] (or_intror (conj eq_refl (conj eq_refl N))) (NoDup_nil _) _ A).
  intros c v. split; [intros []|]. intros (lo & t & up & E & _). destruct lo; discriminate.
Qed.
Print Assumptions C110_series.

(** A table merged into one without rows (a header): the columns of the header
    are left without values. *)
Theorem C110_header : forall frame_of series_of set_order union, orders set_order ->
  forall h ma mb, (ma < length h)%nat -> t_rows (load h ma) = [] -> sound (load h ma) -> sound (load h mb) ->
  exists h' m, merge frame_of series_of set_order union h (VFrame ma) (VFrame mb) = (h', Ok (VFrame m)) /\ sound (load h' m) /\
    forall r c v, tells (load h' m) r c v <-> tells (load h mb) r c v /\ ~ In c (map fst (t_cols (load h ma))).
Proof.
  intros frame_of series_of set_order union ord h ma mb L R Sa Sb.
  destruct (merge_header frame_of series_of set_order union ord h ma mb L R Sa Sb) as (h' & m & E & _ & _ & _ & S' & _ & _ & T).
  exists h', m. split; [exact E|]. split; [exact S'|exact T].
Qed.
Print Assumptions C110_header.

(** In trees of models: merging writes only into tables of the lower model,
    where the upper one has something, too. *)
Theorem C110_kept_partial : forall frame_of series_of set_order union, orders set_order ->
  forall h a b h' r, merge frame_of series_of set_order union h a b = (h', r) -> proper b -> within (length h) a -> within (length h) b ->
  forall m, (m < length h)%nat -> ~ met a b m -> nth_error h' m = nth_error h m.
Proof. intros frame_of series_of set_order union ord h a b h' r E P Wa Wb. apply (merge_keeps _ _ _ _ ord _ _ _ _ _ E P Wa Wb). Qed.
Print Assumptions C110_kept_partial.
(** So, the tables of the top-most model are left, unless lower ones have them, too. *)
Theorem C110_top_partial : forall frame_of series_of set_order union, orders set_order ->
  forall h ms top h' model o, merge_all frame_of series_of set_order union h VNull (ms ++ [top]) = (h', model, o) ->
  (forall v, In v (ms ++ [top]) -> proper v /\ within (length h) v) ->
  forall m, (m < length h)%nat -> (forall v, In v ms -> ~ holds v m) -> nth_error h' m = nth_error h m.
Proof.
  intros frame_of series_of set_order union ord h ms top h' model o E A m L N.
  refine (merge_all_keeps _ _ _ _ ord _ _ _ _ _ _ _ E A _ m L _ N); [intros k H|intros H]; inversion H.
Qed.
Print Assumptions C110_top_partial.

(** Without tables and series, it is the merging of C40. *)
Theorem C110_plain : forall frame_of series_of set_order union ms h,
  merge_all frame_of series_of set_order union h VNull (map plain ms) = let '(c, e) := Pandel_Model.merge_all JNull ms in (h, plain c, e).
Proof. intros frame_of series_of set_order union ms h. exact (plain_merge_all frame_of series_of set_order union ms JNull h). Qed.
Print Assumptions C110_plain.
Example C110_plain_example : Pandel_Model.merge_all JNull [JDict [(lit "a", JNum 1); (lit "b", JList [JBool true])]; JDict [(lit "a", JNull); (lit "b", JStr (lit "x"))]]
  = (JDict [(lit "a", JNum 1); (lit "b", JList [JStr (lit "x")])], None).
Proof. vm_compute. reflexivity. Qed.

(** ** What does not *)
Definition no_frame (v : value) : res table := Raise ValueError.
Definition no_series (v : value) : res series := Raise ValueError.
Definition same (l : list pystr) : list pystr := l.
Definition both (a b : list pystr) : list pystr := a ++ List.filter (fun k => negb (existsb (str_eqb k) a)) b.
Notation merge0 := (merge no_frame no_series same both).
Notation merge_all0 := (merge_all no_frame no_series same both).
Lemma same_orders : orders same.
Proof. intros l. apply Permutation_refl. Qed.

(** Rows of upper tables that the lowest has not are dropped. *)
Theorem C110_rows_refuted : exists h h' m r c v, merge_all0 h VNull [VFrame 0; VFrame 1] = (h', VFrame m, None) /\
  sound (load h 0) /\ sound (load h 1) /\ wins (fun t => tells t r c) [load h 0; load h 1] v /\ forall w, ~ tells (load h' m) r c w.
Proof.
  exists [Table [1%Z] [(lit "x", [Some 10%Z])]; Table [1%Z; 2%Z] [(lit "x", [Some 20%Z; Some 30%Z])]]. do 2 eexists. exists 2%Z, (lit "x"), 30%Z.
  split; [vm_compute; reflexivity|]. assert (S : forall rows x, NoDup rows -> length x = length rows -> sound (Table rows [(lit "x", x)])).
  { intros rows x ND L. split; [exact ND|]. split; [repeat constructor; intros []|]. intros c col [E|[]]. injection E as _ <-. exact L. }
  split; [apply S; [repeat constructor; intros []|reflexivity]|]. split; [apply S; [repeat constructor; cbn; intuition discriminate|reflexivity]|]. split.
  - exists [Table [1%Z] [(lit "x", [Some 10%Z])]], (Table [1%Z; 2%Z] [(lit "x", [Some 20%Z; Some 30%Z])]), []. split; [reflexivity|]. split; [|intros u w []].
    exists 1%nat, [Some 20%Z; Some 30%Z]. repeat split. left. reflexivity.
  - intros w (i & col & E & _). vm_compute in E. destruct i as [|[|i]]; discriminate.
Qed.
Print Assumptions C110_rows_refuted.

(** Values in the columns of a header are lost. *)
Theorem C110_header_refuted : exists h h' m r c v, merge_all0 h VNull [VFrame 0; VFrame 1] = (h', VFrame m, None) /\
  sound (load h 0) /\ sound (load h 1) /\ t_rows (load h 0) = [] /\ wins (fun t => tells t r c) [load h 0; load h 1] v /\ In c (map fst (t_cols (load h' m))) /\ In r (t_rows (load h' m)) /\
  forall w, ~ tells (load h' m) r c w.
Proof.
  exists [Table [] [(lit "x", [])]; Table [1%Z] [(lit "x", [Some 10%Z]); (lit "y", [Some 20%Z])]]. do 2 eexists. exists 1%Z, (lit "x"), 10%Z.
  split; [vm_compute; reflexivity|].
  split; [split; [constructor|]; split; [repeat constructor; intros []|]; intros c col [E|[]]; injection E as _ <-; reflexivity|].
  split; [split; [repeat constructor; intros []|]; split; [repeat constructor; cbn; intuition discriminate|]; intros c col [E|[E|[]]]; injection E as _ <-; reflexivity|].
  split; [reflexivity|]. split.
  - exists [Table [] [(lit "x", [])]], (Table [1%Z] [(lit "x", [Some 10%Z]); (lit "y", [Some 20%Z])]), []. split; [reflexivity|]. split; [|intros u w []].
    exists 0%nat, [Some 10%Z]. repeat split. left. reflexivity.
  - split; [left; reflexivity|]. split; [left; reflexivity|]. intros w (i & col & E & I & V). vm_compute in E, I.
    destruct i as [|[|i]]; try discriminate. destruct I as [I|[I|[]]]; [injection I as <-; discriminate|discriminate I].
Qed.
Print Assumptions C110_header_refuted.

(** A lone table may come out with its columns in another order. *)
Theorem C110_order_refuted : exists set_order h h' m, orders set_order /\
  merge_all no_frame no_series set_order both h VNull [VFrame 0] = (h', VFrame m, None) /\ sound (load h 0) /\
  map fst (t_cols (load h 0)) = [lit "x"; lit "y"] /\ map fst (t_cols (load h' m)) = [lit "y"; lit "x"].
Proof.
  exists (@rev pystr), [Table [1%Z] [(lit "x", [Some 10%Z]); (lit "y", [Some 20%Z])]]. do 2 eexists.
  split; [intros l; apply Permutation_sym, Permutation_rev|]. split; [vm_compute; reflexivity|]. split; [|split; reflexivity].
  split; [repeat constructor; intros []|]; split; [repeat constructor; cbn; intuition discriminate|]; intros c col [E|[E|[]]]; injection E as _ <-; reflexivity.
Qed.
Print Assumptions C110_order_refuted.

(** A table inside a sub-model gets the values and columns of those above it:
    the sub-model is changed. *)
Theorem C110_changed_refuted : exists h d0 d1 h' model, merge_all0 h VNull [VDict d0; VDict d1] = (h', model, None) /\
  sget (lit "t") d0 = Some (VFrame 0) /\ sget (lit "t") d1 = Some (VFrame 1) /\ sound (load h 0) /\ sound (load h 1) /\
  load h 0 = Table [1%Z] [(lit "x", [Some 10%Z])] /\ load h' 0 = Table [1%Z] [(lit "x", [Some 20%Z]); (lit "y", [Some 30%Z])].
Proof.
  exists [Table [1%Z] [(lit "x", [Some 10%Z])]; Table [1%Z] [(lit "x", [Some 20%Z]); (lit "y", [Some 30%Z])]], [(lit "t", VFrame 0)], [(lit "t", VFrame 1)]. do 2 eexists.
  split; [vm_compute; reflexivity|]. split; [reflexivity|]. split; [reflexivity|].
  split; [split; [repeat constructor; intros []|]; split; [repeat constructor; intros []|]; intros c col [E|[]]; injection E as _ <-; reflexivity|].
  split; [split; [repeat constructor; intros []|]; split; [repeat constructor; cbn; intuition discriminate|]; intros c col [E|[E|[]]]; injection E as _ <-; reflexivity|].
  split; reflexivity.
Qed.
Print Assumptions C110_changed_refuted.

(** ** Examples *)
Example C110_example :
  merge_all0 [Table [1%Z; 2%Z; 3%Z] [(lit "x", [Some 10%Z; None; Some 12%Z])]; Table [3%Z; 2%Z; 9%Z] [(lit "y", [Some 7%Z; Some 8%Z; Some 9%Z]); (lit "x", [Some 20%Z; None; Some 1%Z])]] VNull [VFrame 0; VFrame 1]
  = ([Table [1%Z; 2%Z; 3%Z] [(lit "x", [Some 10%Z; None; Some 12%Z])]; Table [3%Z; 2%Z; 9%Z] [(lit "y", [Some 7%Z; Some 8%Z; Some 9%Z]); (lit "x", [Some 20%Z; None; Some 1%Z])];
      Table [] []; Table [1%Z; 2%Z; 3%Z] [(lit "x", [Some 10%Z; None; Some 20%Z]); (lit "y", [None; Some 8%Z; Some 7%Z])]], VFrame 3, None).
Proof. vm_compute. reflexivity. Qed.
Example C110_series_example :
  merge_all0 [] VNull [VSeries [(lit "a", Some 1%Z); (lit "b", Some 2%Z)]; VNull; VSeries [(lit "b", None); (lit "c", Some 4%Z)]; VSeries [(lit "a", Some 5%Z)]]
  = ([], VSeries [(lit "a", Some 5%Z); (lit "b", Some 2%Z); (lit "c", Some 4%Z)], None).
Proof. vm_compute. reflexivity. Qed.
(** Lists of tables hold the very tables; a list over a list takes its place. *)
Example C110_list_example :
  merge_all0 [no_table; Table [1%Z] [(lit "x", [None])]] VNull [VDict [(lit "l", VList [VFrame 0])]; VDict [(lit "l", VList [VFrame 1; VSeries [(lit "a", None)]]); (lit "n", VNum 3)]]
  = ([no_table; Table [1%Z] [(lit "x", [None])]; no_table], VDict [(lit "l", VList [VFrame 1; VSeries [(lit "a", None)]]); (lit "n", VNum 3)], None).
Proof. vm_compute. reflexivity. Qed.
(** What no table is made of fails, as do dictionaries over numbers, and nothing over nothing. *)
Example C110_errors_example :
  merge0 [no_table] (VFrame 0) (VNum 1) = ([no_table], Raise ValueError) /\ merge0 [] (VNum 1) (VDict []) = ([], Raise TypeError) /\
  merge0 [] VNull VNull = ([], Raise ValidationError) /\ merge0 [] VNull (VList [VNull]) = ([], Raise ValidationError) /\ merge0 [] (VSeries []) (VStr (lit "a")) = ([], Raise ValueError) /\
  merge no_frame (fun v => Ok [(lit "0", Some 1%Z)]) same both [] (VSeries [(lit "a", Some 2%Z)]) (VNum 1) = ([], Ok (VSeries [(lit "0", Some 1%Z); (lit "a", Some 2%Z)])) /\
  merge (fun v => Ok (Table [0%Z] [(lit "0", [Some 1%Z])])) no_series same both [] (VNum 1) (VNum 1) = ([], Ok (VNum 1)).
Proof. vm_compute. repeat split. Qed.
Example C110_hypotheses : orders same /\ unites both /\ proper (VDict [(lit "t", VFrame 0)]) /\ within 1 (VDict [(lit "t", VFrame 0)]) /\
  met (VDict [(lit "t", VFrame 0)]) (VDict [(lit "t", VFrame 1)]) 0 /\ ~ met (VDict [(lit "t", VFrame 0)]) (VDict [(lit "u", VFrame 1)]) 0.
Proof.
  split; [exact same_orders|]. split.
  { intros a b A B. unfold both.
    assert (X : forall x, In x (List.filter (fun k => negb (existsb (str_eqb k) a)) b) <-> In x b /\ ~ In x a).
    { intros x. rewrite filter_In, Bool.negb_true_iff, <- Bool.not_true_iff_false, existsb_exists. split; intros (I & N); (split; [exact I|]).
      - intros J. apply N. exists x. split; [exact J|apply PyBase_Proofs.str_eqb_refl].
      - intros (y & J & E). apply PyBase_Proofs.str_eqb_eq in E. subst. exact (N J). }
    split.
    - apply nodup_app; [exact A|apply NoDup_filter; exact B|]. intros x I J. apply X in J. exact (proj2 J I).
    - intros x. rewrite in_app_iff, X. destruct (in_dec (list_eq_dec N.eq_dec) x a); tauto. }
  split; [constructor; [repeat constructor; intros []|intros k v [E|[]]; injection E as _ <-; constructor]|].
  split; [intros m H; inversion H; subst; repeat match goal with X : In _ [_] |- _ => destruct X as [X|[]]; injection X as _ <- end; match goal with X : holds (VFrame _) _ |- _ => inversion X end; lia|].
  split; [apply (M_key _ _ (lit "t") (VFrame 0) (VFrame 1)); [left; reflexivity|left; reflexivity|constructor; discriminate]|].
  intros M. inversion M; subst. repeat match goal with X : In _ [_] |- _ => destruct X as [X|[]] end.
  assert (X : lit "t" = lit "u") by congruence. discriminate X.
Qed.
