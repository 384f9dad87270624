From Coq Require Import String.
From Verif Require Import PyBase PyBase_Proofs Json Pandel_Model Pandel_Proofs Kinds_Model Kinds_Spec.

Lemma nan_only : forall k l, length l = 1 -> (match isnan_of k l with Some l => forallb (fun b => b) l | None => false end) = true <-> has_nan k /\ l = [true].
Proof. intros k [|b [|c l]] L; try discriminate L. unfold has_nan. destruct k, b; cbn; split; try discriminate; try (intros [? ?]; try discriminate; intuition congruence); intros _; intuition. Qed.
Theorem null_iff : forall v, sound v -> is_null v = true <-> nothing v.
Proof.
  intros v S. destruct v as [|b|z| |n|s|s|l|d|k n|k sh ns|k ns|rows cols]; try (split; [discriminate|inversion 1]); try (split; [constructor|reflexivity]).
  - unfold is_null. cbn [size_of isnan]. rewrite (nan_only k [n] eq_refl). split; [intros [H E]; injection E as ->; constructor; exact H|inversion 1; auto].
  - unfold is_null. cbn [size_of isnan]. cbn [sound] in S. rewrite <- S. destruct (length ns) as [|[|m]] eqn:L; [split; [discriminate|inversion 1; subst; discriminate]| |split; [discriminate|inversion 1; subst; discriminate]].
    rewrite (nan_only k ns L). split; [intros [H ->]; constructor; exact H|inversion 1; auto].
  - unfold is_null. cbn [size_of isnan]. destruct (length ns) as [|[|m]] eqn:L; [split; [discriminate|inversion 1; subst; discriminate]| |split; [discriminate|inversion 1; subst; discriminate]].
    rewrite (nan_only k ns L). split; [intros [H ->]; constructor; exact H|inversion 1; auto].
  - unfold is_null. cbn [size_of isnan]. cbn [sound] in S. destruct (rows * length cols) as [|[|m]] eqn:L; [split; [discriminate|inversion 1; subst; discriminate]| |split; [discriminate|inversion 1; subst; discriminate]].
    apply Nat.eq_mul_1 in L. destruct L as [-> L]. destruct cols as [|[name [k ns]] [|? ?]]; try discriminate L. pose proof (S name k ns (or_introl eq_refl)) as L2. cbn [isnan_cols].
    replace (match isnan_of k ns with Some a => Some (a ++ []) | None => None end) with (isnan_of k ns) by (destruct (isnan_of k ns); [rewrite app_nil_r|]; reflexivity).
    rewrite (nan_only k ns L2). split; [intros [H ->]; constructor; exact H|inversion 1; auto].
Qed.

Theorem json_types : forall v t, is_type (of_json v) t = Pandel_Model.is_type v t.
Proof. intros [] []; reflexivity. Qed.

Theorem documented_types : forall v t, documented v t -> is_type v t = true.
Proof. intros v t D. destruct D; reflexivity. Qed.
Theorem documented_only : forall v t, In t [TArray; TObject] -> is_type v t = true -> documented v t \/ exists k shape nans, v = VArray k shape nans /\ length shape <> 1 /\ t = TArray.
Proof.
  intros v t [<-|[<-|[]]] E; destruct v as [|b|z| |n|s|s|l|d|k n|k sh ns|k ns|rows cols]; try discriminate E; try (left; constructor).
  - destruct k; try discriminate E. left. constructor.
  - destruct sh as [|n [|m sh]]; [right|left; constructor|right]; do 3 eexists; (split; [reflexivity|split; [discriminate|reflexivity]]).
Qed.
Theorem numbers : forall v, (is_type v TInteger = true -> is_type v TNumber = true) /\ (is_type v TBoolean = true -> is_type v TNumber = false /\ is_type v TInteger = false).
Proof. intros v. destruct v as [|b|z| |n|s|s|l|d|k n|k sh ns|k ns|rows cols]; try (split; [discriminate|intros _; split; reflexivity]); try (split; [reflexivity|discriminate]); try (split; discriminate). destruct k; split; try discriminate; auto. Qed.
Theorem scalars : forall k nan t, is_type (VScalar k nan) t = true <-> In t (scalar_types k) \/ (t = TNull /\ nan = true /\ has_nan k).
Proof.
  intros k nan t. assert (D : t = TNull \/ t <> TNull) by (destruct t; auto; right; discriminate). destruct D as [->|D].
  2: { destruct t; try congruence; destruct k; cbn; intuition (try congruence; try discriminate). }
  change (is_type (VScalar k nan) TNull) with (is_null (VScalar k nan)). rewrite null_iff by exact I. split.
  - intros N. right. inversion N. auto.
  - intros [H|(_ & -> & H)]; [destruct k; cbn in H; intuition discriminate|]. constructor. exact H.
Qed.
Theorem texts_only : forall v t, is_type v TString = true -> is_type v t = true -> t = TString.
Proof. intros v t S E. destruct v as [|b|z| |n|s|s|l|d|k n|k sh ns|k ns|rows cols]; try discriminate S; [destruct t; try discriminate E; reflexivity|]. destruct k; try discriminate S. destruct t; try discriminate E; reflexivity. Qed.

(** ** Tables *)
Lemma col_null : forall c, is_null (col_val c) = true <-> blank c.
Proof.
  intros [o l]. rewrite null_iff by exact I. unfold blank, col_val. cbn [c_objects c_cells]. split.
  - intros N. remember (VSeries _ _) as v eqn:V in N. destruct N as [| | | |k K|]; try discriminate V. destruct o; [injection V as -> _; destruct K as [X|[X|[X|[X|[]]]]]; discriminate X|]. destruct l as [|[z|] [|? ?]]; try discriminate V. reflexivity.
  - intros E. injection E as -> ->. constructor. left. reflexivity.
Qed.
Lemma not_null : forall c, ~ blank c -> is_null (col_val c) = false.
Proof. intros c N. destruct (is_null (col_val c)) eqn:E; [|reflexivity]. apply col_null in E. contradiction. Qed.
Lemma set_col_ok : forall t name d, t_rows t <> 0 -> fits (t_rows t) d -> set_col t name d = Ok (mkTable (t_rows t) (sset name (new_col (t_rows t) d) (t_cols t))).
Proof. intros t name [z|l] R F; cbn; [reflexivity|]. cbn in F. rewrite F, Nat.eqb_refl. reflexivity. Qed.
Lemma set_col_bad : forall t name d, t_rows t <> 0 -> ~ fits (t_rows t) d -> set_col t name d = Raise ValueError.
Proof. intros t name [z|l] R F; cbn; [destruct F; exact I|]. cbn in F. apply Nat.eqb_neq in F, R. rewrite F, R. reflexivity. Qed.

Section Rule.
  Variables ad adn arn : bool.
  Notation fill_col := (fill_col ad adn arn). Notation fill_cols := (fill_cols ad adn arn).
  (** What becomes of the columns, one property *)
  Lemma fill_col_rows : forall name p t t', t_rows t <> 0 -> fill_col name p t = Ok t' -> t_rows t' = t_rows t /\ forall n, n <> name -> sget n (t_cols t') = sget n (t_cols t).
  Proof.
    intros name p t t' R. unfold Kinds_Model.fill_col. match goal with |- match ?x with _ => _ end = _ -> _ => destruct x as [d|] end.
    - destruct d as [z|l]; cbn.
      + intros E. injection E as <-. split; [reflexivity|]. intros n N. cbn. apply sget_sset_neq. congruence.
      + destruct (Nat.eqb (length l) (t_rows t)); [|destruct (Nat.eqb_spec (t_rows t) 0); [contradiction|discriminate]]. intros E. injection E as <-. split; [reflexivity|]. intros n N. cbn. apply sget_sset_neq. congruence.
    - match goal with |- (if ?x then _ else _) = _ -> _ => destruct x end; intros E; injection E as <-; (split; [reflexivity|]); intros n N; cbn; [apply sget_sdel_neq; congruence|reflexivity].
  Qed.
  Lemma fill_cols_others : forall props t t', t_rows t <> 0 -> fill_cols props t = Ok t' -> t_rows t' = t_rows t /\ forall n, ~ In n (map fst props) -> sget n (t_cols t') = sget n (t_cols t).
  Proof.
    induction props as [|[name p] props IH]; intros t t' R E; cbn [Kinds_Model.fill_cols] in E; [injection E as <-; auto|].
    destruct (fill_col name p t) as [t1|e] eqn:E1; [|discriminate]. cbn [rbind] in E. destruct (fill_col_rows _ _ _ _ R E1) as [R1 S1]. destruct (IH t1 t') as [R2 S2]; [rewrite R1; exact R|exact E|].
    split; [congruence|]. intros n N. cbn in N. assert (n <> name) by (intros ->; tauto). rewrite S2, S1; tauto.
  Qed.
  Lemma fill_cols_at : forall props t t' name p, t_rows t <> 0 -> NoDup (map fst props) -> In (name, p) props -> fill_cols props t = Ok t' ->
    exists t1 t2, fill_col name p t1 = Ok t2 /\ t_rows t1 = t_rows t /\ sget name (t_cols t1) = sget name (t_cols t) /\ sget name (t_cols t') = sget name (t_cols t2).
  Proof.
    induction props as [|[n q] props IH]; intros t t' name p R ND I E; [destruct I|]. cbn [Kinds_Model.fill_cols] in E. destruct (fill_col n q t) as [t1|e] eqn:E1; [|discriminate]. cbn [rbind] in E.
    cbn [map fst] in ND. inversion ND as [|x l NI ND']; subst. destruct (fill_col_rows _ _ _ _ R E1) as [R1 S1]. destruct I as [X|I].
    - injection X as -> ->. exists t, t1. split; [exact E1|]. split; [reflexivity|]. split; [reflexivity|]. destruct (fill_cols_others props t1 t') as [_ S2]; [congruence|exact E|]. apply S2. exact NI.
    - destruct (IH t1 t' name p) as (t2 & t3 & A & B & C & D); [congruence|exact ND'|exact I|exact E|]. exists t2, t3. split; [exact A|]. split; [congruence|]. split; [|exact D]. rewrite C. apply S1. intros ->. apply NI. apply (in_map fst) in I. exact I.
  Qed.

  (** Columns with anything in them are kept. *)
  Theorem cols_kept : forall props t t' name c, t_rows t <> 0 -> NoDup (map fst props) -> fill_cols props t = Ok t' -> sget name (t_cols t) = Some c -> ~ blank c -> sget name (t_cols t') = Some c.
  Proof.
    intros props t t' name c R ND E G B. destruct (in_dec (list_eq_dec N.eq_dec) name (map fst props)) as [I|I].
    - apply in_map_iff in I. destruct I as ([n p] & X & I). cbn in X. subst n. destruct (fill_cols_at props t t' name p R ND I E) as (t1 & t2 & E1 & R1 & G1 & G2). rewrite G2. rewrite G in G1.
      unfold Kinds_Model.fill_col in E1. rewrite G1 in E1. rewrite (not_null c B) in E1. rewrite !andb_false_r in E1. cbn [orb] in E1.
      destruct (p_default p); injection E1 as <-; exact G1.
    - destruct (fill_cols_others props t t' R E) as [_ S]. rewrite S; assumption.
  Qed.
  (** Missing columns are filled in each row. *)
  Theorem cols_filled : forall props t t' name p d, t_rows t <> 0 -> NoDup (map fst props) -> fill_cols props t = Ok t' -> sget name (t_cols t) = None -> In (name, p) props -> p_default p = Some d ->
    sget name (t_cols t') = if first_defined (p_auto p) ad then Some (new_col (t_rows t) d) else None.
  Proof.
    intros props t t' name p d R ND E G I D. destruct (fill_cols_at props t t' name p R ND I E) as (t1 & t2 & E1 & R1 & G1 & G2). rewrite G2. rewrite G in G1. unfold Kinds_Model.fill_col in E1. rewrite G1, D in E1. rewrite !andb_false_r, orb_false_r, andb_true_r in E1.
    destruct (first_defined (p_auto p) ad); [|injection E1 as <-; exact G1].
    destruct d as [z|l]; cbn in E1; [|destruct (Nat.eqb_spec (length l) (t_rows t1)); [|destruct (Nat.eqb_spec (t_rows t1) 0); [congruence|discriminate]]]; injection E1 as <-; cbn; rewrite sget_sset_eq, ?R1; reflexivity.
  Qed.
  Theorem cols_missing : forall props t t' name, t_rows t <> 0 -> NoDup (map fst props) -> fill_cols props t = Ok t' -> sget name (t_cols t) = None -> (forall p, In (name, p) props -> p_default p = None) -> sget name (t_cols t') = None.
  Proof.
    intros props t t' name R ND E G H. destruct (in_dec (list_eq_dec N.eq_dec) name (map fst props)) as [I|I].
    - apply in_map_iff in I. destruct I as ([n p] & X & I). cbn in X. subst n. destruct (fill_cols_at props t t' name p R ND I E) as (t1 & t2 & E1 & R1 & G1 & G2). rewrite G2. rewrite G in G1. unfold Kinds_Model.fill_col in E1. rewrite G1, (H p I) in E1. rewrite andb_false_r in E1. injection E1 as <-. exact G1.
    - destruct (fill_cols_others props t t' R E) as [_ S]. rewrite S; assumption.
  Qed.
  (** Blank columns of a single row are replaced, removed or kept. *)
  Theorem cols_blank : forall props t t' name p c, t_rows t <> 0 -> NoDup (map fst props) -> fill_cols props t = Ok t' -> sget name (t_cols t) = Some c -> blank c -> In (name, p) props ->
    sget name (t_cols t') =
      if null_in_type (p_type p) then Some c
      else match p_default p, first_defined (p_auto_null p) adn, first_defined (p_remove_null p) arn with
           | Some d, true, _ => Some (new_col (t_rows t) d)
           | _, _, true => None
           | _, _, false => Some c
           end.
  Proof.
    intros props t t' name p c R ND E G B I. destruct (fill_cols_at props t t' name p R ND I E) as (t1 & t2 & E1 & R1 & G1 & G2). rewrite G2. rewrite G in G1. apply col_null in B. unfold Kinds_Model.fill_col in E1. rewrite G1, B in E1. rewrite !andb_true_r, andb_false_r in E1. cbn [orb] in E1.
    assert (SD : sget name (sdel name (t_cols t1)) = None) by apply sget_sdel_eq.
    destruct (null_in_type (p_type p)); cbn [negb] in E1; rewrite ?andb_false_r, ?andb_true_r in E1.
    - destruct (p_default p); injection E1 as <-; exact G1.
    - destruct (p_default p) as [d|]; [destruct (first_defined (p_auto_null p) adn)|].
      + destruct d as [z|l]; cbn in E1; [|destruct (Nat.eqb_spec (length l) (t_rows t1)); [|destruct (Nat.eqb_spec (t_rows t1) 0); [congruence|discriminate]]]; injection E1 as <-; cbn; rewrite sget_sset_eq, ?R1; reflexivity.
      + destruct (first_defined (p_remove_null p) arn); injection E1 as <-; [exact SD|exact G1].
      + destruct (first_defined (p_remove_null p) arn); injection E1 as <-; [exact SD|exact G1].
  Qed.
  (** It fails only because of a list of another length, and then with a [ValueError]. *)
  Theorem cols_fail : forall props t, t_rows t <> 0 -> (forall name p d, In (name, p) props -> p_default p = Some d -> fits (t_rows t) d) -> exists t', fill_cols props t = Ok t'.
  Proof.
    induction props as [|[name p] props IH]; intros t R H; cbn [Kinds_Model.fill_cols]; [eauto|].
    assert (X : exists t1, fill_col name p t = Ok t1).
    { unfold Kinds_Model.fill_col. match goal with |- exists _, match ?x with _ => _ end = _ => destruct x as [d|] eqn:D end.
      - assert (F : fits (t_rows t) d). { apply (H name p); [left; reflexivity|]. destruct (p_default p) as [d'|]; [|discriminate D]. revert D. match goal with |- (if ?b then _ else _) = _ -> _ => destruct b end; [auto|discriminate]. }
        rewrite (set_col_ok t name d R F). eauto.
      - match goal with |- exists _, (if ?x then _ else _) = _ => destruct x end; eauto. }
    destruct X as (t1 & E1). rewrite E1. cbn [rbind]. destruct (fill_col_rows _ _ _ _ R E1) as [R1 _]. apply IH; [congruence|]. intros n q d I D. rewrite R1. apply (H n q d); [right; exact I|exact D].
  Qed.
  Theorem cols_error : forall props t e, t_rows t <> 0 -> fill_cols props t = Raise e -> e = ValueError /\ exists name p l, In (name, p) props /\ p_default p = Some (DList l) /\ length l <> t_rows t.
  Proof.
    induction props as [|[name p] props IH]; intros t e R E; cbn [Kinds_Model.fill_cols] in E; [discriminate|]. destruct (fill_col name p t) as [t1|e1] eqn:E1; cbn [rbind] in E.
    - destruct (fill_col_rows _ _ _ _ R E1) as [R1 _]. destruct (IH t1 e) as (-> & n & q & l & I & D & L); [congruence|exact E|]. split; [reflexivity|]. exists n, q, l. split; [right; exact I|]. split; [exact D|congruence].
    - injection E as ->. unfold Kinds_Model.fill_col in E1. revert E1. match goal with |- match ?x with _ => _ end = _ -> _ => destruct x as [d|] eqn:D end.
      + assert (PD : p_default p = Some d). { destruct (p_default p) as [d'|]; [|discriminate D]. revert D. match goal with |- (if ?b then _ else _) = _ -> _ => destruct b end; congruence. }
        destruct d as [z|l]; cbn; [discriminate|]. destruct (Nat.eqb_spec (length l) (t_rows t)); [discriminate|]. destruct (Nat.eqb_spec (t_rows t) 0); [contradiction|]. intros X. injection X as <-. split; [reflexivity|]. exists name, p, l. split; [left; reflexivity|auto].
      + match goal with |- (if ?x then _ else _) = _ -> _ => destruct x end; discriminate.
  Qed.
  (** Tables of two rows and more only get new columns. *)
  Lemma sset_new : forall V k (v : V) d, sget k d = None -> sset k v d = d ++ [(k, v)].
  Proof. intros V k v d. induction d as [|[k' v'] d IH]; cbn; [reflexivity|]. destruct (str_eqb k k'); [discriminate|]. intros E. rewrite IH by exact E. reflexivity. Qed.
  Lemma sget_In : forall V k (v : V) d, sget k d = Some v -> In (k, v) d.
  Proof.
    intros V k v. induction d as [|[k' v'] d IH]; unfold sget; cbn [dget]; [discriminate|]. destruct (str_eqb k k') eqn:E.
    - apply str_eqb_eq in E. intros X. injection X as ->. subst. left. reflexivity.
    - intros X. right. apply IH. exact X.
  Qed.
  Lemma sget_more : forall V k k' (v : V) d, k <> k' -> sget k (d ++ [(k', v)]) = sget k d.
  Proof. intros V k k' v d N. induction d as [|[k2 v2] d IH]; cbn; [apply str_eqb_neq in N; rewrite N; reflexivity|]. destruct (str_eqb k k2); [reflexivity|exact IH]. Qed.
  Lemma additions_ext : forall rows cols cols' props, (forall n, In n (map fst props) -> sget n cols = sget n cols') -> additions ad rows cols props = additions ad rows cols' props.
  Proof. intros rows cols cols' props. induction props as [|[n p] props IH]; intros H; [reflexivity|]. cbn. rewrite (H n) by (left; reflexivity). fold (additions ad rows cols props) (additions ad rows cols' props). rewrite IH; [reflexivity|]. intros m I. apply H. right. exact I. Qed.
  Theorem cols_many : forall props t t', 2 <= t_rows t -> rectangular t -> NoDup (map fst props) -> fill_cols props t = Ok t' -> t' = mkTable (t_rows t) (t_cols t ++ additions ad (t_rows t) (t_cols t) props).
  Proof.
    induction props as [|[name p] props IH]; intros t t' R RT ND E; cbn [Kinds_Model.fill_cols] in E.
    - injection E as <-. cbn. rewrite app_nil_r. destruct t; reflexivity.
    - cbn [map fst] in ND. inversion ND as [|x l NI ND']; subst. unfold Kinds_Model.fill_col in E. cbn [additions flat_map fst snd]. fold (additions ad (t_rows t) (t_cols t) props).
      assert (NB : forall c, sget name (t_cols t) = Some c -> is_null (col_val c) = false).
      { intros c G. apply not_null. intros B. unfold blank in B. subst c. assert (L : 1 = t_rows t); [|lia]. apply (RT name (mkCol false [None])). apply sget_In. exact G. }
      destruct (sget name (t_cols t)) as [c|] eqn:G.
      + rewrite (NB c eq_refl), !andb_false_r in E. cbn [orb] in E. rewrite andb_false_r. destruct (p_default p); cbn [rbind] in E; exact (IH t t' R RT ND' E).
      + rewrite !andb_false_r, orb_false_r in E. destruct (p_default p) as [d|]; [|exact (IH t t' R RT ND' E)]. destruct (first_defined (p_auto p) ad); cbn [andb] in E |- *; [|exact (IH t t' R RT ND' E)].
        assert (F : fits (t_rows t) d).
        { destruct d as [z|l]; [exact I|]. cbn in E. cbn. destruct (Nat.eqb_spec (length l) (t_rows t)); [assumption|]. destruct (Nat.eqb_spec (t_rows t) 0); [lia|discriminate E]. }
        rewrite set_col_ok in E; [|lia|exact F]. cbn [rbind] in E. rewrite (sset_new _ _ _ _ G) in E. apply IH in E; cbn [t_rows t_cols] in *; [|exact R| |exact ND'].
        * rewrite E. rewrite <- app_assoc. cbn [app]. rewrite (additions_ext _ _ (t_cols t)); [reflexivity|]. intros m J. apply sget_more. intros ->. contradiction.
        * intros m c J. apply in_app_or in J. destruct J as [J|[J|[]]]; [apply (RT m); exact J|]. injection J as <- <-. cbn. destruct d as [z|l]; cbn; [apply repeat_length|rewrite map_length; exact F].
  Qed.
End Rule.
(** A column is never a number, a text, a boolean or an integer. *)
Theorem wrong_iff : forall props t name p c ts, NoDup (map fst props) -> In (name, p) props -> sget name (t_cols t) = Some c -> p_type p = Some ts ->
  (In name (wrong_cols props t) <-> ~ In TArray ts /\ ~ In TObject ts /\ (In TNull ts -> ~ blank c)).
Proof.
  intros props t name p c ts ND I G T. unfold wrong_cols. rewrite in_map_iff.
  assert (U : forall q, In (name, q) props -> q = p).
  { clear G T. induction props as [|[n r] props IH]; intros q J; [destruct J|]. cbn in ND. inversion ND as [|x l NI ND']; subst. destruct I as [X|I], J as [Y|J]; try congruence.
    - injection X as -> ->. destruct NI. apply (in_map fst) in J. exact J.
    - injection Y as -> ->. destruct NI. apply (in_map fst) in I. exact I.
    - exact (IH ND' I q J). }
  assert (K : existsb (is_type (col_val c)) ts = true <-> In TArray ts \/ In TObject ts \/ (In TNull ts /\ blank c)).
  { rewrite existsb_exists. split.
    - intros (x & J & E). destruct x; try discriminate E; auto. right. right. split; [exact J|]. apply col_null. exact E.
    - intros [J|[J|[J B]]]; [exists TArray|exists TObject|exists TNull]; (split; [exact J|]); try reflexivity. apply col_null in B. exact B. }
  split.
  - intros ([n q] & X & J). cbn in X. subst n. apply filter_In in J. destruct J as [J E]. rewrite (U q J) in E. cbn [fst snd] in E. rewrite G, T in E. apply negb_true_iff in E.
    assert (NK : ~ (In TArray ts \/ In TObject ts \/ (In TNull ts /\ blank c))) by (intros Z; apply K in Z; congruence). tauto.
  - intros (A & B & C). exists (name, p). split; [reflexivity|]. apply filter_In. split; [exact I|]. cbn [fst snd]. rewrite G, T. apply negb_true_iff. destruct (existsb (is_type (col_val c)) ts); [|reflexivity]. destruct K as [K _]. specialize (K eq_refl). tauto.
Qed.
