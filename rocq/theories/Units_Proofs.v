(** Lemmas for C53. *)
From Coq Require Import String.
From Verif Require Import PyBase PyBase_Proofs Regex Regex_Proofs Utils_Model Utils_Spec Utils_Proofs.

Lemma trim_exists : forall s, exists a n b, s = a ++ n ++ b /\ all_space a /\ all_space b /\ trimmed n.
Proof.
  intros s. exists (take_while is_space s).
  set (t := drop_while is_space s).
  exists (rev (drop_while is_space (rev t))), (rev (take_while is_space (rev t))).
  split; [|split; [|split]].
  - rewrite <- rev_app_distr, take_drop, rev_involutive. unfold t. symmetry. apply take_drop.
  - intros c Hc. eapply take_while_all. exact Hc.
  - intros c Hc. apply in_rev in Hc. eapply take_while_all. exact Hc.
  - destruct (rev (drop_while is_space (rev t))) as [|c n] eqn:E; [left; reflexivity|right].
    assert (exists w, t = (c :: n) ++ w) as (w & Ew).
    { exists (rev (take_while is_space (rev t))). rewrite <- E, <- rev_app_distr, take_drop, rev_involutive. reflexivity. }
    split.
    + exists c, n. split; [reflexivity|]. apply (drop_while_head is_space s c (n ++ w)). fold t. rewrite Ew. reflexivity.
    + destruct (drop_while is_space (rev t)) as [|d m] eqn:Ed; [discriminate E|]. exists d, (rev m). split; [|eapply drop_while_head; exact Ed].
      rewrite <- E. reflexivity.
Qed.

(** ** The pattern after the name *)

Definition unit_opt : re :=
  ROpt (RGrp "units"
    (RAlt (RSeqs [ RLit "["; RStar (fun c => negb (c =? chr "]")%N); RLit "]" ])
          (RSeqs [ RLit "<"; RStar (fun c => negb (c =? chr ")")%N); RLit ">" ]))).
Lemma units_rest_eq : units_rest = RSeq (RStar is_space) (RSeq unit_opt (RSeq (RStar is_space) REnd)).
Proof. reflexivity. Qed.

Inductive unit_text : pystr -> option pystr -> Prop :=
| Ut_none : unit_text [] None
| Ut_square : forall x, ~ In (chr "]") x -> unit_text (lit "[" ++ x ++ lit "]") (Some x)
| Ut_angle : forall x, ~ In (chr ")") x -> unit_text (lit "<" ++ x ++ lit ">") (Some x).

Lemma not_in_class : forall d x, (forall c, In c x -> negb (c =? d)%N = true) <-> ~ In d x.
Proof.
  intros d x. split.
  - intros H Hi. specialize (H d Hi). rewrite N.eqb_refl in H. discriminate H.
  - intros H c Hc. apply negb_true_iff, N.eqb_neq. intros ->. contradiction.
Qed.

Lemma clean_unit : forall c x d, c = chr "<" \/ c = chr "[" -> d = chr "]" \/ d = chr ">" -> units_clean ([c] ++ x ++ [d]) = x.
Proof.
  intros c x d Hc Hd. unfold units_clean. cbn [app]. replace ((c =? chr "<")%N || (c =? chr "[")%N) with true by (destruct Hc as [-> | ->]; reflexivity).
  rewrite rev_app_distr. cbn [rev app]. replace ((d =? chr "]")%N || (d =? chr ">")%N) with true by (destruct Hd as [-> | ->]; reflexivity).
  apply rev_involutive.
Qed.

Definition units_of (g : groups) : option pystr :=
  match group "units" g with Some ((_ :: _) as u) => Some (units_clean u) | x => x end.

Lemma gl_unit : forall t h, gl unit_opt t h -> exists u, unit_text t u /\ forall g, units_of g = None -> units_of (h ++ g) = u /\ (forall n, n <> "units"%string -> group n (h ++ g) = group n g).
Proof.
  intros t h H. unfold unit_opt, ROpt in H. cbn [gl] in H. destruct H as [H|[-> ->]].
  - destruct H as (h' & -> & [H|H]); cbn in H.
    + destruct H as (u1 & v1 & hu & hv & -> & -> & (c & -> & Ec & ->) & (u2 & v2 & hu2 & hv2 & -> & -> & [Hx ->] & (d & -> & Ed & ->))).
      apply N.eqb_eq in Ec, Ed. subst c d. exists (Some u2). split; [apply Ut_square; apply not_in_class; exact Hx|].
      intros g _. split; [|intros n Hn; cbn [app group]; destruct (String.eqb_spec "units" n); [congruence|reflexivity]].
      unfold units_of. cbn [app group]. rewrite String.eqb_refl. cbn iota. f_equal. apply (clean_unit (chr "[") u2 (chr "]")); auto.
    + destruct H as (u1 & v1 & hu & hv & -> & -> & (c & -> & Ec & ->) & (u2 & v2 & hu2 & hv2 & -> & -> & [Hx ->] & (d & -> & Ed & ->))).
      apply N.eqb_eq in Ec, Ed. subst c d. exists (Some u2). split; [apply Ut_angle; apply not_in_class; exact Hx|].
      intros g _. split; [|intros n Hn; cbn [app group]; destruct (String.eqb_spec "units" n); [congruence|reflexivity]].
      unfold units_of. cbn [app group]. rewrite String.eqb_refl. cbn iota. f_equal. apply (clean_unit (chr "<") u2 (chr ">")); auto.
  - exists None. split; [constructor|]. intros g Hg. split; [exact Hg|reflexivity].
Qed.

Lemma rest_inv : forall s g x, rmatch units_rest s g (fun _ g => Some g) = Some x -> units_of g = None ->
  exists sp t sp' u, s = sp ++ t ++ sp' /\ all_space sp /\ all_space sp' /\ unit_text t u /\ units_of x = u /\ group "name" x = group "name" g.
Proof.
  intros s g x H Hg. destruct (rmatch_inv _ _ _ _ _ _ H) as (s' & g' & Hm & Hk). injection Hk as <-. rewrite units_rest_eq in Hm.
  inversion Hm as [| |a b s0 g0 s1 g1 s2 g2 H1 H2| | | | | |]; subst. clear Hm.
  inversion H1 as [| | | | |f a s0 g0 Ha| | |]; subst. clear H1.
  inversion H2 as [| |a' b s0 g0 s2 g2 s3 g3 H3 H4| | | | | |]; subst. clear H2.
  inversion H4 as [| |a' b s0 g0 s4 g4 s5 g5 H5 H6| | | | | |]; subst. clear H4.
  inversion H5 as [| | | | |f a' s0 g0 Hb| | |]; subst. clear H5.
  inversion H6 as [| | | | | | | |s0 g0 He]; subst. clear H6.
  apply mt_gl in H3; [|reflexivity]. destruct H3 as (t & h & -> & -> & Gl). destruct (gl_unit t h Gl) as (u & Hu & Hh).
  exists a, t, (a' ++ s'), u. split; [reflexivity|]. split; [exact Ha|]. split.
  - intros c Hc. apply in_app_or in Hc. destruct Hc as [Hc|Hc]; [apply Hb; exact Hc|]. unfold at_end in He. destruct s' as [|y [|? ?]]; try discriminate He; [destruct Hc|].
    destruct Hc as [<-|[]]. apply N.eqb_eq in He. subst y. reflexivity.
  - destruct (Hh _ Hg) as [H1 H2]. split; [exact Hu|]. split; [exact H1|]. apply H2. discriminate.
Qed.

Lemma space_not : forall c d, is_space c = true -> In d (lit "[]<>()") -> c <> d.
Proof. intros c d Hc Hd E. subst d. cbn in Hd. repeat destruct Hd as [Hd|Hd]; subst c || destruct Hd; discriminate Hc. Qed.

Definition bracket {X} (o cl no : pychar) (s : pystr) (g : groups) (k : pystr -> groups -> option X) : option X :=
  match s with
  | c :: s1 => if (c =? o)%N then star (fun c => negb (c =? no)%N) (fun s2 => match s2 with
                 | d :: s3 => if (d =? cl)%N then k s3 (("units"%string, between s s3) :: g) else None
                 | [] => None end) s1 else None
  | [] => None
  end.
Lemma unit_opt_eq : forall X s g (k : pystr -> groups -> option X), rmatch unit_opt s g k =
  match match bracket (chr "[") (chr "]") (chr "]") s g k with
        | Some x => Some x | None => bracket (chr "<") (chr ">") (chr ")") s g k end with
  | Some x => Some x
  | None => k s g
  end.
Proof. intros X [|c s] g k; reflexivity. Qed.

Lemma bracket_complete : forall X o cl no x sp g (k : pystr -> groups -> option X) y, ~ In no x -> 
  (no = cl \/ all_space sp /\ is_space cl = false /\ is_space no = false) ->
  k sp (("units"%string, [o] ++ x ++ [cl]) :: g) = Some y -> bracket o cl no ([o] ++ x ++ [cl] ++ sp) g k = Some y.
Proof.
  intros X o cl no x sp g k y Hx Hs Hk. unfold bracket. cbn [app]. rewrite N.eqb_refl.
  assert ((match [cl] ++ sp with
           | d :: s3 => if (d =? cl)%N then k s3 (("units"%string, between (o :: x ++ cl :: sp) s3) :: g) else None
           | [] => None end) = Some y) as Hy.
  { cbn [app]. rewrite N.eqb_refl. replace (between (o :: x ++ cl :: sp) sp) with ([o] ++ x ++ [cl]); [exact Hk|].
    replace (o :: x ++ cl :: sp) with (([o] ++ x ++ [cl]) ++ sp) by (cbn; rewrite <- app_assoc; reflexivity). symmetry. apply between_app. }
  destruct (N.eqb_spec cl no) as [->|Hne].
  - apply (star_first _ _ _ x ([no] ++ sp) y); [apply not_in_class; exact Hx|intros c b E; injection E as <- _; rewrite N.eqb_refl; reflexivity|exact Hy].
  - destruct Hs as [Hs|(Hsp & Hcl & Hno)]; [congruence|].
    assert (forall kk : pystr -> option X, (forall a b, sp = a ++ b -> kk b = None) -> kk ([cl] ++ sp) = Some y ->
      star (fun c => negb (c =? no)%N) kk (x ++ [cl] ++ sp) = Some y) as S1.
    { intros kk Hkk Hy'. clear - Hx Hne Hkk Hy'. induction x as [|c x IH].
      - cbn [app star]. apply N.eqb_neq in Hne. rewrite Hne. cbn [negb]. rewrite star_none; [exact Hy'|]. intros a b E _. exact (Hkk a b E).
      - cbn [app star]. replace (c =? no)%N with false by (symmetry; apply N.eqb_neq; intros ->; apply Hx; left; reflexivity). cbn [negb].
        cbn [app] in IH. rewrite IH; [reflexivity|]. intros Hi. apply Hx. right. exact Hi. }
    apply S1; [|exact Hy]. intros a b E. destruct b as [|d b]; [reflexivity|]. destruct (N.eqb_spec d cl) as [->|]; [|reflexivity]. exfalso.
    rewrite (Hsp cl) in Hcl; [discriminate Hcl|]. rewrite E. apply in_or_app. right. left. reflexivity.
Qed.

Lemma bracket_other : forall X o cl no c s g (k : pystr -> groups -> option X), c <> o -> bracket o cl no (c :: s) g k = None.
Proof. intros X o cl no c s g k H. unfold bracket. apply N.eqb_neq in H. rewrite H. reflexivity. Qed.

Lemma rest_complete : forall b t sp u g, all_space b -> all_space sp -> unit_text t u -> units_of g = None ->
  exists x, rmatch units_rest (b ++ t ++ sp) g (fun _ g => Some g) = Some x /\ units_of x = u /\ group "name" x = group "name" g.
Proof.
  intros b t sp u g Hb Hsp Hu Hg.
  assert (forall x : groups, star is_space (fun s => if at_end s then Some x else None) sp = Some x) as Hend.
  { intros x. rewrite <- (app_nil_r sp). apply star_first; [exact Hsp|discriminate|reflexivity]. }
  destruct Hu as [|x Hx|x Hx].
  - exists g. split; [|auto]. change (b ++ [] ++ sp) with (b ++ sp). rewrite <- (app_nil_r (b ++ sp)). rewrite units_rest_eq. cbn [rmatch].
    apply star_first; [intros c Hc; apply in_app_or in Hc; destruct Hc; auto|discriminate|]. reflexivity.
  - exists (("units"%string, lit "[" ++ x ++ lit "]") :: g). split; [|split; [transitivity (Some (units_clean ([chr "["] ++ x ++ [chr "]"]))); [reflexivity|rewrite clean_unit; auto]|reflexivity]].
    rewrite units_rest_eq. change (rmatch (RSeq (RStar is_space) ?r) ?s ?g ?k) with (star is_space (fun s1 => rmatch r s1 g k) s).
    apply star_first; [exact Hb|intros c b' E; injection E as <- _; reflexivity|].
    change (rmatch (RSeq unit_opt ?r) ?s ?g ?k) with (rmatch unit_opt s g (fun s1 g1 => rmatch r s1 g1 k)). rewrite unit_opt_eq.
    rewrite <- !app_assoc. rewrite (bracket_complete _ (chr "[") (chr "]") (chr "]") x sp g _ (("units"%string, lit "[" ++ x ++ lit "]") :: g)); auto.
    exact (Hend _).
  - exists (("units"%string, lit "<" ++ x ++ lit ">") :: g). split; [|split; [transitivity (Some (units_clean ([chr "<"] ++ x ++ [chr ">"]))); [reflexivity|rewrite clean_unit; auto]|reflexivity]].
    rewrite units_rest_eq. change (rmatch (RSeq (RStar is_space) ?r) ?s ?g ?k) with (star is_space (fun s1 => rmatch r s1 g k) s).
    apply star_first; [exact Hb|intros c b' E; injection E as <- _; reflexivity|].
    change (rmatch (RSeq unit_opt ?r) ?s ?g ?k) with (rmatch unit_opt s g (fun s1 g1 => rmatch r s1 g1 k)). rewrite unit_opt_eq.
    rewrite <- !app_assoc. change (lit "<" ++ x ++ lit ">" ++ sp) with (chr "<" :: x ++ lit ">" ++ sp).
    rewrite (bracket_other _ (chr "[") (chr "]") (chr "]") (chr "<")) by discriminate. change (chr "<" :: x ++ lit ">" ++ sp) with (lit "<" ++ x ++ lit ">" ++ sp).
    rewrite (bracket_complete _ (chr "<") (chr ">") (chr ")") x sp g _ (("units"%string, lit "<" ++ x ++ lit ">") :: g)); auto.
    exact (Hend _).
Qed.

(** ** The whole pattern *)

Definition name_char (c : pychar) : bool := negb ((c =? chr "[") || (c =? chr "<"))%N.
Lemma name_chars : forall n, (forall c, In c n -> name_char c = true) <-> (forall c, In c n -> ~ opening c).
Proof.
  intros n. split; intros H c Hc; specialize (H c Hc).
  - intros [-> | ->]; discriminate H.
  - unfold name_char. destruct (N.eqb_spec c (chr "[")) as [->|]; [destruct H; left; reflexivity|].
    destruct (N.eqb_spec c (chr "<")) as [->|]; [destruct H; right; reflexivity|reflexivity].
Qed.

Lemma lazy_inv : forall X f (k : pystr -> option X) s x, lazy_star f k s = Some x ->
  exists a b, s = a ++ b /\ (forall c, In c a -> f c = true) /\ k b = Some x.
Proof.
  induction s as [|c s IH]; intros x H; cbn [lazy_star] in H; destruct (k _) as [y|] eqn:E.
  - injection H as <-. exists [], []. repeat split; [intros c []|exact E].
  - discriminate H.
  - injection H as <-. exists [], (c :: s). repeat split; [intros d []|exact E].
  - destruct (f c) eqn:Ef; [|discriminate H]. destruct (IH x H) as (a & b & -> & Ha & Hb). exists (c :: a), b. repeat split; [|exact Hb].
    intros d [<-|Hd]; auto.
Qed.
Lemma lazy_first : forall X f (k : pystr -> option X) a b x, (forall c, In c a -> f c = true) ->
  (forall u v, a = u ++ v -> v <> [] -> k (v ++ b) = None) -> k b = Some x -> lazy_star f k (a ++ b) = Some x.
Proof.
  induction a as [|c a IH]; intros b x Ha Hn Hk.
  - cbn [app]. destruct b; cbn [lazy_star]; rewrite Hk; reflexivity.
  - cbn [app lazy_star]. pose proof (Hn [] (c :: a) eq_refl ltac:(discriminate)) as E. cbn [app] in E. rewrite E.
    rewrite (Ha c (or_introl eq_refl)). apply IH; [| |exact Hk].
    + intros d Hd. apply Ha. right. exact Hd.
    + intros u v -> Hv. apply (Hn (c :: u) v eq_refl Hv).
Qed.

Lemma first_nonspace : forall m t sp o w z, all_space sp -> m ++ t = sp ++ o :: w -> In z m -> is_space z = false -> In o m.
Proof.
  induction m as [|c m IH]; intros t sp o w z Hsp E Hz Hs; [destruct Hz|]. destruct sp as [|c' sp].
  - injection E as -> _. left. reflexivity.
  - injection E as -> E. right. destruct Hz as [->|Hz]; [rewrite (Hsp z (or_introl eq_refl)) in Hs; discriminate Hs|].
    apply (IH t sp o w z); auto. intros d Hd. apply Hsp. right. exact Hd.
Qed.

Lemma units_complete : forall s n u, labelled s n u -> parse_value_with_units s = Some (n, u).
Proof.
  assert (forall n s t sp u, (forall c, In c n -> ~ opening c) -> trimmed n -> padded n s -> unit_text t u -> all_space sp ->
    (t = [] -> sp = []) -> parse_value_with_units (s ++ t ++ sp) = Some (n, u)) as X.
  { intros n s t sp u Hn Ht (a & b & -> & Ha & Hb) Hu Hsp Hts.
    assert (exists x, units_match ((a ++ n ++ b) ++ t ++ sp) = Some x /\ units_of x = u /\ group "name" x = Some n) as (x & Ex & H1 & H2).
    { assert (forall c r, t ++ sp = c :: r -> is_space c = false) as Hhd.
      { intros c r E. destruct Hu; [rewrite (Hts eq_refl) in E; discriminate E| |]; cbn in E; injection E as <- _; reflexivity. }
      destruct Ht as [->|[(c & n' & -> & Hc) (z & n'' & Ez & Hz)]].
      - destruct (rest_complete [] t sp u [("name"%string, [])]) as (x & Ex & H1 & H2); auto; [intros c []|].
        exists x. split; [|auto]. unfold units_match. cbn [app] in *. apply star_first.
        + intros c Hc. apply in_app_or in Hc. destruct Hc; auto.
        + exact Hhd.
        + assert (between (t ++ sp) (t ++ sp) = []) as Eb by (apply (between_app [] (t ++ sp))).
          destruct (t ++ sp); cbn [lazy_star]; rewrite Eb, Ex; reflexivity.
      - destruct (rest_complete b t sp u [("name"%string, c :: n')]) as (x & Ex & H1 & H2); auto.
        exists x. split; [|auto]. unfold units_match. rewrite <- !app_assoc. apply star_first.
        + exact Ha.
        + intros d r E. injection E as <- _. exact Hc.
        + apply lazy_first.
          * apply name_chars. exact Hn.
          * intros p v Ep Hv. destruct (rmatch units_rest (v ++ b ++ t ++ sp) _ _) as [y|] eqn:E; [exfalso|reflexivity].
            apply rest_inv in E; [|reflexivity]. destruct E as (sp1 & t1 & sp2 & u1 & E & Hs1 & Hs2 & Hu1 & _).
            assert (In z v) as Hzv.
            { rewrite Ep in Ez. destruct v as [|d v] using rev_ind; [contradiction|]. clear IHv. rewrite app_assoc in Ez. apply app_last_inj in Ez. destruct Ez as [_ ->].
              apply in_or_app. right. left. reflexivity. }
            destruct Hu1 as [|y1 Hy1|y1 Hy1].
            -- assert (is_space z = true) as F; [|congruence]. assert (In z (sp1 ++ sp2)) as Hi.
               { cbn [app] in E. rewrite <- E. apply in_or_app. left. exact Hzv. }
               apply in_app_or in Hi. destruct Hi; auto.
            -- assert (In (chr "[") v) as Ho by (eapply (first_nonspace v); [exact Hs1|exact E|exact Hzv|exact Hz]).
               apply (Hn (chr "[")); [rewrite Ep; apply in_or_app; right; exact Ho|left; reflexivity].
            -- assert (In (chr "<") v) as Ho by (eapply (first_nonspace v); [exact Hs1|exact E|exact Hzv|exact Hz]).
               apply (Hn (chr "<")); [rewrite Ep; apply in_or_app; right; exact Ho|right; reflexivity].
          * rewrite between_app. exact Ex. }
    unfold parse_value_with_units. rewrite Ex, H2. unfold units_of in H1. rewrite H1. reflexivity. }
  intros s n u H. destruct H as [n s Hn Ht Hp|n s x sp Hn Ht Hp Hx Hsp|n s x sp Hn Ht Hp Hx Hsp].
  - rewrite <- (app_nil_r s). apply (X n s [] [] None); auto; [constructor|intros c []].
  - specialize (X n s (lit "[" ++ x ++ lit "]") sp (Some x) Hn Ht Hp (Ut_square x Hx) Hsp ltac:(discriminate)). rewrite <- !app_assoc in X. exact X.
  - specialize (X n s (lit "<" ++ x ++ lit ">") sp (Some x) Hn Ht Hp (Ut_angle x Hx) Hsp ltac:(discriminate)). rewrite <- !app_assoc in X. exact X.
Qed.

Lemma units_accepted : forall s r, parse_value_with_units s = Some r -> exists n u, labelled s n u.
Proof.
  intros s r H. unfold parse_value_with_units in H. destruct (units_match s) as [g|] eqn:E; [clear H|discriminate H].
  unfold units_match in E. apply star_inv in E. destruct E as (sp1 & s1 & -> & Hsp1 & E). apply lazy_inv in E. destruct E as (m & s2 & -> & Hm & E).
  apply rest_inv in E; [|reflexivity]. destruct E as (b & t & sp & u & -> & Hb & Hsp & Hu & _).
  pose proof (proj1 (name_chars m) Hm) as Hm'. clear Hm. rename Hm' into Hm. destruct (trim_exists m) as (a1 & n & b1 & -> & Ha1 & Hb1 & Hn).
  assert (forall c, In c n -> ~ opening c) as Hn' by (intros c Hc; apply Hm; apply in_or_app; right; apply in_or_app; left; exact Hc).
  assert (forall x y, all_space x -> all_space y -> all_space (x ++ y)) as A by (intros x y Hx Hy c Hc; apply in_app_or in Hc; destruct Hc; auto).
  exists n, u. destruct Hu as [|x Hx|x Hx].
  - apply Lb_name; auto. exists (sp1 ++ a1), (b1 ++ b ++ sp). split; [rewrite <- !app_assoc; reflexivity|auto].
  - replace (sp1 ++ (a1 ++ n ++ b1) ++ b ++ (lit "[" ++ x ++ lit "]") ++ sp) with (((sp1 ++ a1) ++ n ++ (b1 ++ b)) ++ lit "[" ++ x ++ lit "]" ++ sp) by (rewrite <- !app_assoc; reflexivity).
    apply Lb_square; auto. exists (sp1 ++ a1), (b1 ++ b). auto.
  - replace (sp1 ++ (a1 ++ n ++ b1) ++ b ++ (lit "<" ++ x ++ lit ">") ++ sp) with (((sp1 ++ a1) ++ n ++ (b1 ++ b)) ++ lit "<" ++ x ++ lit ">" ++ sp) by (rewrite <- !app_assoc; reflexivity).
    apply Lb_angle; auto. exists (sp1 ++ a1), (b1 ++ b). auto.
Qed.

Lemma units_iff : forall s n u, parse_value_with_units s = Some (n, u) <-> labelled s n u.
Proof.
  intros s n u. split; [|apply units_complete]. intros H. destruct (units_accepted s _ H) as (n' & u' & L).
  rewrite (units_complete _ _ _ L) in H. injection H as <- <-. exact L.
Qed.
