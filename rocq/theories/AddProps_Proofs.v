(** * Additional properties: proofs *)
From Coq Require Import String Lia Permutation Sorted.
From Verif Require Import PyBase PyBase_Proofs Json Regex Parse_Model AddProps_Model AddProps_Spec.

Scheme alts_mut := Induction for alts Sort Prop with seq_mut := Induction for seq Sort Prop.
Combined Scheme pattern_ind from alts_mut, seq_mut.

(** ** Matching *)

Definition blind (k : list N -> captures -> bool) : Prop := forall s g g', k s g = k s g'.

Definition means (r : rx) (M : list N -> list N -> list N -> Prop) : Prop :=
  (forall total s g g' k, blind k -> mat total r s g k = mat total r s g' k) /\
  (forall total s g k b, blind k -> total = length b + length s ->
    mat total r s g k = true <-> exists w a, s = w ++ a /\ M b w a /\ k a [] = true).

Lemma means_eps : means XEps (fun b w a => w = []).
Proof.
  split; [intros; simpl; auto|]. intros total s g k b Bl L. simpl. split.
  - intro H. exists [], s. rewrite (Bl s [] g). auto.
  - intros (w & a & -> & -> & H). rewrite (Bl _ g []). exact H.
Qed.

Lemma means_seq : forall r1 r2 M1 M2, means r1 M1 -> means r2 M2 ->
  means (XSeq r1 r2) (fun b w a => exists v w', w = v ++ w' /\ M1 b v (w' ++ a) /\ M2 (b ++ v) w' a).
Proof.
  intros r1 r2 M1 M2 [I1 H1] [I2 H2]. split.
  - intros total s g g' k Bl. simpl. apply I1. intros s1 g1 g1'. apply I2. exact Bl.
  - intros total s g k b Bl L. simpl. rewrite (H1 total s g _ b); [|intros s1 g1 g1'; apply I2; exact Bl|exact L].
    split.
    + intros (v & s' & -> & A & B). apply (H2 total s' [] k (b ++ v)) in B;
        [|exact Bl|rewrite app_length in *; lia].
      destruct B as (w' & a & -> & B & K). exists (v ++ w'), a. rewrite <- app_assoc.
      split; [reflexivity|]. split; [|exact K]. exists v, w'. auto.
    + intros (w & a & -> & (v & w' & -> & A & B) & K). exists v, (w' ++ a). rewrite <- app_assoc.
      split; [reflexivity|]. split; [exact A|].
      apply (H2 total (w' ++ a) [] k (b ++ v)); [exact Bl|rewrite !app_length in *; lia|].
      exists w', a. auto.
Qed.

Lemma means_alt : forall r1 r2 M1 M2, means r1 M1 -> means r2 M2 ->
  means (XAlt r1 r2) (fun b w a => M1 b w a \/ M2 b w a).
Proof.
  intros r1 r2 M1 M2 [I1 H1] [I2 H2]. split.
  - intros total s g g' k Bl. simpl. rewrite (I1 total s g g' k Bl), (I2 total s g g' k Bl). reflexivity.
  - intros total s g k b Bl L. simpl. rewrite orb_true_iff, (H1 total s g k b Bl L), (H2 total s g k b Bl L).
    split.
    + intros [(w & a & E & A & K)|(w & a & E & A & K)]; exists w, a; auto.
    + intros (w & a & E & [A|A] & K); [left|right]; exists w, a; auto.
Qed.

Lemma means_grp : forall n r M, means r M -> means (XGrp n r) M.
Proof.
  intros n r M [I H]. split.
  - intros total s g g' k Bl. simpl. apply I. intros s1 g1 g1'. apply Bl.
  - intros total s g k b Bl L. simpl. rewrite (H total s g _ b); [|intros s1 g1 g1'; apply Bl|exact L].
    split; intros (w & a & E & A & K); exists w, a; (split; [exact E|split; [exact A|]]);
      [rewrite (Bl a [] ((n, between s a) :: []))|rewrite (Bl a ((n, between s a) :: []) [])]; exact K.
Qed.

Lemma means_ext : forall r M M', (forall b w a, M b w a <-> M' b w a) -> means r M -> means r M'.
Proof.
  intros r M M' X [I H]. split; [exact I|]. intros total s g k b Bl L. rewrite (H total s g k b Bl L).
  split; intros (w & a & E & A & K); exists w, a; (split; [exact E|split; [apply X; exact A|exact K]]).
Qed.

Lemma means_bos : means XBos (fun b w a => b = [] /\ w = []).
Proof.
  split; [intros total s g g' k Bl; simpl; rewrite (Bl s g g'); reflexivity|].
  intros total s g k b Bl L. simpl. rewrite andb_true_iff, Nat.eqb_eq. split.
  - intros [A B]. exists [], s. rewrite (Bl s [] g). destruct b; [auto|simpl in L; lia].
  - intros (w & a & -> & [-> ->] & K). rewrite (Bl _ g []). simpl in *. auto.
Qed.

Lemma at_end_spec : forall s, at_end s = true <-> s = [] \/ s = [10%N].
Proof.
  intros [|c [|d s]]; simpl.
  - split; auto.
  - rewrite N.eqb_eq. split; [intros ->; auto|intros [E|E]; [discriminate|injection E as ->; reflexivity]].
  - split; [discriminate|intros [E|E]; discriminate].
Qed.

Lemma means_eos : means XEos (fun b w a => (w ++ a = [] \/ w ++ a = [10%N]) /\ w = []).
Proof.
  split; [intros total s g g' k Bl; simpl; rewrite (Bl s g g'); reflexivity|].
  intros total s g k b Bl L. simpl. rewrite andb_true_iff, at_end_spec. split.
  - intros [A B]. exists [], s. rewrite (Bl s [] g). auto.
  - intros (w & a & -> & [A ->] & K). rewrite (Bl _ g []). auto.
Qed.

Lemma means_chr : forall f P, (forall c, f c = true <-> P c) ->
  means (XChr f) (fun b w a => Forall P w /\ length w = 1).
Proof.
  intros f P F. split; [intros total s g g' k Bl; simpl; destruct s; [reflexivity|]; rewrite (Bl _ g g'); reflexivity|].
  intros total s g k b Bl L. simpl. split.
  - destruct s as [|c s]; [discriminate|]. rewrite andb_true_iff, F. intros [A K].
    exists [c], s. rewrite (Bl s [] g). auto.
  - intros (w & a & -> & [A E] & K). destruct w as [|c [|d w]]; try discriminate. simpl.
    inversion A; subst. rewrite andb_true_iff, F, (Bl a g []). auto.
Qed.

Lemma mstar_spec : forall f P k s, (forall c, f c = true <-> P c) ->
  mstar f k s = true <-> exists w a, s = w ++ a /\ Forall P w /\ k a = true.
Proof.
  intros f P k s F. induction s as [|c s IH]; simpl.
  - split.
    + intro K. exists [], []. auto.
    + intros (w & a & E & _ & K). destruct w; [|discriminate]. destruct a; [exact K|discriminate].
  - destruct (f c) eqn:Fc.
    + rewrite orb_true_iff, IH. split.
      * intros [(w & a & -> & A & K)|K]; [|exists [], (c :: s); auto].
        exists (c :: w), a. split; [reflexivity|]. split; [|exact K]. constructor; [apply F; exact Fc|exact A].
      * intros (w & a & E & A & K). destruct w as [|d w]; [right; simpl in E; rewrite E; exact K|].
        left. injection E as -> ->. inversion A; subst. exists w, a. auto.
    + split; [intro K; exists [], (c :: s); auto|].
      intros (w & a & E & A & K). destruct w as [|d w]; [simpl in E; rewrite E; exact K|].
      exfalso. injection E as -> ->. inversion A as [|? ? Pd]; subst. apply F in Pd. congruence.
Qed.

Lemma mstar_ext : forall f k k' s, (forall s, k s = k' s) -> mstar f k s = mstar f k' s.
Proof. intros f k k' s H. induction s as [|c s IH]; simpl; [apply H|]. rewrite IH, H. reflexivity. Qed.

Lemma means_star : forall f P, (forall c, f c = true <-> P c) -> means (XStar f) (fun b w a => Forall P w).
Proof.
  intros f P F. split.
  - intros total s g g' k Bl. simpl. apply mstar_ext. intro s'. apply Bl.
  - intros total s g k b Bl L. simpl. rewrite (mstar_spec f P _ s F).
    split; intros (w & a & E & A & K); exists w, a; (split; [exact E|split; [exact A|]]);
      [rewrite (Bl a [] g)|rewrite (Bl a g [])]; exact K.
Qed.

(** ** Parsing *)

Definition no_quantifier (s : list N) : Prop := match s with c :: _ => quantifier c = false | [] => True end.

Lemma not_quantified_ok : forall s, no_quantifier s -> not_quantified s = Ok tt.
Proof. intros [|c s] H; [reflexivity|]. simpl in *. rewrite H. reflexivity. Qed.

Lemma no_quantifier_next : forall s, no_quantifier s -> match s with d :: _ => quantifier d | [] => false end = false.
Proof. intros [|c s] H; [reflexivity|exact H]. Qed.

Lemma with_quantifier_ok : forall f P q s, (forall c, f c = true <-> P c) -> no_quantifier s ->
  exists r, with_quantifier f (write_times q ++ s) = Ok (r, s) /\
    means r (fun b w a => Forall P w /\ so_often q (length w)).
Proof.
  intros f P q s F H. assert (N := no_quantifier_next s H). destruct q.
  - exists (XChr f). split; [|exact (means_chr f P F)]. destruct s as [|c s]; [reflexivity|]. simpl in *.
    rewrite N. reflexivity.
  - exists (XStar f). split; [simpl; rewrite N; reflexivity|].
    refine (means_ext _ _ _ _ (means_star f P F)). simpl. tauto.
  - exists (XSeq (XChr f) (XStar f)). split; [simpl; rewrite N; reflexivity|].
    refine (means_ext _ _ _ _ (means_seq _ _ _ _ (means_chr f P F) (means_star f P F))).
    intros b w a. simpl. split.
    + intros (v & w' & -> & [A E] & B). split; [apply Forall_app; auto|rewrite app_length; lia].
    + intros [A E]. destruct w as [|c w]; [simpl in E; lia|]. inversion A; subst. exists [c], w. simpl. auto.
  - exists (XAlt (XChr f) XEps). split; [simpl; rewrite N; reflexivity|].
    refine (means_ext _ _ _ _ (means_alt _ _ _ _ (means_chr f P F) means_eps)).
    intros b w a. simpl. split.
    + intros [[A E]| ->]; [split; [exact A|lia]|split; [constructor|simpl; lia]].
    + intros [A E]. destruct w as [|c w]; [right; reflexivity|left; split; [exact A|simpl in *; lia]].
Qed.

Lemma special_spec : forall c, special c = true <-> In c meta.
Proof.
  intro c. unfold special, meta. rewrite existsb_exists. split.
  - intros (d & I & E). apply N.eqb_eq in E. subst. exact I.
  - intro I. exists c. split; [exact I|apply N.eqb_refl].
Qed.

Lemma special_quantifier : forall c, quantifier c = true -> special c = true.
Proof.
  intros c H. unfold quantifier in H. apply existsb_exists in H. destruct H as (d & I & E).
  apply N.eqb_eq in E. subst d. apply special_spec.
  repeat (destruct I as [<-|I]; [vm_compute; tauto|]). destruct I.
Qed.

Lemma letter_tests : forall c, special c = false ->
  (c =? chr "|")%N = false /\ (c =? chr ")")%N = false /\ (c =? chr "(")%N = false /\ (c =? chr "^")%N = false /\
  (c =? chr "$")%N = false /\ (c =? chr ".")%N = false /\ (c =? chr "\")%N = false /\ quantifier c = false.
Proof.
  intros c H.
  assert (X : forall d, special d = true -> (c =? d)%N = false).
  { intros d S. apply N.eqb_neq. intros ->. congruence. }
  repeat split; try (apply X; reflexivity).
  destruct (quantifier c) eqn:Q; [|reflexivity]. apply special_quantifier in Q. congruence.
Qed.

Definition closes (rest : list N) : Prop := rest = [] \/ exists r, rest = chr ")" :: r.
Definition ends (rest : list N) : Prop := closes rest \/ exists r, rest = chr "|" :: r.

Lemma ends_no_quantifier : forall rest, ends rest -> no_quantifier rest.
Proof. intros rest [[->|[r ->]]|[r ->]]; simpl; auto. Qed.

Lemma seq_no_quantifier : forall t rest, seq_ok t -> no_quantifier rest -> no_quantifier (write_seq t ++ rest).
Proof.
  intros [|u q t|t|t|p t] rest O E; try exact E; simpl in *; try reflexivity.
  destruct O as [O _]. destruct u as [c| |c]; simpl in *; try reflexivity.
  apply letter_tests. destruct (special c) eqn:S; [|reflexivity]. apply special_spec in S. contradiction.
Qed.

Lemma alts_no_quantifier : forall p rest, ok p -> no_quantifier rest -> no_quantifier (write p ++ rest).
Proof.
  intros [t|t p] rest O E; simpl in *; [apply seq_no_quantifier; auto|].
  rewrite <- app_assoc. apply seq_no_quantifier; [apply O|reflexivity].
Qed.

Definition alts_parse (p : alts) : Prop := ok p -> forall fuel n opened rest, closes rest ->
  2 * length (write p) + 2 <= fuel ->
  exists r n', parse_alt fuel (write p ++ rest) n opened = Ok (r, rest, n') /\ means r (matches p).
Definition seq_parse (t : seq) : Prop := seq_ok t -> forall fuel n opened rest, ends rest ->
  2 * length (write_seq t) + 1 <= fuel ->
  exists r n', parse_seq fuel (write_seq t ++ rest) n opened = Ok (r, rest, n') /\ means r (seq_matches t).

Lemma ends_test : forall rest, ends rest ->
  match rest with c :: _ => (c =? chr "|")%N || (c =? chr ")")%N = true | [] => True end.
Proof. intros rest [[->|[r ->]]|[r ->]]; simpl; auto. Qed.

Lemma parse_empty : forall fuel n opened rest, ends rest ->
  parse_seq (S fuel) rest n opened = Ok (XEps, rest, n).
Proof.
  intros fuel n opened rest H. apply ends_test in H. destruct rest as [|c rest]; [reflexivity|].
  cbn [parse_seq]. rewrite H. reflexivity.
Qed.

(** One character of the pattern *)
Definition single_test (u : single) : N -> bool :=
  match u with Letter c | Quoted c => N.eqb c | AnyChar => fun d => negb (d =? 10)%N end.
Lemma single_test_spec : forall u c, single_test u c = true <-> stands_for u c.
Proof.
  intros [d| |d] c; simpl.
  - rewrite N.eqb_eq. split; auto.
  - rewrite negb_true_iff, N.eqb_neq. reflexivity.
  - rewrite N.eqb_eq. split; auto.
Qed.

Lemma meta_tests : forall c, In c meta -> (49 <=? c)%N && (c <=? 57)%N = false.
Proof. intros c I. unfold meta in I. repeat (destruct I as [<-|I]; [reflexivity|]). destruct I. Qed.

Lemma parse_single : forall u fuel s n opened, single_ok u ->
  parse_seq (S fuel) (write_single u ++ s) n opened
  = (do (a, s1) <- with_quantifier (single_test u) s;
     do (b, n2) <- parse_seq fuel s1 n opened;
     Ok (XSeq a (fst b), snd b, n2)).
Proof.
  intros [c| |c] fuel s n opened H; simpl in H.
  - assert (S : special c = false).
    { destruct (special c) eqn:S; [|reflexivity]. apply special_spec in S. contradiction. }
    destruct (letter_tests c S) as (T1 & T2 & T3 & T4 & T5 & T6 & T7 & T8).
    cbn [write_single app parse_seq]. rewrite T1, T2, T3, T4, T5, T6, T7, T8, S. reflexivity.
  - reflexivity.
  - cbn [write_single app parse_seq]. change (lit "\" ++ [c]) with [chr "\"; c]. cbn [app parse_seq].
    rewrite (meta_tests c H). apply special_spec in H. rewrite H. reflexivity.
Qed.

Lemma parses : (forall p, alts_parse p) /\ (forall t, seq_parse t).
Proof.
  apply pattern_ind; unfold alts_parse, seq_parse.
  - (* One *)
    intros t IH O fuel n opened rest C F. simpl in O, F. destruct fuel as [|fuel]; [lia|].
    destruct (IH O fuel n opened rest (or_introl C) ltac:(lia)) as (r & n' & E & M).
    exists r, n'. split; [|exact M]. cbn [parse_alt write]. rewrite E. cbn [rbind fst snd].
    destruct C as [->|[r' ->]]; reflexivity.
  - (* Or *)
    intros t IHt p IHp [Ot Op] fuel n opened rest C F. cbn [write] in *. rewrite !app_length in F. simpl in F.
    destruct fuel as [|fuel]; [lia|].
    destruct (IHt Ot fuel n opened (lit "|" ++ write p ++ rest) ltac:(right; eexists; reflexivity) ltac:(lia))
      as (r1 & n1 & E1 & M1).
    destruct (IHp Op fuel n1 opened rest C ltac:(lia)) as (r2 & n2 & E2 & M2).
    exists (XAlt r1 r2), n2. split; [|exact (means_alt _ _ _ _ M1 M2)].
    rewrite <- !app_assoc. cbn [parse_alt]. rewrite E1. cbn [rbind fst snd].
    change (lit "|" ++ write p ++ rest) with (chr "|" :: (write p ++ rest)). cbv beta iota. rewrite N.eqb_refl, E2. reflexivity.
  - (* Empty *)
    intros _ fuel n opened rest C F. destruct fuel as [|fuel]; [simpl in F; lia|].
    exists XEps, n. split; [exact (parse_empty fuel n opened rest C)|exact means_eps].
  - (* Char *)
    intros u q t IH [Ou Ot] fuel n opened rest C F. cbn [write_seq] in *. rewrite !app_length in F.
    assert (Lu : 1 <= length (write_single u)) by (destruct u; simpl; lia).
    destruct fuel as [|fuel]; [lia|].
    destruct (IH Ot fuel n opened rest C ltac:(lia)) as (r & n' & E & M).
    destruct (with_quantifier_ok (single_test u) (stands_for u) q (write_seq t ++ rest) (single_test_spec u)
                (seq_no_quantifier t rest Ot (ends_no_quantifier rest C))) as (rq & Eq & Mq).
    exists (XSeq rq r), n'. split.
    + rewrite <- !app_assoc, parse_single by exact Ou. rewrite Eq. cbn [rbind fst snd]. rewrite E. reflexivity.
    + refine (means_ext _ _ _ _ (means_seq _ _ _ _ Mq M)). intros b w a. simpl.
      split; intros (v & w' & H); exists v, w'; tauto.
  - (* Start *)
    intros t IH Ot fuel n opened rest C F. cbn [write_seq] in *. simpl in F. destruct fuel as [|fuel]; [lia|].
    destruct (IH Ot fuel n opened rest C ltac:(lia)) as (r & n' & E & M).
    exists (XSeq XBos r), n'. split.
    + change ((lit "^" ++ write_seq t) ++ rest) with (chr "^" :: (write_seq t ++ rest)).
      transitivity (do _ <- not_quantified (write_seq t ++ rest);
                    do (b, n2) <- parse_seq fuel (write_seq t ++ rest) n opened; Ok (XSeq XBos (fst b), snd b, n2));
        [reflexivity|].
      rewrite not_quantified_ok by exact (seq_no_quantifier t rest Ot (ends_no_quantifier rest C)).
      cbn [rbind]. rewrite E. reflexivity.
    + refine (means_ext _ _ _ _ (means_seq _ _ _ _ means_bos M)). intros b w a. simpl. split.
      * intros (v & w' & -> & [-> ->] & H). auto.
      * intros [-> H]. exists [], w. auto.
  - (* Finish *)
    intros t IH Ot fuel n opened rest C F. cbn [write_seq] in *. simpl in F. destruct fuel as [|fuel]; [lia|].
    destruct (IH Ot fuel n opened rest C ltac:(lia)) as (r & n' & E & M).
    exists (XSeq XEos r), n'. split.
    + change ((lit "$" ++ write_seq t) ++ rest) with (chr "$" :: (write_seq t ++ rest)).
      transitivity (do _ <- not_quantified (write_seq t ++ rest);
                    do (b, n2) <- parse_seq fuel (write_seq t ++ rest) n opened; Ok (XSeq XEos (fst b), snd b, n2));
        [reflexivity|].
      rewrite not_quantified_ok by exact (seq_no_quantifier t rest Ot (ends_no_quantifier rest C)).
      cbn [rbind]. rewrite E. reflexivity.
    + refine (means_ext _ _ _ _ (means_seq _ _ _ _ means_eos M)). intros b w a. simpl. split.
      * intros (v & w' & -> & [A ->] & H). simpl in *. rewrite app_nil_r in H. auto.
      * intros [A H]. exists [], w. rewrite app_nil_r. auto.
  - (* Group *)
    intros p IHp t IHt [Op Ot] fuel n opened rest C F. cbn [write_seq] in *.
    rewrite !app_length in F. simpl in F. destruct fuel as [|fuel]; [lia|].
    destruct (IHp Op fuel (S n) (n :: opened) (lit ")" ++ write_seq t ++ rest)
                ltac:(right; eexists; reflexivity) ltac:(lia)) as (r1 & n1 & E1 & M1).
    destruct (IHt Ot fuel n1 opened rest C ltac:(lia)) as (r2 & n2 & E2 & M2).
    exists (XSeq (XGrp n r1) r2), n2. split.
    + rewrite <- !app_assoc.
      change (lit "(" ++ write p ++ lit ")" ++ write_seq t ++ rest)
        with (chr "(" :: (write p ++ (lit ")" ++ write_seq t ++ rest))).
      transitivity (do _ <- not_quantified (write p ++ (lit ")" ++ write_seq t ++ rest));
        do (a, n1) <- parse_alt fuel (write p ++ (lit ")" ++ write_seq t ++ rest)) (S n) (n :: opened);
        match snd a with
        | d :: s1 =>
            if (d =? chr ")")%N then
              do _ <- not_quantified s1;
              do (b, n2) <- parse_seq fuel s1 n1 opened;
              Ok (XSeq (XGrp n (fst a)) (fst b), snd b, n2)
            else Raise ReError
        | [] => Raise ReError
        end); [reflexivity|].
      rewrite not_quantified_ok by (apply alts_no_quantifier; [exact Op|reflexivity]).
      cbn [rbind]. rewrite E1. cbn [rbind fst snd].
      change (lit ")" ++ write_seq t ++ rest) with (chr ")" :: (write_seq t ++ rest)). cbv beta iota. rewrite N.eqb_refl.
      rewrite not_quantified_ok by exact (seq_no_quantifier t rest Ot (ends_no_quantifier rest C)).
      cbn [rbind]. rewrite E2. reflexivity.
    + exact (means_seq _ _ _ _ (means_grp n r1 _ M1) M2).
Qed.

Lemma compile_ok : forall p, ok p -> exists r, compile (write p) = Ok r /\ means r (matches p).
Proof.
  intros p O. destruct (proj1 parses p O (2 * length (write p) + 2) 1 [] [] (or_introl eq_refl) (le_n _))
    as (r & n & E & M).
  exists r. split; [|exact M]. unfold compile. rewrite app_nil_r in E. rewrite E. reflexivity.
Qed.

Lemma search_from_spec : forall r M, means r M -> forall s b,
  search_from (length b + length s) r s = true <->
  exists b' w a, s = b' ++ w ++ a /\ M (b ++ b') w a.
Proof.
  intros r M [I H]. induction s as [|c s IH]; intro b.
  - simpl. rewrite orb_false_r. rewrite (H _ [] [] _ b) by (try reflexivity; intros ? ? ?; reflexivity). split.
    + intros (w & a & E & A & _). exists [], w, a. rewrite app_nil_r. auto.
    + intros (b' & w & a & E & A). symmetry in E. apply app_eq_nil in E. destruct E as [-> E].
      rewrite app_nil_r in A. exists w, a. auto.
  - cbn [search_from]. rewrite orb_true_iff.
    rewrite (H _ (c :: s) [] _ b) by (try reflexivity; intros ? ? ?; reflexivity).
    replace (length b + length (c :: s)) with (length (b ++ [c]) + length s) by (rewrite app_length; simpl; lia).
    rewrite IH. split.
    + intros [(w & a & E & A & _)|(b' & w & a & -> & A)].
      * exists [], w, a. rewrite app_nil_r. auto.
      * exists (c :: b'), w, a. rewrite <- app_assoc in A. auto.
    + intros (b' & w & a & E & A). destruct b' as [|d b'].
      * left. exists w, a. rewrite app_nil_r in A. auto.
      * right. injection E as -> ->. exists b', w, a. rewrite <- app_assoc. auto.
Qed.

Lemma search_ok : forall p s, ok p -> exists x, search (write p) s = Ok x /\ (x = true <-> found p s).
Proof.
  intros p s O. destruct (compile_ok p O) as (r & E & M). unfold search. rewrite E. cbn [rbind].
  eexists. split; [reflexivity|]. exact (search_from_spec r _ M s []).
Qed.

(** Patterns together *)
Fixpoint or_all (p : alts) (ps : list alts) : alts :=
  match ps with
  | [] => p
  | p' :: ps' => (fix go p := match p with One t => Or t (or_all p' ps') | Or t q => Or t (go q) end) p
  end.

Lemma or_all_cons : forall p p' ps, or_all p (p' :: ps)
  = match p with One t => Or t (or_all p' ps) | Or t q => Or t (or_all q (p' :: ps)) end.
Proof. intros [t|t q] p' ps; reflexivity. Qed.

Lemma or_all_spec : forall ps p, write (or_all p ps) = join (lit "|") (map write (p :: ps)) /\
  (ok p -> Forall ok ps -> ok (or_all p ps)) /\
  (forall b w a, matches (or_all p ps) b w a <-> matches p b w a \/ Exists (fun p => matches p b w a) ps).
Proof.
  induction ps as [|p' ps IH]; intro p.
  - split; [reflexivity|]. split; [auto|]. intros b w a. rewrite Exists_nil. simpl. tauto.
  - destruct (IH p') as (W & O & M). induction p as [t|t q IHq].
    + rewrite or_all_cons. split.
      * cbn [write]. rewrite W. reflexivity.
      * split.
        -- intros Ot Os. inversion Os; subst. split; auto.
        -- intros b w a. cbn [matches]. rewrite M, Exists_cons. tauto.
    + rewrite or_all_cons. destruct IHq as (W' & O' & M'). split.
      * cbn [write]. rewrite W'. simpl. rewrite <- !app_assoc. reflexivity.
      * split.
        -- intros [Ot Oq] Os. split; auto.
        -- intros b w a. cbn [matches]. rewrite M', Exists_cons. tauto.
Qed.

Lemma search_joined : forall p ps s, ok p -> Forall ok ps ->
  exists x, search (join (lit "|") (map write (p :: ps))) s = Ok x /\
    (x = true <-> Exists (fun p => found p s) (p :: ps)).
Proof.
  intros p ps s O Os. destruct (or_all_spec ps p) as (W & O' & M).
  destruct (search_ok (or_all p ps) s (O' O Os)) as (x & E & X). exists x. rewrite <- W. split; [exact E|].
  rewrite X. unfold found. rewrite Exists_cons, Exists_exists. split.
  - intros (b & w & a & Es & H). apply M in H. rewrite Exists_exists in H.
    destruct H as [H|(p' & I & H)]; [left; eauto|right]. exists p'. split; [exact I|eauto].
  - intros [(b & w & a & Es & H)|(p' & I & b & w & a & Es & H)]; exists b, w, a; (split; [exact Es|]);
      apply M; [auto|]. right. apply Exists_exists. eauto.
Qed.

(** ** The rules *)

Lemma is_named_spec : forall props s, is_named props (KStr s) = true <-> In s props.
Proof.
  intros props s. simpl. rewrite existsb_exists. split.
  - intros (x & I & E). apply str_eqb_eq in E. subst. exact I.
  - intro I. exists s. split; [exact I|apply str_eqb_refl].
Qed.

(** No pattern is the empty text *)
Lemma join_cons_nil : forall p ps, p <> [] -> join (lit "|") (p :: ps) <> [].
Proof. intros p [|p' ps] H; simpl; [exact H|]. destruct p; [contradiction|discriminate]. Qed.

Lemma extras_spec : forall props ps keys, Forall ok ps -> Forall (fun p => write p <> []) ps ->
  exists xs, find_additional_properties props (map write ps) (map KStr keys) = Ok (map KStr xs) /\
    (forall k, In k xs <-> In k keys /\ extra props ps k) /\
    (NoDup keys -> NoDup xs).
Proof.
  intros props ps keys O N. unfold extra. induction keys as [|k keys (xs & E & S & D)].
  - exists []. split; [reflexivity|]. split; [|auto]. intro k. simpl. tauto.
  - cbn [map find_additional_properties].
    assert (X : exists x, (if is_named props (KStr k) then Ok true
                  else is_matched (join (lit "|") (map write ps)) (KStr k)) = Ok x /\
                (x = true <-> In k props \/ Exists (fun p => found p k) ps)).
    { destruct (is_named props (KStr k)) eqn:En.
      - exists true. apply is_named_spec in En. split; [reflexivity|tauto].
      - assert (Nn : ~ In k props) by (rewrite <- is_named_spec; congruence).
        destruct ps as [|p ps].
        + exists false. split; [reflexivity|]. rewrite Exists_nil. split; [discriminate|tauto].
        + inversion O; subst. inversion N; subst.
          destruct (search_joined p ps k) as (x & Ex & Sx); [assumption|assumption|].
          exists x. split; [|tauto]. unfold is_matched.
          destruct (join (lit "|") (map write (p :: ps))) eqn:J; [|exact Ex].
          destruct (join_cons_nil (write p) (map write ps)); assumption. }
    destruct X as (x & -> & Sx). cbn [rbind]. rewrite E. cbn [rbind]. destruct x.
    + exists xs. split; [reflexivity|]. split.
      * intro k'. rewrite S. simpl. split; [tauto|]. intros ([->|I] & H1 & H2); [|tauto]. tauto.
      * intro H. inversion H; auto.
    + exists (k :: xs). split; [reflexivity|]. split.
      * intro k'. simpl. rewrite S. split.
        -- intros [->|H]; [|tauto]. split; [auto|]. split; intro H; assert (false = true) by tauto; discriminate.
        -- tauto.
      * intro H. inversion H; subst. constructor; [|auto]. rewrite S. tauto.
Qed.

Lemma insert_perm : forall A leb (x : A) l, Permutation (x :: l) (insert leb x l).
Proof.
  intros A leb x l. induction l as [|y l IH]; simpl; [constructor; constructor|].
  destruct (leb x y); [apply Permutation_refl|]. rewrite perm_swap. constructor. exact IH.
Qed.

Lemma sort_perm : forall A leb (l : list A), Permutation l (sort leb l).
Proof.
  intros A leb l. induction l as [|x l IH]; simpl; [constructor|].
  rewrite <- insert_perm. constructor. exact IH.
Qed.

Lemma insert_sorted : forall A leb (x : A) l, (forall a b, leb a b = false -> leb b a = true) ->
  Sorted (fun a b => leb a b = true) l -> Sorted (fun a b => leb a b = true) (insert leb x l).
Proof.
  intros A leb x l T. induction l as [|y l IH]; intro H; simpl; [repeat constructor|].
  destruct (leb x y) eqn:E; [constructor; [exact H|constructor; exact E]|].
  inversion H as [|? ? H1 H2]; subst. constructor; [exact (IH H1)|].
  destruct l as [|z l]; simpl; [constructor; apply T; exact E|].
  destruct (leb x z); constructor; [apply T; exact E|]. inversion H2; assumption.
Qed.

Lemma sort_sorted : forall A leb (l : list A), (forall a b, leb a b = false -> leb b a = true) ->
  Sorted (fun a b => leb a b = true) (sort leb l).
Proof. intros A leb l T. induction l as [|x l IH]; simpl; [constructor|]. apply insert_sorted; auto. Qed.

Lemma str_leb_total : forall a b, str_leb a b = false -> str_leb b a = true.
Proof.
  induction a as [|x a IH]; intros [|y b]; simpl; try congruence. rewrite (N.eqb_sym y x).
  destruct (N.eqb_spec x y); [auto|]. rewrite N.ltb_ge, N.ltb_lt. lia.
Qed.

(** ** Back-references *)

Fixpoint word_rx (w : list N) : rx :=
  match w with [] => XEps | c :: w' => XSeq (XChr (N.eqb c)) (word_rx w') end.

Lemma parse_word : forall w fuel n opened rest, Forall (fun c => ~ In c meta) w -> ends rest ->
  length w + 1 <= fuel -> parse_seq fuel (w ++ rest) n opened = Ok (word_rx w, rest, n).
Proof.
  induction w as [|c w IH]; intros fuel n opened rest H C F; (destruct fuel as [|fuel]; [simpl in F; lia|]).
  - apply parse_empty. exact C.
  - inversion H; subst. simpl in F. change ((c :: w) ++ rest) with (write_single (Letter c) ++ (w ++ rest)).
    rewrite parse_single by assumption. cbn [single_test].
    assert (Q : no_quantifier (w ++ rest)).
    { destruct w as [|d w]; [exact (ends_no_quantifier rest C)|]. simpl. inversion H3; subst.
      apply letter_tests. destruct (special d) eqn:S; [|reflexivity]. apply special_spec in S. contradiction. }
    replace (with_quantifier (N.eqb c) (w ++ rest)) with (Ok (XChr (N.eqb c), w ++ rest)).
    + cbn [rbind]. rewrite IH by (auto; lia). reflexivity.
    + destruct (w ++ rest) as [|d s]; [reflexivity|]. simpl in *. rewrite Q. reflexivity.
Qed.

Lemma mat_word : forall total w s g k,
  mat total (word_rx w) s g k = starts_with w s && k (skipn (length w) s) g.
Proof.
  intros total w. induction w as [|c w IH]; intros s g k; [reflexivity|].
  cbn [word_rx mat]. destruct s as [|d s]; [reflexivity|]. rewrite IH.
  unfold starts_with. simpl. rewrite andb_assoc. reflexivity.
Qed.

Lemma starts_with_spec : forall w s, starts_with w s = true <-> exists a, s = w ++ a.
Proof.
  intros w s. unfold starts_with. split.
  - intro H. apply str_eqb_eq in H. exists (skipn (length w) s). rewrite H at 1. symmetry. apply firstn_skipn.
  - intros [a ->]. rewrite firstn_app, Nat.sub_diag, firstn_all. simpl. rewrite app_nil_r. apply str_eqb_refl.
Qed.

Lemma between_app : forall w a, between (w ++ a) a = w.
Proof.
  intros w a. unfold between. rewrite app_length, Nat.add_sub, firstn_app, Nat.sub_diag, firstn_all.
  simpl. apply app_nil_r.
Qed.

Definition twice_rx (n : nat) (w : list N) : rx := XSeq (XGrp n (word_rx w)) (XSeq (XRef 1) XEps).

Lemma skipn_word : forall (w a : list N), skipn (length w) (w ++ a) = a.
Proof. intros w a. rewrite skipn_app, skipn_all, Nat.sub_diag. reflexivity. Qed.

Lemma mat_twice : forall total w s, mat total (twice_rx 1 w) s [] (fun _ _ => true) = true <->
  exists a, s = w ++ w ++ a.
Proof.
  intros total w s. unfold twice_rx. cbn [mat]. rewrite mat_word, andb_true_iff, starts_with_spec.
  cbn [captured Nat.eqb]. split.
  - intros [[a ->] H]. rewrite skipn_word, between_app in H. apply andb_true_iff in H. destruct H as [H _].
    apply starts_with_spec in H. destruct H as [b ->]. exists b. reflexivity.
  - intros [a ->]. split; [eexists; reflexivity|]. rewrite skipn_word, between_app, andb_true_r.
    apply starts_with_spec. exists a. reflexivity.
Qed.

Lemma mat_other : forall total w s n, n <> 1 -> mat total (twice_rx n w) s [] (fun _ _ => true) = false.
Proof.
  intros total w s n H. unfold twice_rx. cbn [mat]. rewrite mat_word. cbn [captured].
  destruct n as [|[|n]]; [|contradiction|]; apply andb_false_r.
Qed.

Lemma parse_twice : forall w fuel n rest, Forall (fun c => ~ In c meta) w -> 1 <= n -> ends rest ->
  length w + 5 <= fuel ->
  parse_seq fuel (lit "(" ++ w ++ lit ")\1" ++ rest) n [] = Ok (twice_rx n w, rest, S n).
Proof.
  intros w fuel n rest H Hn C F. destruct fuel as [|[|[|fuel]]]; try lia.
  change (lit "(" ++ w ++ lit ")\1" ++ rest) with (chr "(" :: (w ++ (chr ")" :: (lit "\1" ++ rest)))).
  assert (Q : not_quantified (w ++ (chr ")" :: (lit "\1" ++ rest))) = Ok tt).
  { apply not_quantified_ok. destruct w as [|d w]; [reflexivity|]. simpl. inversion H; subst.
    apply letter_tests. destruct (special d) eqn:S; [|reflexivity]. apply special_spec in S. contradiction. }
  transitivity (do _ <- not_quantified (w ++ (chr ")" :: (lit "\1" ++ rest)));
    do (a, n1) <- parse_alt (S (S fuel)) (w ++ (chr ")" :: (lit "\1" ++ rest))) (S n) [n];
    match snd a with
    | d :: s1 =>
        if (d =? chr ")")%N then
          do _ <- not_quantified s1;
          do (b, n2) <- parse_seq (S (S fuel)) s1 n1 [];
          Ok (XSeq (XGrp n (fst a)) (fst b), snd b, n2)
        else Raise ReError
    | [] => Raise ReError
    end); [reflexivity|].
  rewrite Q. cbn [rbind].
  assert (PA : parse_alt (S (S fuel)) (w ++ (chr ")" :: (lit "\1" ++ rest))) (S n) [n]
               = Ok (word_rx w, chr ")" :: (lit "\1" ++ rest), S n)).
  { transitivity (do (a, n1) <- parse_seq (S fuel) (w ++ (chr ")" :: (lit "\1" ++ rest))) (S n) [n];
      match snd a with
      | c :: s' =>
          if (c =? chr "|")%N then
            do (b, n2) <- parse_alt (S fuel) s' n1 [n];
            Ok (XAlt (fst a) (fst b), snd b, n2)
          else Ok (a, n1)
      | [] => Ok (a, n1)
      end); [reflexivity|].
    rewrite parse_word; [reflexivity|exact H|left; right; eexists; reflexivity|lia]. }
  rewrite PA. cbn [rbind fst snd]. rewrite N.eqb_refl. cbn [not_quantified].
  assert (PS : parse_seq (S (S fuel)) (lit "\1" ++ rest) (S n) [] = Ok (XSeq (XRef 1) XEps, rest, S n)).
  { transitivity (if match rest with e :: _ => is_digit e || quantifier e | [] => false end then Raise unsupported
                  else if (S n <=? 1)%nat || existsb (Nat.eqb 1) [] then Raise ReError
                  else do (b, n2) <- parse_seq (S fuel) rest (S n) []; Ok (XSeq (XRef 1) (fst b), snd b, n2));
      [reflexivity|].
    assert (Er : match rest with e :: _ => is_digit e || quantifier e | [] => false end = false)
      by (destruct C as [[->|[r ->]]|[r ->]]; reflexivity).
    rewrite Er. destruct (Nat.leb_spec (S n) 1); [lia|]. cbn [orb existsb].
    rewrite parse_empty by exact C. reflexivity. }
  change (lit "\1" ++ rest) with (chr "\" :: chr "1" :: rest) in *.
  change (quantifier (chr "\")) with false. cbn [rbind]. rewrite PS. reflexivity.
Qed.

Lemma search_from_exists : forall r total (P : list N -> Prop),
  (forall s, mat total r s [] (fun _ _ => true) = true <-> P s) ->
  forall s, search_from total r s = true <-> exists b a, s = b ++ a /\ P a.
Proof.
  intros r total P H. induction s as [|c s IH].
  - simpl. rewrite orb_false_r, H. split; [intro X; exists [], []; auto|].
    intros (b & a & E & X). symmetry in E. apply app_eq_nil in E. destruct E as [-> ->]. exact X.
  - cbn [search_from]. rewrite orb_true_iff, H, IH. split.
    + intros [X|(b & a & -> & X)]; [exists [], (c :: s); auto|exists (c :: b), a; auto].
    + intros (b & a & E & X). destruct b as [|d b]; [left; simpl in E; rewrite E; exact X|right].
      injection E as -> ->. exists b, a. auto.
Qed.

Lemma compile_twice : forall w, Forall (fun c => ~ In c meta) w ->
  compile (lit "(" ++ w ++ lit ")\1") = Ok (twice_rx 1 w).
Proof.
  intros w H. unfold compile.
  replace (2 * length (lit "(" ++ w ++ lit ")\1") + 2) with (S (2 * length w + 9))
    by (rewrite !app_length; simpl; lia).
  assert (E := parse_twice w (2 * length w + 9) 1 [] H (le_n 1) (or_introl (or_introl eq_refl)) ltac:(lia)).
  rewrite app_nil_r in E. cbn [parse_alt]. rewrite E. reflexivity.
Qed.

Lemma compile_two : forall w1 w2, Forall (fun c => ~ In c meta) w1 -> Forall (fun c => ~ In c meta) w2 ->
  compile ((lit "(" ++ w1 ++ lit ")\1") ++ lit "|" ++ (lit "(" ++ w2 ++ lit ")\1"))
  = Ok (XAlt (twice_rx 1 w1) (twice_rx 2 w2)).
Proof.
  intros w1 w2 H1 H2. unfold compile.
  set (t := lit "(" ++ w2 ++ lit ")\1").
  replace (2 * length ((lit "(" ++ w1 ++ lit ")\1") ++ lit "|" ++ t) + 2)
    with (S (S (2 * length w1 + 2 * length w2 + 18)))
    by (unfold t; rewrite !app_length; simpl; lia).
  set (m := 2 * length w1 + 2 * length w2 + 18).
  assert (E1 := parse_twice w1 (S m) 1 (lit "|" ++ t) H1 (le_n 1)
                  ltac:(right; eexists; reflexivity) ltac:(lia)).
  assert (E2 := parse_twice w2 m 2 [] H2 ltac:(lia) (or_introl (or_introl eq_refl)) ltac:(lia)).
  rewrite app_nil_r in E2. fold t in E2. rewrite <- !app_assoc.
  set (x := lit "(" ++ w1 ++ lit ")\1" ++ lit "|" ++ t) in *.
  transitivity (do (a, n) <- (do (a, n1) <- parse_seq (S m) x 1 [];
      match snd a with
      | c :: s' =>
          if (c =? chr "|")%N then
            do (b, n2) <- parse_alt (S m) s' n1 [];
            Ok (XAlt (fst a) (fst b), snd b, n2)
          else Ok (a, n1)
      | [] => Ok (a, n1)
      end); match snd a with [] => Ok (fst a) | _ => Raise ReError end); [reflexivity|].
  rewrite E1. cbn [rbind fst snd]. change (lit "|" ++ t) with (chr "|" :: t). cbv beta iota. rewrite N.eqb_refl.
  assert (P : parse_alt (S m) t 2 [] = Ok (twice_rx 2 w2, [], 3)).
  { transitivity (do (a, n1) <- parse_seq m t 2 [];
      match snd a with
      | c :: s' =>
          if (c =? chr "|")%N then
            do (b, n2) <- parse_alt m s' n1 [];
            Ok (XAlt (fst a) (fst b), snd b, n2)
          else Ok (a, n1)
      | [] => Ok (a, n1)
      end); [reflexivity|]. rewrite E2. reflexivity. }
  rewrite P. reflexivity.
Qed.

Lemma search_twice : forall w s, Forall (fun c => ~ In c meta) w ->
  exists x, search (lit "(" ++ w ++ lit ")\1") s = Ok x /\ (x = true <-> exists b a, s = b ++ w ++ w ++ a).
Proof.
  intros w s H. unfold search. rewrite compile_twice by exact H. cbn [rbind]. eexists. split; [reflexivity|].
  rewrite (search_from_exists _ _ _ (mat_twice (length s) w)). split.
  - intros (b & a & -> & a' & ->). exists b, a'. reflexivity.
  - intros (b & a & ->). exists b, (w ++ w ++ a). split; [reflexivity|]. exists a. reflexivity.
Qed.

Lemma search_two : forall w1 w2 s, Forall (fun c => ~ In c meta) w1 -> Forall (fun c => ~ In c meta) w2 ->
  exists x, search ((lit "(" ++ w1 ++ lit ")\1") ++ lit "|" ++ (lit "(" ++ w2 ++ lit ")\1")) s = Ok x /\
    (x = true <-> exists b a, s = b ++ w1 ++ w1 ++ a).
Proof.
  intros w1 w2 s H1 H2. unfold search. rewrite compile_two by assumption. cbn [rbind]. eexists. split; [reflexivity|].
  assert (X : forall s', mat (length s) (XAlt (twice_rx 1 w1) (twice_rx 2 w2)) s' [] (fun _ _ => true) = true
              <-> exists a, s' = w1 ++ w1 ++ a).
  { intro s'. rewrite <- (mat_twice (length s)).
    change (mat (length s) (XAlt (twice_rx 1 w1) (twice_rx 2 w2)) s' [] (fun _ _ => true))
      with (mat (length s) (twice_rx 1 w1) s' [] (fun _ _ => true)
            || mat (length s) (twice_rx 2 w2) s' [] (fun _ _ => true)).
    rewrite (mat_other (length s) w2 s' 2) by lia. rewrite orb_false_r. reflexivity. }
  rewrite (search_from_exists _ _ _ X). split.
  - intros (b & a & -> & a' & ->). exists b, a'. reflexivity.
  - intros (b & a & ->). exists b, (w1 ++ w1 ++ a). split; [reflexivity|]. exists a. reflexivity.
Qed.
