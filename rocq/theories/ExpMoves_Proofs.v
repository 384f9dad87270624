(** Lemmas for C29. *)
From Coq Require Import Ascii String.
From Verif Require Import PyBase PyBase_Proofs Regex Regex_Proofs ExpMoves_Model ExpMoves_Spec Coords_Proofs.
Open Scope Z_scope.

Definition q2one (c : pychar) : pychar := if (c =? chr "?")%N then chr "1" else c.

Lemma replace1_map : forall s, replace1 (chr "?") (lit "1") s = map q2one s.
Proof.
  induction s as [|c s IH]; [reflexivity|]. cbn [replace1 map]. unfold q2one at 1.
  destruct (c =? chr "?")%N; rewrite IH; reflexivity.
Qed.

Lemma dirletter_cases : forall c, dirletter c -> c = 76%N \/ c = 85%N \/ c = 82%N \/ c = 68%N.
Proof. intros c H. unfold dirletter in H. cbn in H. intuition. Qed.

Lemma dirletter_lurd : forall c, dirletter c -> lurd c = true.
Proof. intros c H. apply dirletter_cases in H. intuition subst; reflexivity. Qed.

Lemma dirletter_not_digit : forall c, dirletter c -> is_digit c = false.
Proof. intros c H. apply dirletter_cases in H. intuition subst; reflexivity. Qed.

Lemma dirletter_not_count : forall c, dirletter c -> ~ countchar c.
Proof.
  intros c H [Hd|Hq].
  - rewrite dirletter_not_digit in Hd by exact H. discriminate.
  - apply dirletter_cases in H. intuition subst; discriminate.
Qed.

Lemma digit_not_lurd : forall c, is_digit c = true -> lurd c = false.
Proof.
  intros c H. apply is_digit_range in H. unfold lurd, in_class_ci. cbn [existsb lit map String.list_ascii_of_string].
  assert (E : up c = c). { unfold up, is_lower. destruct (N.leb_spec 97 c); [lia|reflexivity]. }
  rewrite E. cbn. repeat (apply orb_false_iff; split); try reflexivity; apply N.eqb_neq; cbn; lia.
Qed.

Lemma q2one_dir : forall c, dirletter c -> q2one c = c.
Proof. intros c H. apply dirletter_cases in H. intuition subst; reflexivity. Qed.

Lemma q2one_digit : forall c, countchar c -> is_digit (q2one c) = true.
Proof.
  intros c [H|H]; unfold q2one; destruct (N.eqb_spec c (chr "?")); try reflexivity; congruence.
Qed.

Lemma q2one_val : forall c, countchar c ->
  digit_val (q2one c) = if (c =? chr "?")%N then 1 else digit_val c.
Proof. intros c _. unfold q2one. destruct (c =? chr "?")%N; reflexivity. Qed.

Lemma counter_chars : forall t n, counter t n -> t <> [] /\ forall c, In c t -> countchar c.
Proof.
  intros t n H. induction H as [c Hc|t n c H [IH1 IH2] Hc].
  - split; [discriminate|]. intros d [<-|[]]. exact Hc.
  - split; [destruct t; discriminate|]. intros d Hd. apply in_app_or in Hd.
    destruct Hd as [Hd|[<-|[]]]; [apply IH2; exact Hd|exact Hc].
Qed.

Lemma counter_val : forall t n, counter t n -> digits_val 0 (map q2one t) = n.
Proof.
  intros t n H. induction H as [c Hc|t n c H IH Hc].
  - cbn [map]. unfold digits_val. cbn [fold_left]. rewrite q2one_val by exact Hc. lia.
  - rewrite map_app, digits_val_app, IH. cbn [map]. unfold digits_val. cbn [fold_left].
    rewrite q2one_val by exact Hc. lia.
Qed.

Lemma counter_exists : forall t, t <> [] -> (forall c, In c t -> countchar c) -> exists n, counter t n.
Proof.
  induction t as [|c t IH] using rev_ind; intros Hn H; [congruence|]. clear Hn.
  assert (Hc : countchar c) by (apply H; apply in_or_app; right; left; reflexivity).
  destruct t as [|d t]; [eexists; apply Co_one; exact Hc|].
  destruct IH as (n & Hn); [discriminate|intros e He; apply H; apply in_or_app; left; exact He|].
  eexists. apply Co_more; eassumption.
Qed.

Lemma counter_int : forall t n, counter t n -> py_int (map q2one t) = Some n.
Proof.
  intros t n H. destruct (counter_chars _ _ H) as [Hn Hc]. rewrite py_int_digits.
  - rewrite (counter_val _ _ H). reflexivity.
  - destruct t; [congruence|discriminate].
  - apply forallb_forall. intros c Hin. apply in_map_iff in Hin. destruct Hin as (d & <- & Hd).
    apply q2one_digit, Hc, Hd.
Qed.

(** ** Tokens *)

Lemma plus_rest : forall f s, rmatch (RPlus f) s [] (fun s' _ => Some s') =
  match s with c :: s' => if f c then Some (drop_while f s') else None | [] => None end.
Proof.
  intros f [|c s]; [reflexivity|]. cbn. destruct (f c); [apply star_total|reflexivity].
Qed.

Lemma splitter_rest : forall s, re_rest exp_moves_splitter s =
  match s with
  | c :: d :: s' => if lurd c && is_digit d then Some (drop_while is_digit s') else None
  | _ => None
  end.
Proof.
  intros [|c s]; [reflexivity|]. unfold re_rest, exp_moves_splitter. cbn [rmatch].
  destruct (lurd c) eqn:E; [|destruct s; reflexivity].
  change (rmatch (RPlus is_digit) s [] (fun s' _ => Some s') =
    match s with d :: s' => if true && is_digit d then Some (drop_while is_digit s') else None | [] => None end).
  rewrite plus_rest. destruct s; reflexivity.
Qed.

Lemma parser_group : forall ls, ls <> [] -> (forall c, In c ls -> dirletter c) ->
  parse_token ls = Ok (ls, None).
Proof.
  intros [|c ls] Hn H; [congruence|]. unfold parse_token, re_match, exp_moves_parser. cbn [RSeqs rmatch RPlus].
  rewrite (dirletter_lurd c) by (apply H; left; reflexivity).
  set (k := fun s' : pystr => _).
  assert (Hs : star lurd k ls = Some [("moves"%string, c :: ls)]).
  { rewrite <- (app_nil_r ls). apply star_first.
    - intros d Hd. apply dirletter_lurd, H. right. exact Hd.
    - discriminate.
    - unfold k. cbn. rewrite app_nil_r. unfold between. cbn [length Nat.sub]. rewrite firstn_all2 by (cbn; lia). reflexivity. }
  rewrite Hs. reflexivity.
Qed.

Lemma parser_count : forall l t n, dirletter l -> t <> [] -> (forall c, In c t -> is_digit c = true) ->
  py_int t = Some n -> parse_token (l :: t) = Ok ([l], Some n).
Proof.
  intros l t n Hl Hn Ht Hi. unfold parse_token, re_match, exp_moves_parser. cbn [RSeqs rmatch RPlus].
  rewrite (dirletter_lurd l) by exact Hl.
  destruct t as [|c t]; [congruence|].
  assert (Hc : is_digit c = true) by (apply Ht; left; reflexivity).
  set (k := fun s' : pystr => _).
  assert (Hk : k (c :: t) = Some [("times"%string, c :: t); ("moves"%string, [l])]).
  { unfold k. cbn [ROpt rmatch RLit RSeqs lit map String.list_ascii_of_string].
    change (Ascii.N_of_ascii "?"%char) with 63%N.
    assert (Eq : (c =? 63)%N = false).
    { apply N.eqb_neq. apply is_digit_range in Hc. lia. }
    rewrite Eq. unfold RPlus. cbn [rmatch]. rewrite Hc.
    set (k2 := fun s' : pystr => _).
    assert (H2 : star is_digit k2 t = Some [("times"%string, c :: t); ("moves"%string, [l])]).
    { rewrite <- (app_nil_r t) at 1. apply star_first.
      - intros d Hd. apply Ht. right. exact Hd.
      - discriminate.
      - unfold k2. cbn [at_end]. f_equal. f_equal; [f_equal|f_equal; f_equal].
        + unfold between. rewrite firstn_all2 by (cbn; lia). reflexivity.
        + apply (between_app [l] (c :: t)). }
    rewrite H2. reflexivity. }
  assert (Hs : star lurd k (c :: t) = Some [("times"%string, c :: t); ("moves"%string, [l])]).
  { apply (star_first _ lurd k [] (c :: t)); [intros d []| |exact Hk].
    intros d b E. inversion E; subst. apply digit_not_lurd. exact Hc. }
  rewrite Hs. cbn [group String.eqb Ascii.eqb Bool.eqb]. unfold repeat_moves. rewrite Hi. reflexivity.
Qed.

Lemma parser_digit_first : forall c t, is_digit c = true -> parse_token (c :: t) = Raise AttributeError.
Proof.
  intros c t H. unfold parse_token, re_match, exp_moves_parser. cbn [RSeqs rmatch RPlus].
  rewrite digit_not_lurd by exact H. reflexivity.
Qed.

(** ** The whole text *)

Lemma drop_digits_q : forall t s, (forall c, In c t -> countchar c) ->
  (forall c s', s = c :: s' -> ~ countchar c) ->
  drop_while is_digit (map q2one t ++ map q2one s) = map q2one s
  /\ take_while is_digit (map q2one t ++ map q2one s) = map q2one t.
Proof.
  intros t s Ht Hs. destruct (take_drop_app is_digit (map q2one t) (map q2one s)) as [H1 H2].
  - intros c Hc. apply in_map_iff in Hc. destruct Hc as (d & <- & Hd). apply q2one_digit, Ht, Hd.
  - intros c b' E. destruct s as [|d s]; [discriminate|]. cbn in E. inversion E; subst.
    specialize (Hs d s eq_refl). destruct (is_digit (q2one d)) eqn:Ed; [|reflexivity]. exfalso. apply Hs.
    unfold q2one in Ed. destruct (N.eqb_spec d (chr "?")); [right; assumption|left; exact Ed].
  - split; assumption.
Qed.

Definition counted_head (u : pystr) : Prop := exists l c s', u = l :: c :: s' /\ dirletter l /\ countchar c.

Definition pending (cur : pystr) : list (pystr * option Z) :=
  match cur with [] => [] | _ => [(rev cur, None)] end.

Definition toks (l : list pystr) : res (list (pystr * option Z)) :=
  rmap parse_token (filter (fun v => negb (str_eqb v [])) l).

Lemma toks_pending : forall cur rest gs, (forall c, In c cur -> dirletter c) -> toks rest = Ok gs ->
  toks (rev cur :: rest) = Ok (pending cur ++ gs).
Proof.
  intros cur rest gs Hc Hr. unfold toks. cbn [filter]. destruct cur as [|c cur].
  - exact Hr.
  - assert (E : str_eqb (rev (c :: cur)) [] = false).
    { apply str_eqb_neq. cbn. destruct (rev cur); discriminate. }
    rewrite E. cbn [negb rmap]. rewrite parser_group.
    + cbn [rbind]. unfold toks in Hr. rewrite Hr. reflexivity.
    + apply str_eqb_neq. exact E.
    + intros d Hd. apply Hc. apply in_rev. exact Hd.
Qed.

Lemma spells_tokens : forall u gs, spells u gs -> forall fuel cur, (length u < fuel)%nat ->
  (forall c, In c cur -> dirletter c) -> (cur = [] \/ u = [] \/ counted_head u) ->
  toks (split_fuel fuel exp_moves_splitter cur (map q2one u)) = Ok (pending cur ++ gs).
Proof.
  intros u gs H. induction H as [|l t n s gs Hl Ht Hs Hsp IH|ls s gs Hn Hls Hs Hsp IH]; intros fuel cur Hf Hcur Hh.
  - destruct fuel; [lia|]. cbn [map split_fuel].
    assert (Er : re_rest exp_moves_splitter [] = None) by reflexivity. rewrite Er.
    apply toks_pending; [exact Hcur|reflexivity].
  - destruct fuel as [|fuel]; [cbn in Hf; lia|].
    destruct (counter_chars _ _ Ht) as [Htn Htc].
    destruct t as [|c t]; [congruence|].
    assert (Hc : is_digit (q2one c) = true) by (apply q2one_digit, Htc; left; reflexivity).
    cbn [split_fuel map app]. rewrite splitter_rest. rewrite q2one_dir by exact Hl.
    rewrite dirletter_lurd by exact Hl. rewrite Hc. cbn [andb]. rewrite map_app.
    destruct (drop_digits_q t s) as [H1 _].
    { intros d Hd. apply Htc. right. exact Hd. }
    { exact Hs. }
    rewrite H1.
    change (l :: q2one c :: map q2one t ++ map q2one s) with ((l :: map q2one (c :: t)) ++ map q2one s).
    rewrite between_app. apply toks_pending; [exact Hcur|].
    unfold toks. cbn [filter str_eqb negb rmap].
    rewrite (parser_count l (map q2one (c :: t)) n); [|exact Hl|discriminate| |].
    + cbn [rbind]. specialize (IH fuel []). unfold toks in IH. rewrite IH; [reflexivity| |intros d []|auto].
      cbn in Hf. rewrite app_length in Hf. lia.
    + intros d Hd. apply in_map_iff in Hd. destruct Hd as (e & <- & He). apply q2one_digit, Htc, He.
    + apply counter_int. exact Ht.
  - (* letters without counters pile up *)
    assert (Hnocount : ~ counted_head (ls ++ s)).
    { intros (l & c & s' & E & Hl & Hc). destruct ls as [|a [|b ls]]; [congruence| |].
      - cbn in E. inversion E; subst. destruct Hs as [Hs|(l' & c' & s'' & Es & Hl' & _)]; [discriminate|].
        inversion Es; subst. exact (dirletter_not_count _ Hl' Hc).
      - inversion E; subst. apply (dirletter_not_count c); [apply Hls; right; left; reflexivity|exact Hc]. }
    destruct Hh as [-> |[E|Hh]]; [|destruct ls; [congruence|discriminate]|tauto].
    assert (Hwalk : forall todo done fuel, ls = done ++ todo -> (length (todo ++ s) < fuel)%nat ->
      exists fuel', (length s < fuel')%nat /\
      split_fuel fuel exp_moves_splitter (rev done) (map q2one (todo ++ s))
      = split_fuel fuel' exp_moves_splitter (rev ls) (map q2one s)).
    { induction todo as [|c todo IHt]; intros done fl E Hfl.
      - exists fl. rewrite app_nil_r in E. subst done. split; [exact Hfl|reflexivity].
      - destruct fl as [|fl]; [cbn in Hfl; lia|]. cbn [app map split_fuel]. rewrite splitter_rest.
        assert (Hc : dirletter c) by (apply Hls; rewrite E; apply in_or_app; right; left; reflexivity).
        assert (Hnext : forall d r, map q2one (todo ++ s) = d :: r -> is_digit d = false).
        { intros d r Ed. destruct todo as [|e todo].
          - cbn in Ed. destruct Hs as [-> |(l & c' & s' & -> & Hl & _)]; [discriminate|].
            cbn in Ed. inversion Ed; subst. rewrite q2one_dir by exact Hl. apply dirletter_not_digit. exact Hl.
          - cbn in Ed. inversion Ed; subst. assert (He : dirletter e).
            { apply Hls. apply in_or_app. right. right. left. reflexivity. }
            rewrite q2one_dir by exact He. apply dirletter_not_digit. exact He. }
        assert (Enone : match map q2one (todo ++ s) with
                        | d :: s' => if lurd (q2one c) && is_digit d then Some (drop_while is_digit s') else None
                        | [] => None end = None).
        { destruct (map q2one (todo ++ s)) as [|d r]; [reflexivity|].
          rewrite (Hnext d r eq_refl). rewrite andb_false_r. reflexivity. }
        rewrite Enone. rewrite q2one_dir by exact Hc.
        destruct (IHt (done ++ [c]) fl) as (f' & Hf' & Ef).
        + rewrite E, <- app_assoc. reflexivity.
        + cbn in Hfl. lia.
        + exists f'. split; [exact Hf'|]. rewrite rev_app_distr in Ef. exact Ef. }
    destruct (Hwalk ls [] fuel eq_refl Hf) as (f' & Hf' & E).
    cbn [rev] in E. rewrite E. rewrite (IH f' (rev ls) Hf').
    + unfold pending. cbn [app]. destruct (rev ls) eqn:Er.
      * exfalso. apply Hn. rewrite <- (rev_involutive ls), Er. reflexivity.
      * rewrite <- Er, rev_involutive. reflexivity.
    + intros d Hd. apply Hls. apply in_rev. exact Hd.
    + right. destruct Hs as [Hs|Hs]; [left; exact Hs|right; exact Hs].
Qed.

(** Every text over the alphabet that starts with a letter spells something. *)
Lemma span_count : forall s, exists t r, s = t ++ r /\ (forall c, In c t -> countchar c)
  /\ (forall c s', r = c :: s' -> ~ countchar c).
Proof.
  induction s as [|c s (t & r & -> & Ht & Hr)].
  - exists [], []. repeat split; [intros c []|discriminate].
  - assert (D : countchar c \/ ~ countchar c).
    { unfold countchar. destruct (is_digit c) eqn:E; [auto|]. destruct (N.eq_dec c (chr "?")); [auto|].
      right. intros [H|H]; congruence. }
    destruct D as [D|D].
    + exists (c :: t), r. repeat split; [|exact Hr]. intros d [<-|Hd]; [exact D|apply Ht; exact Hd].
    + exists [], (c :: t ++ r). repeat split; [intros d []|]. intros d s' E. inversion E; subst. exact D.
Qed.

Lemma spells_exists : forall n s, (length s <= n)%nat ->
  (forall c, In c s -> dirletter c \/ countchar c) -> (forall c s', s = c :: s' -> ~ countchar c) ->
  exists gs, spells s gs.
Proof.
  induction n as [|n IH]; intros s Hl Ha Hh.
  - destruct s; [|cbn in Hl; lia]. eexists. constructor.
  - destruct s as [|c s]; [eexists; constructor|].
    assert (Hc : dirletter c).
    { destruct (Ha c (or_introl eq_refl)) as [H|H]; [exact H|]. exfalso. exact (Hh c s eq_refl H). }
    destruct (span_count s) as (t & r & -> & Ht & Hr).
    destruct (IH r) as (gs & Hgs).
    { cbn in Hl. rewrite app_length in Hl. lia. }
    { intros d Hd. apply Ha. right. apply in_or_app. right. exact Hd. }
    { exact Hr. }
    destruct t as [|d t].
    + (* no counter: joins the group that follows *)
      cbn [app]. inversion Hgs as [|l t0 m s gs0 Hl0 Ht0 Hs0 Hsp0|ls s gs0 Hn0 Hls0 Hs0 Hsp0]; subst.
      * eexists. apply (Sp_group [c] []); [discriminate|intros d [<-|[]]; exact Hc|auto|constructor].
      * eexists. apply (Sp_group [c] (l :: t0 ++ s)); [discriminate|intros d [<-|[]]; exact Hc| |exact Hgs].
        right. destruct (counter_chars _ _ Ht0) as [Htn Htc]. destruct t0 as [|e t0]; [congruence|].
        exists l, e, (t0 ++ s). repeat split; [exact Hl0|apply Htc; left; reflexivity].
      * eexists. apply (Sp_group (c :: ls) s); [discriminate| |exact Hs0|exact Hsp0].
        intros d [<-|Hd]; [exact Hc|apply Hls0; exact Hd].
    + destruct (counter_exists (d :: t)) as (m & Hm); [discriminate|exact Ht|].
      eexists. apply (Sp_count c (d :: t) m r gs); assumption.
Qed.

Lemma split_first : forall fuel cur s, cur <> [] ->
  exists w rest, split_fuel fuel exp_moves_splitter cur s = (rev cur ++ w) :: rest.
Proof.
  induction fuel as [|fuel IH]; intros cur s Hc.
  - exists [], []. cbn. rewrite app_nil_r. reflexivity.
  - cbn [split_fuel]. destruct (re_rest exp_moves_splitter s) as [s'|].
    + exists []. rewrite app_nil_r. eauto.
    + destruct s as [|c s]; [exists []; rewrite app_nil_r; eauto|].
      destruct (IH (c :: cur) s) as (w & rest & ->); [discriminate|]. exists (c :: w), rest.
      cbn [rev]. rewrite <- app_assoc. reflexivity.
Qed.

Lemma count_first_raises : forall c s, countchar c ->
  parse_expansion_moves (c :: s) = Raise ValueError.
Proof.
  intros c s Hc. unfold parse_expansion_moves. rewrite replace1_map. cbn [upper map].
  assert (Eu : q2one (up c) = q2one c).
  { destruct Hc as [H| ->]; [|reflexivity]. apply is_digit_range in H. unfold up, is_lower.
    destruct (N.leb_spec 97 c); [lia|reflexivity]. }
  rewrite Eu. pose proof (q2one_digit c Hc) as Hd. unfold re_split.
  generalize (length (q2one c :: map q2one (map up s))) as n. intro n. cbn [split_fuel].
  rewrite splitter_rest, digit_not_lurd by exact Hd.
  assert (E : match map q2one (map up s) with
              | d :: s' => if false && is_digit d then Some (drop_while is_digit s') else None
              | [] => None end = None) by (destruct (map q2one (map up s)); reflexivity).
  rewrite E. destruct (split_first n [q2one c] (map q2one (map up s)))
    as (w & rest & Es); [discriminate|]. rewrite Es.
  cbn [rev app filter str_eqb negb rmap]. rewrite parser_digit_first by exact Hd. reflexivity.
Qed.

Lemma spells_parse : forall s gs, spells (upper s) gs -> parse_expansion_moves s = Ok gs.
Proof.
  intros s gs H. unfold parse_expansion_moves. rewrite replace1_map. unfold re_split.
  rewrite map_length. pose proof (spells_tokens _ _ H (S (length (upper s))) [] (Nat.lt_succ_diag_r _)) as E.
  unfold toks in E. rewrite E; [reflexivity|intros c []|auto].
Qed.

Lemma over_moves_upper : forall s, over_moves s -> forall c, In c (upper s) -> dirletter c \/ countchar c.
Proof.
  intros s H c Hc. unfold upper in Hc. apply in_map_iff in Hc. destruct Hc as (d & <- & Hd).
  destruct (H d Hd) as [H'|H']; [left; exact H'|right].
  assert (Eu : up d = d).
  { destruct H' as [H'| ->]; [|reflexivity]. apply is_digit_range in H'. unfold up, is_lower.
    destruct (N.leb_spec 97 d); [lia|reflexivity]. }
  rewrite Eu. exact H'.
Qed.

Lemma parse_spells : forall s, over_moves s ->
  (forall gs, parse_expansion_moves s = Ok gs <-> spells (upper s) gs)
  /\ (parse_expansion_moves s = Raise ValueError <-> exists c s', s = c :: s' /\ countchar c).
Proof.
  intros s Ho.
  assert (D : (exists c s', s = c :: s' /\ countchar c) \/ (forall c s', upper s = c :: s' -> ~ countchar c)).
  { destruct s as [|c s]; [right; discriminate|].
    destruct (Ho c (or_introl eq_refl)) as [H|H]; [|left; eauto].
    right. intros d s' E. inversion E; subst. apply dirletter_not_count. exact H. }
  destruct D as [D|D].
  - destruct D as (c & s' & -> & Hc). pose proof (count_first_raises c s' Hc) as E. rewrite E. split.
    + intro gs. split; [discriminate|]. intro H. exfalso. apply spells_parse in H. congruence.
    + split; [eauto|reflexivity].
  - destruct (spells_exists (length (upper s)) (upper s) (le_n _) (over_moves_upper s Ho) D) as (gs & Hgs).
    rewrite (spells_parse _ _ Hgs). split.
    + intro gs'. split; [intro E; inversion E; subst; exact Hgs|intro H; apply spells_parse in H].
      rewrite <- H. symmetry. apply spells_parse. exact Hgs.
    + split; [discriminate|]. intros (c & s' & -> & Hc). exfalso.
      pose proof (spells_parse _ _ Hgs) as E.
      rewrite (count_first_raises c s' Hc) in E. discriminate.
Qed.

Lemma parse_raises : forall s e, parse_expansion_moves s = Raise e -> e = ValueError.
Proof.
  intros s e. unfold parse_expansion_moves.
  match goal with |- context [match ?x with Ok _ => _ | Raise _ => _ end = _] => destruct x end; congruence.
Qed.

(** Only letters, counters and newlines are accepted. *)
Lemma split_keeps : forall fuel cur s c, (length s < fuel)%nat -> In c cur \/ In c s ->
  exists v, In v (split_fuel fuel exp_moves_splitter cur s) /\ In c v.
Proof.
  induction fuel as [|fuel IH]; intros cur s c Hl H; [lia|]. cbn [split_fuel].
  destruct (re_rest exp_moves_splitter s) as [s'|] eqn:E.
  - assert (exists a, s = a ++ s') as (a & Ea).
    { destruct (rmatch_inv _ _ _ _ _ _ E) as (s1 & g1 & Hm & Hk). injection Hk as <-. exact (mt_prefix _ _ _ _ _ Hm). }
    assert (length s' < length s)%nat as Hs.
    { rewrite splitter_rest in E. destruct s as [|x [|y s1]]; try discriminate E. destruct (lurd x && is_digit y); [|discriminate E].
      injection E as <-. pose proof (f_equal (@length pychar) (take_drop is_digit s1)) as L. rewrite app_length in L. cbn [length]. lia. }
    replace (between s s') with a by (rewrite Ea; symmetry; apply between_app). rewrite Ea in H. destruct H as [H|H].
    + exists (rev cur). split; [left; reflexivity|]. apply in_rev in H. exact H.
    + apply in_app_or in H. destruct H as [H|H].
      * exists a. split; [right; left; reflexivity|exact H].
      * destruct (IH [] s' c ltac:(lia) (or_intror H)) as (v & Hv & Hc). exists v. split; [right; right; exact Hv|exact Hc].
  - destruct s as [|x s].
    + exists (rev cur). split; [left; reflexivity|]. destruct H as [H|[]]. apply in_rev in H. exact H.
    + cbn [length] in Hl. apply IH; [lia|]. cbn [In] in *. tauto.
Qed.

Lemma token_chars : forall v x c, parse_token v = Ok x -> In c v -> lurd c = true \/ is_digit c = true \/ c = chr "?" \/ c = 10%N.
Proof.
  intros v x c H Hc. unfold parse_token in H. destruct (re_match exp_moves_parser v) as [g|] eqn:E; [clear H|discriminate H].
  destruct (rmatch_inv _ _ _ _ _ _ E) as (s' & g' & Hm & _). unfold exp_moves_parser in Hm. cbn [RSeqs] in Hm.
  inversion Hm as [| |a b s g0 s1 g1 s2 g2 H1 H2| | | | | |]; subst. clear Hm.
  inversion H2 as [| |a b s g0 s5 g4 s6 g5 H6 H7| | | | | |]; subst. clear H2.
  destruct (mt_consumes _ _ _ _ _ H1 eq_refl) as (a & -> & Ha). destruct (mt_consumes _ _ _ _ _ H6 eq_refl) as (b & -> & Hb).
  apply in_app_or in Hc. destruct Hc as [Hc|Hc].
  - left. specialize (Ha c Hc). cbn [consumes RPlus] in Ha. destruct (lurd c); [reflexivity|discriminate Ha].
  - right. apply in_app_or in Hc. destruct Hc as [Hc|Hc].
    + specialize (Hb c Hc). cbn in Hb. destruct (is_digit c); [auto|]. right. left. apply N.eqb_eq.
      destruct (c =? 63)%N eqn:Eq; [exact Eq|]. exfalso. revert Hb. cbn. rewrite ?Eq. discriminate.
    + right. right. inversion H7 as [| | | | | | | |s g0 He]; subst. unfold at_end in He. destruct s' as [|y [|? ?]]; try discriminate He; [destruct Hc|].
      destruct Hc as [<-|[]]. apply N.eqb_eq. exact He.
Qed.

Lemma up_low : forall c, (up c < 65)%N -> up c = c.
Proof.
  intros c. unfold up, is_lower. destruct ((97 <=? c) && (c <=? 122))%N eqn:E; [|reflexivity].
  apply andb_true_iff in E. destruct E as [E _]. apply N.leb_le in E. lia.
Qed.

Lemma parse_chars : forall s gs c, parse_expansion_moves s = Ok gs -> In c s -> dirletter (up c) \/ countchar c \/ c = 10%N.
Proof.
  intros s gs c H Hc. unfold parse_expansion_moves in H.
  set (u := replace1 (chr "?") (lit "1") (upper s)) in *.
  assert (In (q2one (up c)) u) as Hu.
  { unfold u. rewrite replace1_map. unfold upper. rewrite map_map. apply (in_map (fun x => q2one (up x))). exact Hc. }
  destruct (split_keeps (S (length u)) [] u _ ltac:(lia) (or_intror Hu)) as (v & Hv & Hin).
  match type of H with match ?a with Ok _ => _ | Raise _ => _ end = _ => destruct a as [l|] eqn:E; [clear H|discriminate H] end.
  assert (exists x, parse_token v = Ok x) as (x & Hx).
  { assert (forall (l : list pystr) r, rmap parse_token l = Ok r -> In v l -> exists x, parse_token v = Ok x) as X.
    { induction l0 as [|y l0 IH]; intros r Hr Hy; [destruct Hy|]. cbn [rmap] in Hr. destruct (parse_token y) as [z|] eqn:Ey; [|discriminate Hr].
      cbn [rbind] in Hr. destruct (rmap parse_token l0) as [z'|] eqn:El; [|discriminate Hr]. destruct Hy as [<-|Hy]; [eauto|]. eapply IH; [reflexivity|exact Hy]. }
    eapply X; [exact E|]. apply filter_In. split; [exact Hv|]. destruct v; [destruct Hin|reflexivity]. }
  destruct (token_chars v x _ Hx Hin) as [H|[H|[H|H]]]; unfold q2one in H; destruct (N.eqb_spec (up c) (chr "?")) as [Eq|Eq].
  - discriminate H.
  - left. unfold lurd, in_class_ci in H. apply existsb_exists in H. destruct H as (d & Hd & Ed). apply N.eqb_eq in Ed.
    unfold dirletter. cbn in Hd. revert Ed. rewrite up_up. intros ->. cbn. intuition subst; auto.
  - right. left. right. rewrite up_low in Eq by (rewrite Eq; cbn; lia). exact Eq.
  - right. left. left. apply is_digit_range in H as Hr. rewrite up_low in H by lia. exact H.
  - discriminate H.
  - contradiction.
  - discriminate H.
  - right. right. rewrite up_low in H by lia. exact H.
Qed.
