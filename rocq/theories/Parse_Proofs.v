(** * Proofs about the grammar of xl-refs (C27, C28) *)
From Coq Require Import String.
From Verif Require Import PyBase PyBase_Proofs Json Regex Regex_Proofs Coords_Model Coords_Spec Coords_Proofs
  Capture_Model Capture_Spec Parse_Model Parse_Spec.

(** ** The pieces of the expression *)

Ltac inv H := inversion H; subst; clear H.

Lemma existsb_eqb : forall l c, existsb (N.eqb c) l = true <-> In c l.
Proof.
  intros l c. rewrite existsb_exists. split.
  - intros (x & Hx & E). apply N.eqb_eq in E. subst. exact Hx.
  - intros H. exists c. split; [exact H|]. apply N.eqb_refl.
Qed.

Lemma gl_one : forall cs t h, gl (r_one cs) t h <-> exists c, t = [c] /\ In c (lit cs) /\ h = [].
Proof.
  intros cs t h. unfold r_one. cbn [gl]. unfold in_class.
  split; intros (c & H & E & H'); exists c; (repeat split; auto); apply existsb_eqb; exact E.
Qed.

Definition specials (dot : bool) : string := if dot then "_^."%string else "_^"%string.

Lemma gl_symbol : forall dot t h, gl (r_one (specials dot)) t h <-> symbol_text dot t /\ h = [].
Proof.
  intros dot t h. rewrite gl_one. unfold symbol_text, specials. split.
  - intros (c & -> & H & ->). split; [|reflexivity]. destruct dot; cbn in H;
      repeat (destruct H as [<-|H]; [auto|]); destruct H.
  - intros [H ->]. destruct H as [->|[->|[-> ->]]];
      [exists 94%N|exists 95%N|exists 46%N]; (split; [reflexivity|]); (split; [|reflexivity]);
      try destruct dot; cbn; auto.
Qed.

Lemma gl_int : forall t h, gl r_int t h <-> number_text t /\ h = [].
Proof.
  intros t h. unfold r_int, number_text. cbn [gl]. split.
  - intros (u & v & hu & hv & -> & -> & (c & -> & E & ->) & (Hd & ->)). split; [|reflexivity].
    exists c, v. split; [reflexivity|]. split; [|exact Hd]. unfold is_19 in E.
    apply andb_true_iff in E. destruct E as [E1 E2]. apply N.leb_le in E1, E2. split; assumption.
  - intros [(d & u & -> & [E1 E2] & Hu) ->]. exists [d], u, [], []. repeat split; auto.
    exists d. repeat split. unfold is_19. apply N.leb_le in E1, E2. rewrite E1, E2. reflexivity.
Qed.

Lemma gl_letters : forall t h, gl (RPlus is_letter) t h <-> letters t /\ h = [].
Proof.
  intros t h. unfold RPlus, is_letter, letters. cbn [gl]. split.
  - intros (u & v & hu & hv & -> & -> & (c & -> & E & ->) & (Hd & ->)). split; [|reflexivity].
    split; [discriminate|]. intros d [<-|Hi]; auto.
  - intros [[Hn Ha] ->]. destruct t as [|c v]; [contradiction|]. exists [c], v, [], []. repeat split; auto.
    + exists c. repeat split. apply Ha. left. reflexivity.
    + intros d Hi. apply Ha. right. exact Hi.
Qed.

Lemma gl_a1 : forall n dot t h, gl (r_a1 n (specials dot)) t h <->
  exists col row, t = col ++ row /\ h = [(g_row n, row); (g_col n, col)]
    /\ (letters col \/ symbol_text dot col) /\ (number_text row \/ symbol_text dot row).
Proof.
  intros n dot t h. unfold r_a1. cbn [gl]. split.
  - intros (col & row & hu & hv & -> & -> & (h1 & -> & H1) & (h2 & -> & H2)). exists col, row.
    rewrite gl_letters, gl_symbol in H1. rewrite gl_int, gl_symbol in H2.
    destruct H1 as [[H1 ->]|[H1 ->]]; destruct H2 as [[H2 ->]|[H2 ->]]; repeat split; auto.
  - intros (col & row & -> & -> & H1 & H2). exists col, row, [(g_col n, col)], [(g_row n, row)]. repeat split.
    + exists []. split; [reflexivity|]. rewrite gl_letters, gl_symbol. tauto.
    + exists []. split; [reflexivity|]. rewrite gl_int, gl_symbol. tauto.
Qed.

Lemma gl_lit1 : forall c t h, gl (RChr (fun d => (d =? c)%N)) t h <-> t = [c] /\ h = [].
Proof.
  intros c t h. cbn [gl]. split.
  - intros (d & -> & E & ->). apply N.eqb_eq in E. subst. auto.
  - intros [-> ->]. exists c. rewrite N.eqb_refl. auto.
Qed.

Lemma gl_rc_coord : forall t h, gl (RAlt (RSeq (ROpt (RLit "-")) r_int) (r_one "_^.")) t h <-> rc_text t /\ h = [].
Proof.
  intros t h. change (gl (RAlt (RSeq (ROpt (RLit "-")) r_int) (r_one "_^.")) t h)
    with (gl (RSeq (ROpt (RLit "-")) r_int) t h \/ gl (r_one (specials true)) t h).
  rewrite gl_symbol. unfold rc_text. split.
  - intros [H|[H ->]]; [|auto].
    change (exists u v hu hv, t = u ++ v /\ h = hv ++ hu /\ (gl (RChr (fun d => (d =? chr "-")%N)) u hu \/ (u = [] /\ hu = [])) /\ gl r_int v hv) in H.
    destruct H as (u & v & hu & hv & -> & -> & Hu & Hv). rewrite gl_int in Hv. destruct Hv as [Hv ->].
    rewrite gl_lit1 in Hu. destruct Hu as [[-> ->]|[-> ->]]; split; auto. right. left. exists v. auto.
  - intros [[H|[(u & -> & H)|H]] ->]; [left|left|right; auto].
    + exists [], t, [], []. repeat split; [right; split; reflexivity|]. apply gl_int. auto.
    + exists (lit "-"), u, [], []. repeat split; [left|].
      * apply gl_lit1. auto.
      * apply gl_int. auto.
Qed.

Lemma up_chr : forall c t h d, up d = d -> (gl (RChr (fun c => (up c =? up d)%N)) t h -> exists c, t = [c] /\ up c = d /\ h = [])
  /\ (t = [c] -> up c = d -> h = [] -> gl (RChr (fun c => (up c =? up d)%N)) t h).
Proof.
  intros c t h d Hd. split.
  - cbn [gl]. intros (x & -> & E & ->). exists x. apply N.eqb_eq in E. rewrite Hd in E. auto.
  - intros -> E ->. cbn [gl]. exists c. rewrite Hd, E, N.eqb_refl. auto.
Qed.

Lemma gl_rc : forall n t h, gl (r_rc n) t h <->
  exists r c row col, t = [r] ++ row ++ [c] ++ col /\ h = [(g_col2 n, col); (g_row2 n, row)]
    /\ up r = chr "R" /\ up c = chr "C" /\ rc_text row /\ rc_text col.
Proof.
  intros n t h. unfold r_rc. cbn [RSeqs]. split.
  - intros (u & v & hu & hv & -> & -> & H1 & u2 & v2 & hu2 & hv2 & -> & -> & (h2 & -> & H2) & u3 & v3 & hu3 & hv3 & -> & -> & H3 & (h4 & -> & H4)).
    apply (proj1 (up_chr 0%N u hu (chr "R") eq_refl)) in H1. destruct H1 as (r & -> & E1 & ->).
    apply (proj1 (up_chr 0%N u3 hu3 (chr "C") eq_refl)) in H3. destruct H3 as (c & -> & E3 & ->).
    apply gl_rc_coord in H2, H4. destruct H2 as [H2 ->], H4 as [H4 ->].
    exists r, c, u2, v3. repeat split; auto.
  - intros (r & c & row & col & -> & -> & E1 & E3 & H2 & H4).
    exists [r], (row ++ [c] ++ col), [], [(g_col2 n, col); (g_row2 n, row)]. repeat split.
    { apply (proj2 (up_chr r [r] [] (chr "R") eq_refl)); auto. }
    exists row, ([c] ++ col), [(g_row2 n, row)], [(g_col2 n, col)]. repeat split.
    { exists []. split; [reflexivity|]. apply gl_rc_coord. auto. }
    exists [c], col, [], [(g_col2 n, col)]. repeat split.
    { apply (proj2 (up_chr c [c] [] (chr "C") eq_refl)); auto. }
    exists []. split; [reflexivity|]. apply gl_rc_coord. auto.
Qed.

(** ** Moves *)

Definition all_moves : list (list dir) :=
  [[dL]; [dU]; [dR]; [dD]; [dL; dD]; [dL; dU]; [dU; dL]; [dU; dR]; [dR; dU]; [dR; dD]; [dD; dL]; [dD; dR]].

Lemma all_moves_good : forall ds, In ds all_moves <-> good_moves ds.
Proof.
  intros ds. split.
  - cbn. intros H. repeat (destruct H as [<-|H]; [constructor; unfold perpendicular, vertical; intuition discriminate|]). destruct H.
  - intros H. inversion H as [a|a b Hp]; subst; [destruct a; cbn; tauto|].
    destruct a, b; try (exfalso; unfold perpendicular, vertical in Hp; intuition discriminate); cbn; tauto.
Qed.

Lemma gl_alts : forall A (f : A -> re) l t h, gl (RAlts (map f l)) t h <-> exists a, In a l /\ gl (f a) t h.
Proof.
  induction l as [|a l IH]; intros t h.
  - cbn. split; [intros (c & _ & E & _); discriminate|intros (a & [] & _)].
  - destruct l as [|b l].
    + cbn [map RAlts]. split; [intros H; exists a; split; [left; reflexivity|exact H]|].
      intros (x & [<-|[]] & H). exact H.
    + change (gl (RAlts (map f (a :: b :: l))) t h) with (gl (f a) t h \/ gl (RAlts (map f (b :: l))) t h).
      rewrite IH. split.
      * intros [H|(x & Hx & H)]; [exists a; split; [left; reflexivity|exact H]|].
        exists x. split; [right; exact Hx|exact H].
      * intros (x & [<-|Hx] & H); [left; exact H|right; eauto].
Qed.

Lemma gl_lit_ci : forall ds t h, ds <> [] ->
  gl (RSeqs (map (fun d => RChr (fun c => (up c =? up (dir_letter d))%N)) ds)) t h <-> upper t = moves_text ds /\ h = [].
Proof.
  induction ds as [|d ds IH]; intros t h Hn; [contradiction|].
  assert (up (dir_letter d) = dir_letter d) as Hu by (destruct d; reflexivity).
  destruct ds as [|d' ds].
  - cbn [map RSeqs]. split.
    + intros H. apply (proj1 (up_chr 0%N t h _ Hu)) in H. destruct H as (c & -> & E & ->). cbn. rewrite E. auto.
    + intros [H ->]. destruct t as [|c [|]]; try discriminate H. cbn in H. injection H as E.
      apply (proj2 (up_chr c [c] [] _ Hu)); auto.
  - change (gl (RSeqs (map (fun d => RChr (fun c => (up c =? up (dir_letter d))%N)) (d :: d' :: ds))) t h)
      with (exists u v hu hv, t = u ++ v /\ h = hv ++ hu /\ gl (RChr (fun c => (up c =? up (dir_letter d))%N)) u hu
              /\ gl (RSeqs (map (fun d => RChr (fun c => (up c =? up (dir_letter d))%N)) (d' :: ds))) v hv).
    split.
    + intros (u & v & hu & hv & -> & -> & H1 & H2). apply (proj1 (up_chr 0%N u hu _ Hu)) in H1.
      destruct H1 as (c & -> & E & ->). apply (IH v hv ltac:(discriminate)) in H2. destruct H2 as [H2 ->].
      split; [|reflexivity]. cbn [app]. unfold upper in *. cbn [map]. rewrite E, H2. reflexivity.
    + intros [H ->]. destruct t as [|c v]; [discriminate H|]. unfold upper, moves_text in H. cbn [map] in H. injection H as E H.
      exists [c], v, [], []. repeat split.
      * apply (proj2 (up_chr c [c] [] _ Hu)); auto.
      * apply IH; [discriminate|]. split; [exact H|reflexivity].
Qed.

Lemma upper_moves : forall ds, upper (moves_text ds) = moves_text ds.
Proof. intros ds. unfold upper, moves_text. rewrite map_map. apply map_ext. intros []; reflexivity. Qed.

Lemma gl_moves : forall t h, gl r_moves t h <-> (exists ds, good_moves ds /\ same_letters t (moves_text ds)) /\ h = [].
Proof.
  intros t h.
  change (gl r_moves t h) with (gl (RAlts (map (fun ds => RSeqs (map (fun d => RChr (fun c => (up c =? up (dir_letter d))%N)) ds)) all_moves)) t h).
  rewrite gl_alts. unfold same_letters. split.
  - intros (ds & Hi & H). assert (ds <> []) as Hn by (intros ->; cbn in Hi; intuition discriminate).
    apply gl_lit_ci in H; [|exact Hn]. destruct H as [H ->]. split; [|reflexivity].
    exists ds. rewrite upper_moves. split; [apply all_moves_good; exact Hi|exact H].
  - intros [(ds & Hg & H) ->]. exists ds. apply all_moves_good in Hg. split; [exact Hg|].
    assert (ds <> []) as Hn by (intros ->; cbn in Hg; intuition discriminate).
    apply gl_lit_ci; [exact Hn|]. rewrite upper_moves in H. auto.
Qed.

(** ** Edges *)

(** The groups that describe a landing cell and moves. *)
Inductive cell_groups (n : gnames) : groups -> cell -> Prop :=
| Cg_a1 : forall row col, row <> [] -> col <> [] ->
    cell_groups n [(g_row n, row); (g_col n, col)] (Cell (CStr (upper row)) (CStr (upper col)))
| Cg_rc : forall row col, row <> [] -> col <> [] ->
    cell_groups n [(g_col2 n, col); (g_row2 n, row)] (Cell (CStr (upper row)) (CStr (upper col))).
Inductive edge_groups (n : gnames) : groups -> edge -> Prop :=
| Eg_plain : forall h c, cell_groups n h c -> edge_groups n h (Edge c None None)
| Eg_mov : forall h c mv, cell_groups n h c -> edge_groups n ((g_mov n, mv) :: h) (Edge c (Some (upper mv)) None)
| Eg_mod : forall h c mv md, cell_groups n h c ->
    edge_groups n ((g_mod n, md) :: (g_mov n, mv) :: h) (Edge c (Some (upper mv)) (Some md)).

Lemma upper_nonletters : forall s, (forall c, In c s -> is_alpha c = false) -> upper s = s.
Proof.
  induction s as [|c s IH]; intros H; [reflexivity|]. change (upper (c :: s)) with (up c :: upper s). rewrite IH by (intros d Hd; apply H; right; exact Hd).
  f_equal. pose proof (H c (or_introl eq_refl)) as Hc. unfold is_alpha in Hc. apply orb_false_iff in Hc.
  unfold up. rewrite (proj2 Hc). reflexivity.
Qed.

Lemma digit_nonalpha : forall c, is_digit c = true -> is_alpha c = false.
Proof.
  intros c H. unfold is_digit in H. apply andb_true_iff in H. destruct H as [H1 H2]. apply N.leb_le in H1, H2.
  unfold is_alpha, is_upper, is_lower. apply orb_false_iff. split; apply andb_false_iff; left; apply N.leb_gt; lia.
Qed.

Lemma d19_digit : forall d, (49 <= d <= 57)%N -> is_digit d = true.
Proof. intros d H. unfold is_digit. apply andb_true_iff. split; apply N.leb_le; lia. Qed.

Lemma number_digits : forall s, number_text s -> s <> [] /\ only_of is_digit s.
Proof.
  intros s (d & t & -> & Hd & Ht). split; [discriminate|]. intros c [<-|Hi]; [apply d19_digit; exact Hd|auto].
Qed.
Lemma number_nonalpha : forall s, number_text s -> s <> [] /\ forall c, In c s -> is_alpha c = false.
Proof.
  intros s H. apply number_digits in H. destruct H as [Hn Ht]. split; [exact Hn|].
  intros c Hc. apply digit_nonalpha. auto.
Qed.
Lemma symbol_nonalpha : forall dot s, symbol_text dot s -> s <> [] /\ forall c, In c s -> is_alpha c = false.
Proof.
  intros dot s [->|[->|[_ ->]]]; (split; [discriminate|]); intros c [<-|[]]; reflexivity.
Qed.
Lemma rc_nonalpha : forall s, rc_text s -> s <> [] /\ forall c, In c s -> is_alpha c = false.
Proof.
  intros s [H|[(t & -> & H)|H]].
  - apply number_nonalpha. exact H.
  - split; [discriminate|]. intros c [<-|Hi]; [reflexivity|]. apply (proj2 (number_nonalpha t H)). exact Hi.
  - eapply symbol_nonalpha. exact H.
Qed.
Lemma row_nonalpha : forall dot s, number_text s \/ symbol_text dot s -> s <> [] /\ forall c, In c s -> is_alpha c = false.
Proof. intros dot s [H|H]; [apply number_nonalpha|eapply symbol_nonalpha]; exact H. Qed.
Lemma col_nonempty : forall dot s, letters s \/ symbol_text dot s -> s <> [].
Proof. intros dot s [[H _]|H]; [exact H|]. apply (symbol_nonalpha dot s H). Qed.

Lemma cg_a1 : forall n row col, row <> [] -> col <> [] -> (forall c, In c row -> is_alpha c = false) ->
  cell_groups n [(g_row n, row); (g_col n, col)] (Cell (CStr row) (CStr (upper col))).
Proof.
  intros n row col Hr Hc Ha. pose proof (Cg_a1 n row col Hr Hc) as H. rewrite (upper_nonletters row Ha) in H. exact H.
Qed.
Lemma cg_rc : forall n row col, row <> [] -> col <> [] -> (forall c, In c row -> is_alpha c = false) ->
  (forall c, In c col -> is_alpha c = false) ->
  cell_groups n [(g_col2 n, col); (g_row2 n, row)] (Cell (CStr row) (CStr col)).
Proof.
  intros n row col Hr Hc Ha Hb. pose proof (Cg_rc n row col Hr Hc) as H.
  rewrite (upper_nonletters row Ha), (upper_nonletters col Hb) in H. exact H.
Qed.

Lemma gl_target : forall n dot t h, gl (r_target n (specials dot)) t h ->
  exists c, cell_text dot t c /\ cell_groups n h c.
Proof.
  intros n dot t h [H|H].
  - apply gl_a1 in H. destruct H as (col & row & -> & -> & H1 & H2).
    destruct (row_nonalpha _ _ H2) as [Hr Hr']. eexists. split; [constructor; eassumption|].
    apply cg_a1; auto. eapply col_nonempty. exact H1.
  - apply gl_rc in H. destruct H as (r & c & row & col & -> & -> & E1 & E2 & H1 & H2).
    destruct (rc_nonalpha _ H1) as [Hr Hr']. destruct (rc_nonalpha _ H2) as [Hc Hc'].
    eexists. split; [constructor; eassumption|]. apply cg_rc; auto.
Qed.

Lemma target_gl : forall n dot t c, cell_text dot t c -> exists h, gl (r_target n (specials dot)) t h /\ cell_groups n h c.
Proof.
  intros n dot t c H. inversion H as [col row H1 H2|r c' row col E1 E2 H1 H2]; subst.
  - destruct (row_nonalpha _ _ H2) as [Hr Hr']. exists [(g_row n, row); (g_col n, col)]. split.
    + left. apply gl_a1. exists col, row. auto.
    + apply cg_a1; auto. eapply col_nonempty. exact H1.
  - destruct (rc_nonalpha _ H1) as [Hr Hr']. destruct (rc_nonalpha _ H2) as [Hc Hc'].
    exists [(g_col2 n, col); (g_row2 n, row)]. split.
    + right. apply gl_rc. exists r, c', row, col. repeat split; auto.
    + apply cg_rc; auto.
Qed.

Definition mov_groups n mv (o : option pystr) : groups :=
  match o with Some md => [(g_mod n, md); (g_mov n, mv)] | None => [(g_mov n, mv)] end.

Lemma gl_mov : forall n t h, gl (r_mov n) t h <->
  (t = [] /\ h = []) \/
  exists ds mv md o, good_moves ds /\ same_letters mv (moves_text ds) /\ modifier_text o md
    /\ t = lit "(" ++ mv ++ md ++ lit ")" /\ h = mov_groups n mv o.
Proof.
  intros n t h.
  change (gl (r_mov n) t h) with
    ((exists u v hu hv, t = u ++ v /\ h = hv ++ hu /\ gl (RChr (fun c => (c =? chr "(")%N)) u hu /\
       exists u2 v2 hu2 hv2, v = u2 ++ v2 /\ hv = hv2 ++ hu2 /\ (exists h', hu2 = (g_mov n, u2) :: h' /\ gl r_moves u2 h') /\
       exists u3 v3 hu3 hv3, v2 = u3 ++ v3 /\ hv2 = hv3 ++ hu3
         /\ ((exists h', hu3 = (g_mod n, u3) :: h' /\ gl (r_one "+?") u3 h') \/ (u3 = [] /\ hu3 = []))
         /\ gl (RChr (fun c => (c =? chr ")")%N)) v3 hv3)
     \/ (t = [] /\ h = [])).
  split.
  - intros [H|H]; [right|left; exact H].
    destruct H as (u & v & hu & hv & -> & -> & H1 & u2 & v2 & hu2 & hv2 & -> & -> & (h' & -> & H2) & u3 & v3 & hu3 & hv3 & -> & -> & H3 & H4).
    apply gl_lit1 in H1, H4. destruct H1 as [-> ->], H4 as [-> ->]. apply gl_moves in H2.
    destruct H2 as [(ds & Hg & Hs) ->]. destruct H3 as [(h3 & -> & H3)|[-> ->]].
    + apply gl_one in H3. destruct H3 as (c & -> & Hc & ->).
      exists ds, u2, [c], (Some [c]). repeat split; auto. right. split; [reflexivity|].
      destruct Hc as [<-|[<-|[]]]; auto.
    + exists ds, u2, [], None. repeat split; auto. left. auto.
  - intros [H|(ds & mv & md & o & Hg & Hs & Hm & -> & ->)]; [right; exact H|left].
    exists (lit "("), (mv ++ md ++ lit ")"), [], (mov_groups n mv o). repeat split.
    { destruct o; reflexivity. }
    { apply gl_lit1. auto. }
    exists mv, (md ++ lit ")"), [(g_mov n, mv)], (match o with Some md => [(g_mod n, md)] | None => [] end). repeat split.
    { destruct o; reflexivity. }
    { exists []. split; [reflexivity|]. apply gl_moves. eauto. }
    exists md, (lit ")"), (match o with Some md => [(g_mod n, md)] | None => [] end), []. repeat split.
    { destruct Hm as [[-> ->]|[-> [-> | ->]]]; [right; auto|left|left]; exists []; (split; [reflexivity|]);
        apply gl_one; eexists; (split; [reflexivity|]); cbn; auto. }
    { apply gl_lit1. auto. }
Qed.

Lemma gl_edge : forall n dot t h, gl (r_edge n (specials dot)) t h ->
  exists oe, opt_text (edge_text dot) t oe /\ match oe with Some e => edge_groups n h e | None => h = [] end.
Proof.
  intros n dot t h [H|[-> ->]]; [|exists None; split; reflexivity].
  destruct H as (u & v & hu & hv & -> & -> & H1 & H2). apply gl_target in H1. destruct H1 as (c & Hc & Hh).
  apply gl_mov in H2. destruct H2 as [[-> ->]|(ds & mv & md & o & Hg & Hs & Hm & -> & ->)].
  - exists (Some (Edge c None None)). rewrite app_nil_r. split; constructor; assumption.
  - exists (Some (Edge c (Some (moves_text ds)) o)). split; [econstructor; eassumption|].
    unfold same_letters in Hs. rewrite upper_moves in Hs. rewrite <- Hs.
    destruct o as [md'|]; constructor; assumption.
Qed.

Lemma edge_gl : forall n dot t oe, opt_text (edge_text dot) t oe -> exists h, gl (r_edge n (specials dot)) t h
  /\ match oe with Some e => edge_groups n h e | None => h = [] end.
Proof.
  intros n dot t [e|] H; [|cbn in H; subst; exists []; split; [right; split; reflexivity|reflexivity]].
  cbn [opt_text] in H. inversion H as [t' c Hc|t' c ds mv md o Hc Hg Hs Hm]; subst.
  - destruct (target_gl n dot t c Hc) as (h & Hh & Hcg). exists h. split; [|constructor; exact Hcg].
    left. exists t, [], h, []. rewrite app_nil_r. repeat split; [exact Hh|]. apply gl_mov. auto.
  - destruct (target_gl n dot t' c Hc) as (h & Hh & Hcg). exists (mov_groups n mv o ++ h). split.
    + left. exists t', (lit "(" ++ mv ++ md ++ lit ")"), h, (mov_groups n mv o). repeat split; [exact Hh|].
      apply gl_mov. right. exists ds, mv, md, o. auto.
    + unfold same_letters in Hs. rewrite upper_moves in Hs. rewrite <- Hs. destruct o; constructor; exact Hcg.
Qed.

(** ** The part before the filters *)

Inductive head_text : pystr -> option edge -> bool -> option edge -> option pystr -> Prop :=
| Ht_one : forall t st, opt_text (edge_text false) t st -> head_text t st false None None
| Ht_two : forall t st b nd em, opt_text (edge_text false) t st -> second_text b nd em -> head_text (t ++ b) st true nd em.

Definition opt_groups n h (oe : option edge) : Prop :=
  match oe with Some e => edge_groups n h e | None => h = [] end.
Definition exp_groups (em : option pystr) : groups := match em with Some m => [("exp_moves"%string, m)] | None => [] end.
Inductive head_groups : groups -> option edge -> bool -> option edge -> option pystr -> Prop :=
| Hg_one : forall h st, opt_groups st_names h st -> head_groups h st false None None
| Hg_two : forall h st h' nd em, opt_groups st_names h st -> opt_groups nd_names h' nd ->
    head_groups ((exp_groups em ++ h' ++ [("colon"%string, lit ":")]) ++ h) st true nd em.

Definition r_head : re := RSeq (r_edge st_names "_^") r_second.

Lemma in_ci : forall c, in_class_ci (lit "LURD?123456789") c = exp_char c.
Proof.
  intros c. unfold in_class_ci, exp_char.
  generalize (up c). intros d. reflexivity.
Qed.

Lemma gl_exp : forall t h, gl r_exp t h <-> exists em, opt_text exp_text t em /\ h = exp_groups em.
Proof.
  intros t h.
  change (gl r_exp t h) with ((exists u v hu hv, t = u ++ v /\ h = hv ++ hu /\ gl (RChr (fun c => (c =? chr ":")%N)) u hu /\
     exists h', hv = ("exp_moves"%string, v) :: h' /\ exists u2 v2 hu2 hv2, v = u2 ++ v2 /\ h' = hv2 ++ hu2
      /\ (exists c, u2 = [c] /\ in_class_ci (lit "LURD?123456789") c = true /\ hu2 = [])
      /\ ((forall c, In c v2 -> in_class_ci (lit "LURD?123456789") c = true) /\ hv2 = [])) \/ (t = [] /\ h = [])).
  split.
  - intros [H|[-> ->]]; [|exists None; split; reflexivity].
    destruct H as (u & v & hu & hv & -> & -> & H1 & h' & -> & u2 & v2 & hu2 & hv2 & -> & -> & (c & -> & Hc & ->) & Hv & ->).
    apply gl_lit1 in H1. destruct H1 as [-> ->]. exists (Some (c :: v2)). split; [|reflexivity].
    cbn [opt_text]. split; [reflexivity|]. split; [discriminate|]. rewrite in_ci in Hc.
    intros d [<-|Hd]; [exact Hc|]. rewrite <- in_ci. auto.
  - intros (em & H & ->). destruct em as [m|]; [left|right; auto]. destruct H as (-> & Hn & Ho).
    destruct m as [|c m]; [contradiction|]. exists (lit ":"), (c :: m), [], [("exp_moves"%string, c :: m)]. repeat split.
    { apply gl_lit1. auto. }
    exists []. split; [reflexivity|]. exists [c], m, [], []. repeat split.
    { exists c. repeat split. rewrite in_ci. apply Ho. left. reflexivity. }
    { intros d Hd. rewrite in_ci. apply Ho. right. exact Hd. }
Qed.

Lemma gl_head : forall t h, gl r_head t h ->
  exists st colon nd em, head_text t st colon nd em /\ head_groups h st colon nd em.
Proof.
  intros t h (u & v & hu & hv & -> & -> & H1 & H2). apply (gl_edge _ false) in H1. destruct H1 as (st & Hs & Hg).
  destruct H2 as [H2|[-> ->]]; [|exists st, false, None, None; rewrite app_nil_r; split; constructor; assumption].
  destruct H2 as (u2 & v2 & hu2 & hv2 & -> & -> & (h' & -> & H2) & u3 & v3 & hu3 & hv3 & -> & -> & H3 & H4).
  apply gl_lit1 in H2. destruct H2 as [-> ->]. apply (gl_edge _ true) in H3. destruct H3 as (nd & Hn & Hng).
  apply gl_exp in H4. destruct H4 as (em & He & ->).
  exists st, true, nd, em. split.
  - constructor; [exact Hs|]. constructor; assumption.
  - pose proof (Hg_two hu st hu3 nd em Hg Hng) as G. rewrite (app_assoc (exp_groups em)) in G. exact G.
Qed.

Lemma head_gl : forall t st colon nd em, head_text t st colon nd em -> exists h, gl r_head t h.
Proof.
  intros t st colon nd em H. inversion H as [t' st' H1|t' st' b nd' em' H1 H2]; subst.
  - destruct (edge_gl st_names _ _ _ H1) as (h & Hh & _). exists h, t, [], h, []. rewrite app_nil_r. repeat split; [exact Hh|].
    right. split; reflexivity.
  - destruct (edge_gl st_names _ _ _ H1) as (h & Hh & _). inversion H2 as [t nd' u em' Hn He]; subst.
    destruct (edge_gl nd_names _ _ _ Hn) as (h2 & Hh2 & _).
    exists ((exp_groups em ++ h2 ++ [("colon"%string, lit ":")]) ++ h), t', (lit ":" ++ t ++ u), h, (exp_groups em ++ h2 ++ [("colon"%string, lit ":")]).
    repeat split; [exact Hh|]. left. exists (lit ":"), (t ++ u), [("colon"%string, lit ":")], (exp_groups em ++ h2). repeat split.
    { rewrite <- app_assoc. reflexivity. }
    { exists []. split; [reflexivity|]. apply gl_lit1. auto. }
    exists t, u, h2, (exp_groups em). repeat split; [exact Hh2|]. apply gl_exp. eauto.
Qed.

(** ** The end of the text *)

Definition filt_groups (f : option pystr) : groups := match f with Some t => [("js_filt"%string, t)] | None => [] end.
Definition fin {X} (f : groups -> X) (s : pystr) (g : groups) : option X := Some (f g).

Definition is_filt (c : pychar) : bool := (c =? 123)%N || (c =? 34)%N || (c =? 91)%N.
Lemma filt_start : forall c, is_filt c = filter_start c.
Proof.
  intros c. unfold is_filt, filter_start. cbn. rewrite orb_false_r.
  destruct (c =? 123)%N, (c =? 34)%N, (c =? 91)%N; reflexivity.
Qed.
Lemma filter_start_inv : forall c, filter_start c = true -> c = chr "{" \/ c = chr "[" \/ c = 34%N.
Proof. intros c H. apply existsb_eqb in H. destruct H as [<-|[<-|[<-|[]]]]; auto. Qed.

Lemma rmatch_filt : forall X (k : pystr -> groups -> option X) s g,
  rmatch r_filt s g k =
  match (match s with
         | c :: s' => if (c =? chr ":")%N then
             star is_space (fun s2 => match s2 with
               | d :: s3 => if is_filt d then star (fun _ => true) (fun s4 => k s4 (("js_filt"%string, between s2 s4) :: g)) s3 else None
               | [] => None end) s'
             else None
         | [] => None end) with Some x => Some x | None => k s g end.
Proof. intros X k s g. reflexivity. Qed.

Lemma tail_match : forall s f g, tail_text s f ->
  rmatch (RSeq r_filt REnd) s g (fun _ g => Some g) = Some (filt_groups f ++ g).
Proof.
  intros s f g H. change (rmatch r_filt s g (fun s' g' => rmatch REnd s' g' (fun _ g => Some g)) = Some (filt_groups f ++ g)).
  rewrite rmatch_filt. inversion H as [| |sp c t Hsp Hc]; subst; [reflexivity..|].
  change (lit ":" ++ sp ++ c :: t) with (chr ":" :: sp ++ c :: t). cbv iota. rewrite N.eqb_refl. rewrite <- filt_start in Hc.
  erewrite star_first; [reflexivity|exact Hsp| |].
  - intros d b' E. injection E as <- _. rewrite filt_start in Hc. apply filter_start_inv in Hc.
    destruct Hc as [->|[->| ->]]; reflexivity.
  - cbv beta. rewrite Hc. rewrite <- (app_nil_r t) at 1. erewrite star_first; [reflexivity|reflexivity|discriminate|].
    cbn [rmatch at_end]. rewrite <- (app_nil_r (c :: t)) at 1. rewrite between_app. reflexivity.
Qed.

Lemma tail_inv : forall s g x, rmatch (RSeq r_filt REnd) s g (fun _ g => Some g) = Some x ->
  exists f, tail_text s f /\ x = filt_groups f ++ g.
Proof.
  intros s g x H. assert (exists f, tail_text s f) as [f Hf].
  { change (rmatch r_filt s g (fun s' g' => rmatch REnd s' g' (fun _ g => Some g)) = Some x) in H.
    rewrite rmatch_filt in H.
    match type of H with match ?u with _ => _ end = _ => destruct u as [y|] eqn:E end.
    - destruct s as [|c s]; [discriminate|]. destruct (c =? chr ":")%N eqn:Ec; [|discriminate]. apply N.eqb_eq in Ec. subst c.
      apply star_inv in E. destruct E as (sp & [|d s3] & -> & Hsp & E); [discriminate|].
      destruct (is_filt d) eqn:Ed; [|discriminate]. rewrite filt_start in Ed.
      exists (Some (d :: s3)). apply (Tt_filters sp d s3); assumption.
    - cbn [rmatch] in H. destruct (at_end s) eqn:Ea; [|discriminate].
      destruct s as [|c [|]]; [exists None; constructor| |discriminate]. cbn in Ea. apply N.eqb_eq in Ea. subst c.
      exists None. constructor. }
  exists f. split; [exact Hf|]. rewrite (tail_match s f g Hf) in H. injection H as <-. reflexivity.
Qed.

(** ** There is one way to read a text *)

Lemma app_split : forall f a b a' b', only_of f a -> only_of f a' ->
  (forall c t, b = c :: t -> f c = false) -> (forall c t, b' = c :: t -> f c = false) ->
  a ++ b = a' ++ b' -> a = a' /\ b = b'.
Proof.
  intros f a b a' b' Ha Ha' Hb Hb' E. destruct (take_drop_app f a b Ha Hb) as [T D].
  destruct (take_drop_app f a' b' Ha' Hb') as [T' D']. rewrite E in T, D. split; congruence.
Qed.

Lemma head_false : forall f (P : pystr), (forall c t, P = c :: t -> f c = true) -> forall c t, P = c :: t -> negb (f c) = false.
Proof. intros f P H c t E. rewrite (H c t E). reflexivity. Qed.

(** Characters of edges. *)
Definition cell_char (c : pychar) : bool := is_alpha c || is_digit c || existsb (N.eqb c) (lit "_^.-").
Definition edge_char (c : pychar) : bool := cell_char c || existsb (N.eqb c) (lit "(+?)").
Definition brk (c : pychar) : bool := (c =? chr ":")%N || (c =? 10)%N.

Lemma number_chars : forall s, number_text s -> only_of cell_char s.
Proof.
  intros s H c Hc. apply number_digits in H. unfold cell_char. rewrite (proj2 H c Hc), orb_true_r. reflexivity.
Qed.
Lemma symbol_chars : forall dot s, symbol_text dot s -> only_of cell_char s.
Proof. intros dot s [->|[->|[_ ->]]] c [<-|[]]; reflexivity. Qed.
Lemma letters_chars : forall s, letters s -> only_of cell_char s.
Proof. intros s [_ H] c Hc. unfold cell_char. rewrite (H c Hc). reflexivity. Qed.
Lemma rc_chars : forall s, rc_text s -> only_of cell_char s.
Proof.
  intros s [H|[(t & -> & H)|H]]; [apply number_chars, H| |eapply symbol_chars, H].
  intros c [<-|Hc]; [reflexivity|]. apply (number_chars t H). exact Hc.
Qed.
Lemma up_alpha : forall c d, up c = d -> is_upper d = true -> is_alpha c = true.
Proof.
  intros c d E H. unfold is_alpha. unfold up in E. destruct (is_lower c); [apply orb_true_r|]. subst. rewrite H. reflexivity.
Qed.

Lemma only_app : forall f a b, only_of f a -> only_of f b -> only_of f (a ++ b).
Proof. intros f a b Ha Hb c Hc. apply in_app_or in Hc. destruct Hc; auto. Qed.
Lemma only_imp : forall (f g : pychar -> bool) a, (forall c, f c = true -> g c = true) -> only_of f a -> only_of g a.
Proof. intros f g a H Ha c Hc. auto. Qed.
Lemma only_one : forall (f : pychar -> bool) c, f c = true -> only_of f [c].
Proof. intros f c H d [<-|[]]. exact H. Qed.

Lemma cell_chars : forall dot t c, cell_text dot t c -> t <> [] /\ only_of cell_char t.
Proof.
  intros dot t c H. inversion H as [col row H1 H2|r c' row col E1 E2 H1 H2]; subst.
  - split.
    + intros E. apply app_eq_nil in E. apply (col_nonempty dot col H1), E.
    + apply only_app.
      * destruct H1 as [H1|H1]; [apply letters_chars|eapply symbol_chars]; exact H1.
      * destruct H2 as [H2|H2]; [apply number_chars|eapply symbol_chars]; exact H2.
  - split; [discriminate|]. apply only_app; [|apply only_app; [|apply only_app]].
    + apply only_one. unfold cell_char. rewrite (up_alpha _ _ E1 eq_refl). reflexivity.
    + apply rc_chars, H1.
    + apply only_one. unfold cell_char. rewrite (up_alpha _ _ E2 eq_refl). reflexivity.
    + apply rc_chars, H2.
Qed.

Lemma moves_alpha : forall mv ds, same_letters mv (moves_text ds) -> only_of is_alpha mv.
Proof.
  intros mv ds. unfold same_letters. rewrite upper_moves. revert ds.
  induction mv as [|c mv IH]; intros ds E d []; destruct ds as [|x ds]; try discriminate E;
    unfold moves_text in E; cbn [map upper] in E; change (upper (c :: mv)) with (up c :: upper mv) in E; injection E as E1 E2.
  - subst d. eapply up_alpha; [exact E1|]. destruct x; reflexivity.
  - eapply IH; [exact E2|assumption].
Qed.

Lemma cell_edge_char : forall c, cell_char c = true -> edge_char c = true.
Proof. intros c H. unfold edge_char. rewrite H. reflexivity. Qed.
Lemma alpha_edge_char : forall c, is_alpha c = true -> edge_char c = true.
Proof. intros c H. unfold edge_char, cell_char. rewrite H. reflexivity. Qed.

Lemma edge_chars : forall dot t e, edge_text dot t e -> t <> [] /\ only_of edge_char t.
Proof.
  intros dot t e H. inversion H as [t' c Hc|t' c ds mv md o Hc Hg Hs Hm]; subst.
  - destruct (cell_chars _ _ _ Hc) as [Hn Ho]. split; [exact Hn|]. eapply only_imp; [exact cell_edge_char|exact Ho].
  - destruct (cell_chars _ _ _ Hc) as [Hn Ho]. split.
    + intros E. apply app_eq_nil in E. apply Hn, E.
    + apply only_app; [eapply only_imp; [exact cell_edge_char|exact Ho]|]. apply only_app; [apply only_one; reflexivity|].
      apply only_app; [eapply only_imp; [exact alpha_edge_char|eapply moves_alpha; exact Hs]|].
      apply only_app; [|apply only_one; reflexivity].
      destruct Hm as [[_ ->]|[_ [-> | ->]]]; [intros ? []|apply only_one; reflexivity..].
Qed.

Lemma opt_edge_chars : forall dot t oe, opt_text (edge_text dot) t oe -> only_of edge_char t /\ (t = [] <-> oe = None).
Proof.
  intros dot t [e|] H; cbn in H.
  - destruct (edge_chars _ _ _ H) as [Hn Ho]. split; [exact Ho|]. split; [contradiction|discriminate].
  - subst. split; [intros ? []|]. tauto.
Qed.

Lemma alpha_cases : forall (P : pychar -> Prop), (forall c, (65 <= c <= 90)%N -> P c) -> (forall c, (97 <= c <= 122)%N -> P c) ->
  forall c, is_alpha c = true -> P c.
Proof.
  intros P H1 H2 c H. unfold is_alpha, is_upper, is_lower in H. apply orb_true_iff in H.
  destruct H as [H|H]; apply andb_true_iff in H; destruct H as [A B]; apply N.leb_le in A, B; [apply H1|apply H2]; lia.
Qed.

(** Every one of these characters is neither space, nor colon, nor starts a filter. *)
Lemma edge_char_range : forall c, edge_char c = true ->
  (48 <= c <= 57)%N \/ (65 <= c <= 90)%N \/ (97 <= c <= 122)%N \/ In c (lit "_^.-(+?)").
Proof.
  intros c H. unfold edge_char, cell_char in H. rewrite !orb_true_iff, !existsb_eqb in H.
  destruct H as [[[H|H]|H]|H].
  - right. revert c H. apply alpha_cases; intros c H; auto.
  - left. unfold is_digit in H. apply andb_true_iff in H. destruct H as [A B]. apply N.leb_le in A, B. lia.
  - right. right. right. cbn in H |- *. intuition.
  - right. right. right. cbn in H |- *. intuition.
Qed.

Lemma edge_char_not : forall c, edge_char c = true -> is_space c = false /\ brk c = false /\ filter_start c = false
  /\ (c =? chr "!")%N = false.
Proof.
  intros c H. apply edge_char_range in H.
  assert (is_space c = true -> (c = 32 \/ 9 <= c <= 13 \/ 28 <= c <= 31 \/ 127 < c)%N) as Hs.
  { unfold is_space. intros E. rewrite !orb_true_iff, !andb_true_iff, !N.leb_le, !N.eqb_eq in E. lia. }
  assert (brk c = true -> c = 58%N \/ c = 10%N) as Hb.
  { unfold brk. intros E. rewrite orb_true_iff, !N.eqb_eq in E. exact E. }
  assert (filter_start c = true -> c = 123%N \/ c = 91%N \/ c = 34%N) as Hf by exact (filter_start_inv c).
  assert ((c =? chr "!")%N = true -> c = 33%N) as He by (intros E; apply N.eqb_eq in E; exact E).
  assert (Hr : (48 <= c <= 57)%N \/ (65 <= c <= 90)%N \/ (97 <= c <= 122)%N \/ (c = 95 \/ c = 94 \/ c = 46 \/ c = 45 \/ c = 40 \/ c = 43 \/ c = 63 \/ c = 41)%N).
  { destruct H as [H|[H|[H|H]]]; auto. right. right. right. cbn in H. intuition. }
  repeat split; match goal with |- ?b = false => destruct b eqn:E; [exfalso|reflexivity] end.
  - specialize (Hs eq_refl). lia.
  - specialize (Hb eq_refl). lia.
  - specialize (Hf eq_refl). lia.
  - specialize (He eq_refl). lia.
Qed.

(** Cells. *)
Lemma head_nonalpha : forall s, s <> [] -> (forall c, In c s -> is_alpha c = false) -> forall c t, s = c :: t -> is_alpha c = false.
Proof. intros s _ H c t ->. apply H. left. reflexivity. Qed.

Lemma cell_text_fun : forall dot t c c', cell_text dot t c -> cell_text dot t c' -> c = c'.
Proof.
  assert (forall dot col row r c row' col', letters col \/ symbol_text dot col -> number_text row \/ symbol_text dot row ->
    up r = chr "R" -> up c = chr "C" -> rc_text row' -> rc_text col' -> col ++ row = [r] ++ row' ++ [c] ++ col' -> False) as X.
  { intros dot col row r c row' col' H1 H2 E1 E2 H3 H4 E.
    pose proof (up_alpha _ _ E1 eq_refl) as Ar. pose proof (up_alpha _ _ E2 eq_refl) as Ac.
    destruct (rc_nonalpha _ H3) as [Hn Ha]. destruct (row_nonalpha _ _ H2) as [Hrn Hra].
    destruct H1 as [H1|H1].
    - destruct (app_split is_alpha col row [r] (row' ++ [c] ++ col')) as [-> ->].
      + exact (proj2 H1).
      + apply only_one. exact Ar.
      + apply head_nonalpha; assumption.
      + intros x y Ex. destruct row' as [|z row']; [contradiction|]. injection Ex as <- _. apply Ha. left. reflexivity.
      + exact E.
      + assert (is_alpha c = false) as F; [|rewrite F in Ac; discriminate].
        apply Hra. apply in_or_app. right. left. reflexivity.
    - destruct H1 as [->|[->|[_ ->]]]; injection E as E _; rewrite <- E in Ar; discriminate Ar. }
  intros dot t c c' H H'. inversion H as [col row H1 H2|r k row col E1 E2 H1 H2]; subst;
    inversion H' as [col' row' H1' H2' Et|r' k' row' col' E1' E2' H1' H2' Et]; subst.
  - assert (col = col' /\ row = row') as [-> ->]; [|reflexivity]. symmetry in Et.
    destruct (row_nonalpha _ _ H2) as [Hr Hra]. destruct (row_nonalpha _ _ H2') as [Hr' Hra'].
    destruct H1 as [H1|H1], H1' as [H1'|H1'].
    + apply (app_split is_alpha); [exact (proj2 H1)|exact (proj2 H1')|apply head_nonalpha; assumption..|exact Et].
    + exfalso. destruct H1 as [Hn Ha]. destruct col as [|x col]; [contradiction|].
      pose proof (Ha x (or_introl eq_refl)) as A.
      destruct H1' as [->|[->|[_ ->]]]; injection Et as -> _; discriminate A.
    + exfalso. destruct H1' as [Hn Ha]. destruct col' as [|x col']; [contradiction|].
      pose proof (Ha x (or_introl eq_refl)) as A.
      destruct H1 as [->|[->|[_ ->]]]; injection Et as <- _; discriminate A.
    + destruct H1 as [->|[->|[_ ->]]], H1' as [->|[->|[_ ->]]]; try discriminate Et; injection Et as ->; auto.
  - exfalso. exact (X dot col row r' k' row' col' H1 H2 E1' E2' H1' H2' (eq_sym Et)).
  - exfalso. exact (X dot col' row' r k row col H1' H2' E1 E2 H1 H2 Et).
  - assert (row = row' /\ col = col') as [-> ->]; [|reflexivity].
    match goal with E : row' ++ _ :: _ = row ++ _ :: _ |- _ => rename E into Et; symmetry in Et end.
    destruct (rc_nonalpha _ H1) as [Hr Hra]. destruct (rc_nonalpha _ H1') as [Hr' Hra'].
    assert (forall c, is_alpha c = false -> negb (is_alpha c) = true) as N by (intros x ->; reflexivity).
    destruct (app_split (fun c => negb (is_alpha c)) row ([k] ++ col) row' ([k'] ++ col')) as [-> Ec].
    + intros x Hx. apply N, Hra, Hx.
    + intros x Hx. apply N, Hra', Hx.
    + intros x y Ex. injection Ex as <- _. rewrite (up_alpha _ _ E2 eq_refl). reflexivity.
    + intros x y Ex. injection Ex as <- _. rewrite (up_alpha _ _ E2' eq_refl). reflexivity.
    + exact Et.
    + injection Ec as _ ->. auto.
Qed.

Lemma paren_not_cell : forall c, cell_char c = true -> negb (c =? chr "(")%N = true.
Proof.
  intros c H. destruct (c =? chr "(")%N eqn:E; [|reflexivity]. apply N.eqb_eq in E. subst c. discriminate H.
Qed.

Lemma edge_text_fun : forall dot t e e', edge_text dot t e -> edge_text dot t e' -> e = e'.
Proof.
  intros dot t e e' H H'. inversion H as [t1 c Hc|t1 c ds mv md o Hc Hg Hs Hm]; subst;
    inversion H' as [t2 c' Hc' Et|t2 c' ds' mv' md' o' Hc' Hg' Hs' Hm' Et]; subst.
  - rewrite (cell_text_fun _ _ _ _ Hc Hc'). reflexivity.
  - exfalso. destruct (cell_chars _ _ _ Hc) as [_ Ho]. assert (cell_char (chr "(") = true) as F; [|discriminate F].
    apply Ho. apply in_or_app. right. left. reflexivity.
  - exfalso. destruct (cell_chars _ _ _ Hc') as [_ Ho]. assert (cell_char (chr "(") = true) as F; [|discriminate F].
    apply Ho. apply in_or_app. right. left. reflexivity.
  - destruct (cell_chars _ _ _ Hc) as [_ Ho]. destruct (cell_chars _ _ _ Hc') as [_ Ho'].
    destruct (app_split (fun c => negb (c =? chr "(")%N) t1 (lit "(" ++ mv ++ md ++ lit ")") t2 (lit "(" ++ mv' ++ md' ++ lit ")")) as [-> E].
    + eapply only_imp; [exact paren_not_cell|exact Ho].
    + eapply only_imp; [exact paren_not_cell|exact Ho'].
    + intros x y Ex. injection Ex as <- _. reflexivity.
    + intros x y Ex. injection Ex as <- _. reflexivity.
    + symmetry. exact Et.
    + rewrite (cell_text_fun _ _ _ _ Hc Hc'). injection E as E.
      assert (forall o md c t, modifier_text o md -> md ++ lit ")" = c :: t -> is_alpha c = false) as M.
      { intros o0 md0 x y [[_ ->]|[_ [-> | ->]]] Ex; injection Ex as <- _; reflexivity. }
      destruct (app_split is_alpha mv (md ++ lit ")") mv' (md' ++ lit ")")) as [-> E2].
      * eapply moves_alpha, Hs.
      * eapply moves_alpha, Hs'.
      * intros x y. apply (M o). exact Hm.
      * intros x y. apply (M o'). exact Hm'.
      * exact E.
      * apply app_inv_tail in E2. subst md'. unfold same_letters in Hs, Hs'. rewrite Hs, !upper_moves in Hs'. rewrite Hs'.
        f_equal. destruct Hm as [[-> ->]|[-> Hm]], Hm' as [[-> Hm']|[-> Hm']]; try reflexivity.
        -- destruct Hm' as [Hm'|Hm']; discriminate Hm'.
        -- subst. destruct Hm as [Hm|Hm]; discriminate Hm.
Qed.

(** A text that ends an edge. *)
Definition stop (s : pystr) : Prop := forall c t, s = c :: t -> brk c = true.
Lemma not_brk : forall c, edge_char c = true -> negb (brk c) = true.
Proof. intros c H. destruct (edge_char_not c H) as (_ & -> & _). reflexivity. Qed.

Lemma opt_edge_unique : forall dot a oe a' oe' s s', opt_text (edge_text dot) a oe -> opt_text (edge_text dot) a' oe' ->
  stop s -> stop s' -> a ++ s = a' ++ s' -> a = a' /\ s = s' /\ oe = oe'.
Proof.
  intros dot a oe a' oe' s s' H H' Hs Hs' E.
  destruct (opt_edge_chars _ _ _ H) as [Ho He]. destruct (opt_edge_chars _ _ _ H') as [Ho' He'].
  destruct (app_split (fun c => negb (brk c)) a s a' s') as [-> ->].
  - eapply only_imp; [exact not_brk|exact Ho].
  - eapply only_imp; [exact not_brk|exact Ho'].
  - intros x y Ex. rewrite (Hs x y Ex). reflexivity.
  - intros x y Ex. rewrite (Hs' x y Ex). reflexivity.
  - exact E.
  - split; [reflexivity|]. split; [reflexivity|]. destruct oe as [e|], oe' as [e'|]; cbn in H, H'.
    + rewrite (edge_text_fun _ _ _ _ H H'). reflexivity.
    + subst. apply He. reflexivity.
    + subst. symmetry. apply He'. reflexivity.
    + reflexivity.
Qed.

Lemma tail_stop : forall e f, tail_text e f -> stop e.
Proof. intros e f H. inversion H; subst; intros c' t' E; try discriminate; injection E as <- _; reflexivity. Qed.
Lemma colon_stop : forall t, stop (lit ":" ++ t).
Proof. intros t c t' E. injection E as <- _. reflexivity. Qed.
Lemma exp_stop : forall u em e f, opt_text exp_text u em -> tail_text e f -> stop (u ++ e).
Proof.
  intros u [m|] e f H He.
  - destruct H as [-> _]. rewrite <- app_assoc. apply colon_stop.
  - cbn in H. subst. eapply tail_stop. exact He.
Qed.

Lemma exp_char_not : forall c, exp_char c = true -> is_space c = false /\ brk c = false /\ filter_start c = false.
Proof.
  intros c H. assert (edge_char c = true) as He.
  { unfold exp_char in H. apply existsb_eqb in H. unfold up in H. destruct (is_lower c) eqn:El.
    - unfold edge_char, cell_char, is_alpha. rewrite El, orb_true_r. reflexivity.
    - cbn in H. repeat (destruct H as [<-|H]; [reflexivity|]). destruct H. }
  destruct (edge_char_not c He) as (A & B & C & _). auto.
Qed.

(** A filter does not look like a 2nd part. *)
Lemma tail_not_second : forall e f t nd u em e' f', tail_text e f -> opt_text (edge_text true) t nd -> opt_text exp_text u em ->
  tail_text e' f' -> e = lit ":" ++ t ++ u ++ e' -> False.
Proof.
  intros e f t nd u em e' f' He Ht Hu He'. inversion He as [| |sp c r Hsp Hc]; subst; intros H; try discriminate H.
  apply (app_inv_head (lit ":")) in H.
  assert (forall x y, sp ++ c :: r = x :: y -> (is_space x = true \/ filter_start x = true)) as Hf.
  { intros x y Ex. destruct sp as [|z sp]; injection Ex as <- _; [right; exact Hc|left; apply Hsp; left; reflexivity]. }
  destruct (opt_edge_chars _ _ _ Ht) as [Ho _]. destruct t as [|x t].
  - destruct em as [m|].
    + destruct Hu as (-> & _ & _). destruct (Hf _ _ H) as [A|A]; discriminate A.
    + cbn in Hu. subst u. cbn [app] in H. destruct He' as [| |sp' c' r' Hsp' Hc'].
      * destruct sp; discriminate H.
      * destruct sp as [|z [|]]; try discriminate H. injection H as -> ->. discriminate Hc.
      * destruct (Hf _ _ H) as [A|A]; discriminate A.
  - destruct (edge_char_not x (Ho x (or_introl eq_refl))) as (A & _ & B & _). destruct (Hf _ _ H) as [F|F]; congruence.
Qed.

Lemma exp_unique : forall u em u' em' e f e' f', opt_text exp_text u em -> opt_text exp_text u' em' -> tail_text e f ->
  tail_text e' f' -> u ++ e = u' ++ e' -> em = em' /\ u = u' /\ e = e'.
Proof.
  assert (forall m e f e' f', m <> [] -> only_of exp_char m -> tail_text e f -> tail_text e' f' -> e = (lit ":" ++ m) ++ e' -> False) as X.
  { intros m e f e' f' Hn Hm He He'. inversion He as [| |sp c r Hsp Hc]; subst; intros H; try discriminate H.
    rewrite <- app_assoc in H. apply (app_inv_head (lit ":")) in H. destruct m as [|x m]; [contradiction|].
    destruct (exp_char_not x (Hm x (or_introl eq_refl))) as (A & _ & B).
    destruct sp as [|z sp]; injection H as -> _; [congruence|]. rewrite (Hsp x (or_introl eq_refl)) in A. discriminate A. }
  intros u [m|] u' [m'|] e f e' f' Hu Hu' He He' E; cbn in Hu, Hu'.
  - destruct Hu as (-> & Hn & Hm), Hu' as (-> & Hn' & Hm'). rewrite <- !app_assoc in E. apply (app_inv_head (lit ":")) in E.
    destruct (app_split exp_char m e m' e' Hm Hm') as [-> ->]; [| |exact E|auto].
    + intros x y Ex. destruct (exp_char x) eqn:F; [|reflexivity]. destruct (exp_char_not x F) as (_ & B & _).
      rewrite (tail_stop _ _ He x y Ex) in B. discriminate B.
    + intros x y Ex. destruct (exp_char x) eqn:F; [|reflexivity]. destruct (exp_char_not x F) as (_ & B & _).
      rewrite (tail_stop _ _ He' x y Ex) in B. discriminate B.
  - destruct Hu as (-> & Hn & Hm). subst u'. exfalso. exact (X m e' f' e f Hn Hm He' He (eq_sym E)).
  - destruct Hu' as (-> & Hn & Hm). subst u. exfalso. exact (X m' e f e' f' Hn Hm He He' E).
  - subst. auto.
Qed.

Lemma head_unique : forall t st c nd em t' st' c' nd' em' e f e' f',
  head_text t st c nd em -> head_text t' st' c' nd' em' -> tail_text e f -> tail_text e' f' -> t ++ e = t' ++ e' ->
  e = e' /\ st = st' /\ c = c' /\ nd = nd' /\ em = em'.
Proof.
  intros t st c nd em t' st' c' nd' em' e f e' f' H H' He He' E.
  inversion H as [t1 s1 Hs|t1 s1 b n1 m1 Hs Hb]; subst; inversion H' as [t2 s2 Hs'|t2 s2 b' n2 m2 Hs' Hb']; subst.
  - destruct (opt_edge_unique _ _ _ _ _ _ _ Hs Hs' (tail_stop _ _ He) (tail_stop _ _ He') E) as (_ & -> & ->). auto.
  - exfalso. inversion Hb' as [x n y m Hx Hy]; subst. rewrite <- !app_assoc in E.
    destruct (opt_edge_unique _ _ _ _ _ _ _ Hs Hs' (tail_stop _ _ He) (colon_stop _) E) as (_ & E2 & _).
    eapply (tail_not_second e f x nd' y em' e' f'); eauto.
  - exfalso. inversion Hb as [x n y m Hx Hy]; subst. rewrite <- !app_assoc in E.
    destruct (opt_edge_unique _ _ _ _ _ _ _ Hs Hs' (colon_stop _) (tail_stop _ _ He') E) as (_ & E2 & _).
    eapply (tail_not_second e' f' x nd y em e f); eauto.
  - inversion Hb as [x n y m Hx Hy]; subst. inversion Hb' as [x' n' y' m' Hx' Hy']; subst. rewrite <- !app_assoc in E.
    destruct (opt_edge_unique _ _ _ _ _ _ _ Hs Hs' (colon_stop _) (colon_stop _) E) as (_ & E2 & ->).
    apply (app_inv_head (lit ":")) in E2.
    destruct (opt_edge_unique _ _ _ _ _ _ _ Hx Hx' (exp_stop _ _ _ _ Hy He) (exp_stop _ _ _ _ Hy' He') E2) as (_ & E3 & ->).
    destruct (exp_unique _ _ _ _ _ _ _ _ Hy Hy' He He' E3) as (-> & _ & ->). auto.
Qed.

(** ** What follows the sheet *)

Definition body_groups (x : groups) (f : frag) (g : groups) : Prop :=
  exists h, x = filt_groups (f_filt f) ++ h ++ g /\ head_groups h (f_st f) (f_colon f) (f_nd f) (f_exp f).

Lemma rest_split : forall X s g (k : pystr -> groups -> option X),
  rmatch r_rest s g k = rmatch r_head s g (fun s' g' => rmatch (RSeq r_filt REnd) s' g' k).
Proof. reflexivity. Qed.

Lemma body_inv : forall s g x sh, rmatch r_rest s g (fun _ g => Some g) = Some x ->
  exists f, f_sheet f = sh /\ body_text s f /\ body_groups x f g.
Proof.
  intros s g x sh H. rewrite rest_split in H. apply rmatch_inv in H. destruct H as (s' & g' & M & H).
  apply mt_gl in M; [|reflexivity]. destruct M as (t & h & -> & -> & G). apply gl_head in G.
  destruct G as (st & c & nd & em & Ht & Hg). apply tail_inv in H. destruct H as (f & Hf & ->).
  exists (Frag sh st c nd em f). split; [reflexivity|]. split.
  - inversion Ht; subst; [|rewrite <- app_assoc]; constructor; assumption.
  - exists h. auto.
Qed.

Lemma body_match : forall t f g, body_text t f ->
  exists x, rmatch r_rest t g (fun _ g => Some g) = Some x /\ body_groups x f g.
Proof.
  intros t f g H.
  assert (exists a e, t = a ++ e /\ head_text a (f_st f) (f_colon f) (f_nd f) (f_exp f) /\ tail_text e (f_filt f)) as (a & e & -> & Ha & He).
  { inversion H as [sh a st e fl Ha He|sh a st b nd em e fl Ha Hb He]; subst; cbn.
    - exists a, e. split; [reflexivity|]. split; [constructor; exact Ha|exact He].
    - exists (a ++ b), e. rewrite app_assoc. split; [reflexivity|]. split; [constructor; assumption|exact He]. }
  rewrite rest_split.
  destruct (rmatch r_head (a ++ e) g (fun s' g' => rmatch (RSeq r_filt REnd) s' g' (fun _ g0 => Some g0))) as [x|] eqn:E.
  - exists x. split; [reflexivity|]. apply rmatch_inv in E. destruct E as (s' & g' & M & E).
    apply mt_gl in M; [|reflexivity]. destruct M as (t' & h & Et & -> & G). apply gl_head in G.
    destruct G as (st & c & nd & em & Ht & Hg). apply tail_inv in E. destruct E as (f' & Hf' & ->).
    destruct (head_unique _ _ _ _ _ _ _ _ _ _ _ _ _ _ Ha Ht He Hf' Et) as (<- & <- & <- & <- & <-).
    assert (f_filt f = f') as <-.
    { pose proof (tail_match _ _ [] He) as A. rewrite (tail_match _ _ [] Hf') in A. rewrite !app_nil_r in A.
      destruct (f_filt f), f'; cbn in A; congruence. }
    exists h. auto.
  - exfalso. destruct (head_gl _ _ _ _ _ Ha) as (h & Hh). revert E.
    apply (rmatch_complete _ _ _ _ _ (gl_mt _ _ _ e g Hh)). rewrite (tail_match _ _ _ He). discriminate.
Qed.

(** ** The edges found *)

Lemma group_app : forall x a b, group x (a ++ b) = match group x a with Some t => Some t | None => group x b end.
Proof.
  induction a as [|[n t] a IH]; intros b; [reflexivity|]. cbn. destruct (String.eqb n x); [reflexivity|apply IH].
Qed.

Definition names_of (n : gnames) : list string := [g_col n; g_row n; g_row2 n; g_col2 n; g_mov n; g_mod n].
Definition other (n : gnames) (h : groups) : Prop := forall x, In x (names_of n) -> group x h = None.

Lemma parse_edge_ext : forall h h' n d, (forall x, In x (names_of n) -> group x h = group x h') -> parse_edge h n d = parse_edge h' n d.
Proof. intros h h' n d H. unfold parse_edge. rewrite !H by (cbn; tauto). reflexivity. Qed.
Lemma parse_edge_skip : forall h g n d, other n h -> parse_edge (h ++ g) n d = parse_edge g n d.
Proof. intros h g n d H. apply parse_edge_ext. intros x Hx. rewrite group_app, (H x Hx). reflexivity. Qed.
Lemma parse_edge_drop : forall h g n d, other n g -> parse_edge (h ++ g) n d = parse_edge h n d.
Proof.
  intros h g n d H. apply parse_edge_ext. intros x Hx. rewrite group_app, (H x Hx). destruct (group x h); reflexivity.
Qed.

Ltac each_name := let x := fresh in let H := fresh in intros x H; cbn in H;
  repeat (destruct H as [<-|H]; [reflexivity|]); destruct H.

Lemma st_groups_other : forall h oe, opt_groups st_names h oe -> other nd_names h.
Proof.
  intros h [e|] H; cbn in H; [|subst; each_name]. inversion H as [? ? Hc|? ? ? Hc|? ? ? ? Hc]; subst; inversion Hc; subst; each_name.
Qed.
Lemma nd_groups_other : forall h oe, opt_groups nd_names h oe -> other st_names h.
Proof.
  intros h [e|] H; cbn in H; [|subst; each_name]. inversion H as [? ? Hc|? ? ? Hc|? ? ? ? Hc]; subst; inversion Hc; subst; each_name.
Qed.
Lemma groups_nothing_else : forall n h oe, n = st_names \/ n = nd_names -> opt_groups n h oe ->
  forall x, In x ["colon"; "exp_moves"; "js_filt"; "sh_name"]%string -> group x h = None.
Proof.
  intros n h [e|] [-> | ->] H; cbn in H; subst; try solve [each_name];
    inversion H as [? ? Hc|? ? ? Hc|? ? ? ? Hc]; subst; inversion Hc; subst; each_name.
Qed.

Lemma str_or_some : forall (r : pystr) o, r <> [] -> str_or (Some r) o = Some r.
Proof. intros [|c r] o H; [contradiction|reflexivity]. Qed.

Lemma parse_edge_groups : forall n h oe d, n = st_names \/ n = nd_names -> opt_groups n h oe ->
  parse_edge h n d = match oe with Some e => Some e | None => d end.
Proof.
  intros n h [e|] d Hn H; cbn in H; [|subst; destruct Hn as [-> | ->]; reflexivity].
  destruct Hn as [-> | ->]; inversion H as [? ? Hc|? ? mv Hc|? ? mv md Hc]; subst; inversion Hc as [row col Hr Hc'|row col Hr Hc']; subst;
    unfold parse_edge; cbn [group st_names nd_names g_col g_row g_col2 g_row2 g_mov g_mod String.eqb Ascii.eqb Bool.eqb];
    rewrite ?(str_or_some row _ Hr), ?(str_or_some col _ Hc'); reflexivity.
Qed.

Definition sheet_groups (sh : option pystr) : groups := match sh with Some s => [("sh_name"%string, s)] | None => [] end.

Lemma outcome : forall x f, body_groups x f (sheet_groups (f_sheet f)) -> f_colon f = true \/ f_nd f = None ->
  let is_colon := match group "colon" x with Some _ => true | None => false end in
  is_colon = f_colon f
  /\ parse_edge x st_names (if is_colon then Some topleft_edge else None) = (match f_st f with Some e => Some e | None => if f_colon f then Some topleft_edge else None end)
  /\ parse_edge x nd_names (if is_colon then Some bottomright_edge else None) = (match f_nd f with Some e => Some e | None => if f_colon f then Some bottomright_edge else None end)
  /\ group "sh_name" x = f_sheet f /\ group "exp_moves" x = f_exp f /\ group "js_filt" x = f_filt f.
Proof.
  intros x f (h & -> & H) Hnd. destruct f as [sh st c nd em fl]. cbn [f_sheet f_st f_colon f_nd f_exp f_filt] in *.
  assert (forall y, y = "colon" \/ y = "sh_name" \/ y = "exp_moves" -> group y (filt_groups fl) = None)%string as F1
    by (intros y [->|[->| ->]]; destruct fl; reflexivity).
  assert (forall y, y = "colon" \/ y = "js_filt" \/ y = "exp_moves" -> group y (sheet_groups sh) = None)%string as F2
    by (intros y [->|[->| ->]]; destruct sh; reflexivity).
  assert (group "js_filt" (filt_groups fl) = fl) as F3 by (destruct fl; reflexivity).
  assert (group "sh_name" (sheet_groups sh) = sh) as F4 by (destruct sh; reflexivity).
  assert (other st_names (filt_groups fl)) as O1 by (destruct fl; each_name).
  assert (other nd_names (filt_groups fl)) as O2 by (destruct fl; each_name).
  assert (other st_names (sheet_groups sh)) as O3 by (destruct sh; each_name).
  assert (other nd_names (sheet_groups sh)) as O4 by (destruct sh; each_name).
  inversion H as [h1 st1 Hst|h1 st1 h2 nd1 em1 Hst Hn]; subst.
  - pose proof (groups_nothing_else _ _ _ (or_introl eq_refl) Hst) as G.
    rewrite !group_app, (F1 "colon"%string), (F1 "sh_name"%string), (F1 "exp_moves"%string), (F2 "colon"%string), (F2 "js_filt"%string), (F2 "exp_moves"%string), F3, F4 by tauto. rewrite !G by (cbn; tauto).
    cbv zeta. rewrite !(parse_edge_skip (filt_groups fl)) by assumption.
    rewrite !(parse_edge_drop _ (sheet_groups sh)) by assumption.
    rewrite (parse_edge_groups st_names h st _ (or_introl eq_refl) Hst).
    split; [reflexivity|]. split; [destruct st; reflexivity|]. split.
    + rewrite <- (app_nil_r h). rewrite parse_edge_skip by (eapply st_groups_other; exact Hst). reflexivity.
    + repeat split. destruct fl; reflexivity.
  - pose proof (groups_nothing_else _ _ _ (or_introl eq_refl) Hst) as G.
    pose proof (groups_nothing_else _ _ _ (or_intror eq_refl) Hn) as G2.
    assert (group "colon" (exp_groups em) = None) as E1 by (destruct em; reflexivity).
    assert (group "js_filt" (exp_groups em) = None) as E2 by (destruct em; reflexivity).
    assert (group "sh_name" (exp_groups em) = None) as E3 by (destruct em; reflexivity).
    assert (group "exp_moves" (exp_groups em) = em) as E4 by (destruct em; reflexivity).
    assert (other st_names (exp_groups em)) as P1 by (destruct em; each_name).
    assert (other nd_names (exp_groups em)) as P2 by (destruct em; each_name).
    assert (other st_names [("colon"%string, lit ":")]) as P3 by each_name.
    assert (other nd_names [("colon"%string, lit ":")]) as P4 by each_name.
    rewrite !group_app, (F1 "colon"%string), (F1 "sh_name"%string), (F1 "exp_moves"%string), (F2 "colon"%string), (F2 "js_filt"%string), (F2 "exp_moves"%string), F3, F4, E1, E2, E3, E4 by tauto. rewrite !G, !G2 by (cbn; tauto).
    cbn [group String.eqb Ascii.eqb Bool.eqb]. cbv zeta.
    rewrite !(parse_edge_skip (filt_groups fl)) by assumption.
    rewrite !(parse_edge_drop _ (sheet_groups sh)) by assumption.
    split; [reflexivity|]. split; [|split].
    + rewrite <- !app_assoc. rewrite parse_edge_skip by exact P1. rewrite parse_edge_skip by (eapply nd_groups_other; exact Hn).
      rewrite parse_edge_skip by exact P3. rewrite (parse_edge_groups st_names h1 st _ (or_introl eq_refl) Hst). destruct st; reflexivity.
    + rewrite parse_edge_drop by (eapply st_groups_other; exact Hst). rewrite parse_edge_skip by exact P2.
      rewrite parse_edge_drop by exact P4. rewrite (parse_edge_groups nd_names h2 nd _ (or_intror eq_refl) Hn). destruct nd; reflexivity.
    + repeat split; [destruct em|destruct fl]; reflexivity.
Qed.

Section Parse.
  Variable loads : pystr -> option json.

  Definition expected (f : frag) : res parsed :=
    do (o, c) <- parse_filters loads (f_filt f);
    Ok (Parsed (f_sheet f) (meant_st f) (meant_nd f) (f_exp f) o c).

  Lemma body_colon : forall t f, body_text t f -> f_colon f = true \/ f_nd f = None.
  Proof. intros t f H. inversion H; subst; cbn; auto. Qed.

  Lemma parse_outcome : forall t x f, re_match xlref_regex t = Some x -> body_groups x f (sheet_groups (f_sheet f)) ->
    f_colon f = true \/ f_nd f = None -> parse_xlref_fragment loads t = expected f.
  Proof.
    intros t x f E H Hnd. unfold parse_xlref_fragment. rewrite E.
    destruct (outcome x f H Hnd) as (H1 & H2 & H3 & H4 & H5 & H6). cbv zeta in H2, H3 |- *.
    rewrite H2, H3, H1, H4, H5, H6. unfold expected, meant_st, meant_nd.
    destruct (f_colon f) eqn:Ec.
    - cbn [orb]. destruct (f_st f), (f_nd f); reflexivity.
    - destruct Hnd as [Hnd|Hnd]; [discriminate|]. rewrite Hnd. cbn [orb]. destruct (f_st f); reflexivity.
  Qed.
End Parse.
