(** * Printing: proofs *)
From Coq Require Import String Lia.
From Verif Require Import PyBase PyBase_Proofs Json Coords_Model Coords_Spec Coords_Proofs Capture_Model Capture_Spec
  Parse_Model Parse_Spec Parse_Proofs Xlref_Proofs Print_Model Print_Spec.

(** ** Numbers without leading zeros *)
Definition counts (s : pystr) : Prop := s = [] \/ number_text s.
Lemma counts_snoc : forall a d, counts (a ++ [d]) -> counts a /\ is_digit d = true.
Proof.
  intros a d [E|(x & t & E & R & O)]; [destruct a; discriminate E|]. destruct a as [|y a].
  - injection E as -> <-. split; [left; reflexivity|apply d19_digit; exact R].
  - injection E as -> <-. split; [|apply O; apply in_or_app; right; left; reflexivity].
    right. exists x, a. split; [reflexivity|]. split; [exact R|]. intros c I. apply O. apply in_or_app. auto.
Qed.
Lemma digit_range : forall d, is_digit d = true -> (0 <= digit_val d <= 9)%Z.
Proof. intros d H. unfold is_digit in H. apply andb_true_iff in H. destruct H as (A & B). apply N.leb_le in A, B. unfold digit_val. lia. Qed.
Lemma digits_snoc : forall a d, digits_val 0 (a ++ [d]) = (digits_val 0 a * 10 + digit_val d)%Z.
Proof. intros a d. rewrite digits_val_app. reflexivity. Qed.
Lemma counts_pos : forall s, counts s -> (0 <= digits_val 0 s)%Z /\ (digits_val 0 s = 0%Z -> s = []).
Proof.
  intros s. induction s as [|d a IH] using rev_ind; [split; [cbn; lia|reflexivity]|]. intros C. pose proof C as C0. apply counts_snoc in C. destruct C as (C & D).
  rewrite digits_snoc. destruct (IH C) as (P & Z). pose proof (digit_range d D). split; [lia|]. intros E. assert (a = []) as -> by (apply Z; lia).
  destruct C0 as [X|(x & t & X & R & _)]; [exact X|]. injection X as -> _. cbn in E. unfold digit_val in E. lia.
Qed.
Lemma counts_inj : forall s s', counts s -> counts s' -> digits_val 0 s = digits_val 0 s' -> s = s'.
Proof.
  intros s. induction s as [|d a IH] using rev_ind; intros s' C C' E.
  - symmetry. apply (proj2 (counts_pos s' C')). rewrite <- E. reflexivity.
  - destruct s' as [|d' a' _] using rev_ind. { apply (proj2 (counts_pos _ C)). exact E. }
    apply counts_snoc in C, C'. destruct C as (C & D), C' as (C' & D'). rewrite !digits_snoc in E. pose proof (digit_range d D). pose proof (digit_range d' D').
    f_equal; [apply IH; [exact C|exact C'|lia]|]. f_equal. assert (V : digit_val d = digit_val d') by lia. unfold digit_val in V.
    unfold is_digit in D, D'. apply andb_true_iff in D, D'. destruct D as (D1 & _), D' as (D1' & _). apply N.leb_le in D1, D1'. lia.
Qed.
Lemma number_value : forall s, number_text s -> exists z, py_int s = Some z /\ py_int (lit "-" ++ s) = Some (- z)%Z /\ str_of_Z z = s /\ str_of_Z (- z) = lit "-" ++ s.
Proof.
  intros s H. destruct (number_int s H) as (z & E & P & N). exists z. split; [exact E|]. split; [exact N|].
  assert (S : str_of_Z z = s).
  { apply counts_inj; [right; apply str_of_Z_number; exact P|right; exact H|].
    assert (V : forall t, number_text t -> py_int t = Some (digits_val 0 t)).
    { intros t Ht. destruct (number_digits t Ht) as (X & Y). apply py_int_digits; [exact X|apply forallb_forall; exact Y]. }
    pose proof (V s H) as V1. pose proof (V _ (str_of_Z_number z P)) as V2. rewrite py_int_str_of_Z in V2. congruence. }
  split; [exact S|]. unfold str_of_Z in S |- *. destruct (Z.ltb_spec z 0); [lia|]. destruct (Z.ltb_spec (- z) 0); [|lia]. rewrite Z.opp_involutive, S. reflexivity.
Qed.

(** ** Cells *)
Lemma symbol_int : forall dot s, symbol_text dot s -> py_int s = None.
Proof. intros dot s [->|[->|(_ & ->)]]; reflexivity. Qed.
Lemma symbol_more : forall s, symbol_text false s -> forall dot, symbol_text dot s.
Proof. intros s [->|[->|(X & _)]] dot; [left; reflexivity|right; left; reflexivity|discriminate X]. Qed.
Lemma letters_upper : forall s, letters s -> letters (upper s).
Proof.
  intros s (N & A). split; [destruct s; [congruence|discriminate]|]. intros c I. unfold upper in I. apply in_map_iff in I. destruct I as (x & <- & I).
  specialize (A x I). rewrite <- Coords_Proofs.up_alpha in A. unfold is_alpha. rewrite A. reflexivity.
Qed.
(** The columns that cells have *)
Lemma column_cases : forall dot t c, cell_text dot t c ->
  (number_column c /\ cell_str c = lit "R" ++ coord_str (c_row c) ++ lit "C" ++ coord_str (c_col c)) \/
  (~ number_column c /\ cell_str c = coord_str (c_col c) ++ coord_str (c_row c)).
Proof.
  intros dot t c H.
  assert (NC : forall row col, number_text col \/ (exists x, col = lit "-" ++ x /\ number_text x) ->
    cell_str (Cell row (CStr col)) = lit "R" ++ coord_str row ++ lit "C" ++ col).
  { intros row col [N|(x & -> & N)]; destruct (number_value _ N) as (z & E1 & E2 & S1 & S2); unfold cell_str; cbn [c_row c_col as_int].
    - rewrite E1, S1. reflexivity.
    - rewrite E2, S2. reflexivity. }
  assert (NN : forall row col, py_int col = None -> ~ number_column (Cell row (CStr col)) /\ cell_str (Cell row (CStr col)) = col ++ coord_str row).
  { intros row col E. unfold cell_str. cbn [c_row c_col as_int]. rewrite E. split; [|reflexivity]. intros (s & X & Y). injection X as <-.
    destruct Y as [N|(x & -> & N)]; destruct (number_value _ N) as (z & E1 & E2 & _); congruence. }
  destruct H as [col row C R|r c row col Er Ec R C].
  - right. assert (E : py_int (upper col) = None).
    { destruct C as [C|C]; [apply py_int_letters; apply letters_upper; exact C|]. rewrite (upper_nonletters col) by (apply (symbol_nonalpha _ _ C)). exact (symbol_int _ _ C). }
    apply NN. exact E.
  - destruct C as [C|[C|C]].
    + left. split; [exists col; auto|]. apply NC. auto.
    + left. split; [exists col; auto|]. apply NC. auto.
    + right. apply NN. exact (symbol_int _ _ C).
Qed.

Lemma cell_printable : forall dot t c, cell_text dot t c -> cell_text dot (cell_str c) c <-> (number_column c \/ fits_a1 dot c).
Proof.
  intros dot t c H. destruct (column_cases dot t c H) as [(NC & E)|(NC & E)]; rewrite E.
  - split; [auto|]. intros _. destruct c as [row col]. cbn [c_row c_col coord_str] in *. destruct NC as (s & X & Y). cbn [c_col] in X. subst col. cbn [coord_str].
    inversion H as [col row0 C R|r c row0 col Er Ec R C]; subst; cbn [coord_str].
    + destruct C as [C|C].
      * destruct Y as [Y|(x & Y & Z)].
        -- pose proof (letters_upper _ C) as (_ & L). destruct (number_nonalpha _ Y) as (N & A). destruct (upper col) as [|y l] eqn:Eu; [congruence|].
           specialize (L y (or_introl eq_refl)). specialize (A y (or_introl eq_refl)). congruence.
        -- pose proof (letters_upper _ C) as (_ & L). rewrite Y in L. specialize (L _ (or_introl eq_refl)). discriminate L.
      * rewrite (upper_nonletters col) in Y by (apply (symbol_nonalpha _ _ C)). destruct Y as [Y|(x & -> & Z)].
        -- destruct Y as (d & u & -> & D & _). destruct C as [C|[C|(_ & C)]]; injection C as -> _; vm_compute in D; destruct D as (D1 & D2); congruence.
        -- destruct C as [C|[C|(_ & C)]]; discriminate C.
    + apply (Ct_rc dot (chr "R") (chr "C")); try reflexivity; [exact R|]. destruct Y as [Y|Y]; [left; exact Y|right; left; exact Y].
  - split.
    + intros X. right. destruct c as [row col]. cbn [c_row c_col] in *. unfold fits_a1. cbn [c_row c_col].
      remember (coord_str col ++ coord_str row) as txt eqn:Et. inversion X as [col0 row0 C R|r c row0 col0 Er Ec R C]; subst.
      * split.
        -- intros u Y. injection Y as ->. destruct R as [(d & v & Y & D & _)|R]; [injection Y as <- _; vm_compute in D; destruct D; congruence|].
           destruct R as [R|[R|(_ & R)]]; discriminate R.
        -- destruct dot; [left; reflexivity|right]. split; intros Y; injection Y as Y.
           ++ subst row0. destruct R as [(d & v & Y & D & _)|[R|[R|(R & _)]]]; try discriminate R. injection Y as <- _. vm_compute in D. destruct D; congruence.
           ++ destruct C as [C|C].
              ** pose proof (letters_upper _ C) as (_ & L). rewrite Y in L. specialize (L _ (or_introl eq_refl)). discriminate L.
              ** rewrite (upper_nonletters col0) in Y by (apply (symbol_nonalpha _ _ C)). subst col0. destruct C as [C|[C|(C & _)]]; discriminate C.
      * cbn [coord_str] in *. exfalso. destruct C as [C|[C|C]]; [apply NC; exists col0; auto|apply NC; exists col0; auto|].
        destruct C as [->|[->|(_ & ->)]]; match goal with H : _ = [r] ++ _ |- _ => injection H as -> _ | H : [r] ++ _ = _ |- _ => injection H as -> _ end; vm_compute in Er; discriminate Er.
    + intros [X|(X1 & X2)]; [contradiction|]. inversion H as [col row C R|r c0 row col Er Ec R C]; subst; cbn [c_row c_col coord_str] in *.
      * replace (upper col) with (upper (upper col)) at 2 by apply upper_upper. apply Ct_a1; [|exact R].
        destruct C as [C|C]; [left; apply letters_upper; exact C|right]. rewrite (upper_nonletters col) by (apply (symbol_nonalpha _ _ C)). exact C.
      * assert (Cs : symbol_text true col) by (destruct C as [C|[C|C]]; [destruct NC; exists col; auto|destruct NC; exists col; auto|exact C]).
        rewrite <- (upper_nonletters col) at 2 by (apply (symbol_nonalpha _ _ Cs)). apply Ct_a1.
        -- right. destruct Cs as [->|[->|(_ & ->)]]; [left; reflexivity|right; left; reflexivity|]. right. right. split; [|reflexivity].
           destruct X2 as [X2|(_ & X2)]; [exact X2|congruence].
        -- destruct R as [R|[(u & -> & R)|R]]; [left; exact R|destruct (X1 u eq_refl)|]. right.
           destruct R as [->|[->|(_ & ->)]]; [left; reflexivity|right; left; reflexivity|]. right. right. split; [|reflexivity].
           destruct X2 as [X2|(X2 & _)]; [exact X2|congruence].
Qed.

(** ** Edges *)
Lemma coord_chars : forall dot t c, cell_text dot t c -> cell_str c <> [] /\ only_of cell_char (cell_str c).
Proof.
  intros dot t c H. assert (RC : forall s, rc_text s -> s <> [] /\ only_of cell_char s) by (intros s R; split; [apply (rc_nonalpha _ R)|apply rc_chars; exact R]).
  assert (P : exists row col, c = Cell (CStr row) (CStr col) /\ row <> [] /\ only_of cell_char row /\ col <> [] /\ only_of cell_char col).
  { destruct H as [col row C R|r c row col Er Ec R C].
    - exists row, (upper col). split; [reflexivity|]. split; [apply (row_nonalpha _ _ R)|]. split; [destruct R as [R|R]; [apply number_chars; exact R|apply (symbol_chars _ _ R)]|].
      destruct C as [C|C].
      + split; [apply (letters_upper _ C)|apply letters_chars; apply letters_upper; exact C].
      + rewrite (upper_nonletters col) by (apply (symbol_nonalpha _ _ C)). split; [apply (symbol_nonalpha _ _ C)|apply (symbol_chars _ _ C)].
    - exists row, col. split; [reflexivity|]. destruct (RC row R), (RC col C). auto. }
  destruct P as (row & col & -> & R1 & R2 & C1 & C2). destruct (column_cases dot t _ H) as [(_ & ->)|(_ & ->)]; cbn [c_row c_col coord_str].
  - split; [discriminate|]. apply only_app; [intros x [<-|[]]; reflexivity|]. apply only_app; [exact R2|]. apply only_app; [intros x [<-|[]]; reflexivity|exact C2].
  - split; [destruct col; [congruence|discriminate]|]. apply only_app; assumption.
Qed.
Lemma moves_nonempty : forall ds, good_moves ds -> exists c m, moves_text ds = c :: m.
Proof. intros ds H. apply all_moves_good in H. unfold all_moves in H. cbn [In] in H. repeat (destruct H as [<-|H]; [vm_compute; eauto|]). destruct H. Qed.
Lemma edge_str_text : forall dot t e, edge_text dot t e ->
  (edge_text dot (edge_str e) e <-> printable dot e) /\ edge_str e <> [] /\ only_of edge_char (edge_str e).
Proof.
  intros dot t e H. unfold printable. destruct H as [t c H|t c ds mv md o H G S M].
  - unfold edge_str. cbn [mov land]. destruct (coord_chars dot t c H) as (N & O). split; [|split; [exact N|exact (only_imp _ _ _ cell_edge_char O)]].
    rewrite <- (cell_printable dot t c H). split; [intros X; inversion X; assumption|apply Et_plain].
  - destruct (moves_nonempty ds G) as (x & m & Em). destruct (coord_chars dot t c H) as (N & O).
    assert (E : edge_str (Edge c (Some (moves_text ds)) o) = cell_str c ++ lit "(" ++ moves_text ds ++ md ++ lit ")").
    { unfold edge_str. cbn [mov land mod_]. rewrite Em. destruct M as [(-> & ->)|(-> & _)]; reflexivity. }
    rewrite E. cbn [land]. rewrite <- (cell_printable dot t c H).
    assert (Back : cell_text dot (cell_str c) c -> edge_text dot (cell_str c ++ lit "(" ++ moves_text ds ++ md ++ lit ")") (Edge c (Some (moves_text ds)) o)).
    { intros X. apply Et_moves; [exact X|exact G|reflexivity|exact M]. }
    split; [split; [|exact Back]|split].
    + intros X. inversion X as [|t' c' ds' mv' md' o' H' G' S' M' ET EE]; subst. destruct (cell_chars _ _ _ H') as (_ & O').
      destruct (app_split cell_char t' (lit "(" ++ mv' ++ md' ++ lit ")") (cell_str c) (lit "(" ++ moves_text ds ++ md ++ lit ")")) as (<- & _); auto; intros y z Y; injection Y as <- _; reflexivity.
    + destruct (cell_str c); [congruence|discriminate].
    + assert (MA : only_of is_alpha (moves_text ds)) by (apply (moves_alpha _ ds); reflexivity).
      apply only_app; [exact (only_imp _ _ _ cell_edge_char O)|]. apply only_app; [intros y [<-|[]]; reflexivity|].
      apply only_app; [exact (only_imp _ _ _ alpha_edge_char MA)|]. apply only_app; [|intros y [<-|[]]; reflexivity].
      destruct M as [(_ & ->)|(_ & [->| ->])]; [intros y []|intros y [<-|[]]; reflexivity|intros y [<-|[]]; reflexivity].
Qed.

(** ** What was read *)
Lemma accepted_alone : forall s f, s <> [] -> only_of edge_char s -> accepted_text s f -> exists e, meant_st f = Some e /\ edge_text false s e.
Proof.
  intros s f N O A.
  assert (NB : forall a b, s = a ++ lit "!" ++ b -> False).
  { intros a b ->. assert (X : edge_char (chr "!") = true); [|discriminate X]. apply O. apply in_or_app. right. left. reflexivity. }
  assert (B : body_text s f).
  { destruct A as [A|(sp & t & E & _)]; [|destruct (NB _ _ E)]. inversion A as [sp t f0 Sp B Fs E1 E2|sp n t f0 Sp Sn B Fs E1 E2]; subst.
    - destruct sp as [|x sp]; [exact B|]. pose proof (O x (or_introl eq_refl)) as X. apply edge_char_not in X. destruct X as (X & _). rewrite (Sp x (or_introl eq_refl)) in X. discriminate X.
    - exfalso. apply (NB (sp ++ n) t). rewrite <- app_assoc. reflexivity. }
  assert (NC : forall a b, s = a ++ chr ":" :: b -> False).
  { intros a b ->. assert (X : edge_char (chr ":") = true); [|discriminate X]. apply O. apply in_or_app. right. left. reflexivity. }
  inversion B as [sh a st e fl Ha Ht E1 E2|sh a st b nd em e fl Ha Hb Ht E1 E2]; subst.
  - assert (e = []) as ->.
    { inversion Ht; subst; [reflexivity| |].
      - exfalso. assert (X : edge_char 10%N = true); [|discriminate X]. apply O. apply in_or_app. right. left. reflexivity.
      - exfalso. eapply NC. reflexivity. }
    rewrite app_nil_r in *. destruct st as [e|]; [|cbn in Ha; congruence]. exists e. split; [reflexivity|exact Ha].
  - exfalso. inversion Hb; subst. eapply (NC a). reflexivity.
Qed.
Lemma accepted_pair : forall s1 s2 x f, s1 <> [] -> only_of edge_char s1 -> s2 <> [] -> only_of edge_char s2 ->
  x = [] \/ (exists m, x = lit ":" ++ m /\ only_of exp_char m) -> accepted_text (s1 ++ lit ":" ++ s2 ++ x) f ->
  exists st nd, meant_st f = Some st /\ edge_text false s1 st /\ meant_nd f = Some nd /\ edge_text true s2 nd.
Proof.
  intros s1 s2 x f N1 O1 N2 O2 Hx A.
  assert (NB : forall a b, s1 ++ lit ":" ++ s2 ++ x = a ++ lit "!" ++ b -> False).
  { intros a b E. assert (X : In (chr "!") (s1 ++ lit ":" ++ s2 ++ x)) by (rewrite E; apply in_or_app; right; left; reflexivity).
    apply in_app_or in X. destruct X as [X|X]; [apply O1 in X; discriminate X|]. apply in_app_or in X. destruct X as [X|X]; [destruct X as [X|[]]; discriminate X|].
    apply in_app_or in X. destruct X as [X|X]; [apply O2 in X; discriminate X|].
    destruct Hx as [->|(m & -> & Om)]; [destruct X|]. apply in_app_or in X. destruct X as [[X|[]]|X]; [discriminate X|]. apply Om in X. discriminate X. }
  assert (B : body_text (s1 ++ lit ":" ++ s2 ++ x) f).
  { destruct A as [A|(sp & t & E & _)]; [|destruct (NB _ _ E)]. inversion A as [sp t f0 Sp B Fs E1 E2|sp n t f0 Sp Sn B Fs E1 E2]; subst.
    - destruct sp as [|y sp]; [cbn [app] in E1; subst t; exact B|]. exfalso. destruct s1 as [|z s1]; [congruence|]. injection E1 as -> _.
      pose proof (O1 z (or_introl eq_refl)) as X. apply edge_char_not in X. destruct X as (X & _). rewrite (Sp z (or_introl eq_refl)) in X. discriminate X.
    - exfalso. apply (NB (sp ++ n) t). rewrite <- app_assoc. symmetry. exact E1. }
  assert (CB : forall c t, lit ":" ++ t = c :: t -> edge_char c = false) by (intros c t Y; injection Y as <-; reflexivity).
  remember (s1 ++ lit ":" ++ s2 ++ x) as body eqn:EB.
  inversion B as [sh a st e fl Ha Ht E1 E2|sh a st b nd em e fl Ha Hb Ht E1 E2]; rewrite EB in E1; clear EB.
  - exfalso. destruct (app_split edge_char a e s1 (lit ":" ++ s2 ++ x)) as (-> & ->).
    + apply (opt_edge_chars _ _ _ Ha).
    + exact O1.
    + intros c t ->. inversion Ht; subst; reflexivity.
    + intros c t Y. injection Y as <- _. reflexivity.
    + exact E1.
    + inversion Ht as [| |sp c t Sp Fc E3 E4]. destruct s2 as [|y s2]; [congruence|]. pose proof (O2 y (or_introl eq_refl)) as X. apply edge_char_not in X. destruct X as (X1 & _ & X2 & _).
      destruct sp as [|z sp]; [cbn [app] in *|]; injection E3 as E3 E5; [congruence|]. subst z. rewrite (Sp y (or_introl eq_refl)) in X1. discriminate X1.
  - inversion Hb as [t nd0 u em0 Hn Hu E3]. subst b nd0 em0. destruct (app_split edge_char a ((lit ":" ++ t ++ u) ++ e) s1 (lit ":" ++ s2 ++ x)) as (-> & E4).
    + apply (opt_edge_chars _ _ _ Ha).
    + exact O1.
    + intros c t0 Y. injection Y as <- _. reflexivity.
    + intros c t0 Y. injection Y as <- _. reflexivity.
    + exact E1.
    + injection E4 as E4. rewrite <- app_assoc in E4. destruct (app_split edge_char t (u ++ e) s2 x) as (-> & _).
      * apply (opt_edge_chars _ _ _ Hn).
      * exact O2.
      * intros c t0 Y. destruct em as [m|]; cbn in Hu.
        -- destruct Hu as (-> & _). injection Y as <- _. reflexivity.
        -- subst u. cbn [app] in Y. subst e. inversion Ht; reflexivity.
      * intros c t0 Y. destruct Hx as [->|(m & -> & _)]; [discriminate Y|]. injection Y as <- _. reflexivity.
      * exact E4.
      * subst f. destruct st as [st|]; [|cbn in Ha; congruence]. destruct nd as [nd|]; [|cbn in Hn; congruence].
        exists st, nd. repeat split; assumption.
Qed.
