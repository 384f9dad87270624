(** * Lassoing the cells of files: proofs *)
From Coq Require Import String QArith.
From Verif Require Import PyBase PyBase_Proofs Json Coords_Model Capture_Model Parse_Model Parse_Spec Lasso_Model Sheets_Model Sheets_Spec Sheets_Proofs.
From Verif Require Import OsPath_Model OsPath_Spec OsPath_Proofs Url_Spec FileUrl_Model FileUrl_Spec FileUrl_Proofs FileUrl_Props ReadRect_Model ReadRect_Spec ReadRect_Props.
From Verif Require Import Coords_Spec Coords_Proofs Capture_Proofs Parse_Props Ranger_Props Dates_Model Dates_Spec Dates_Props Whole_Model Whole_Spec.

(** ** [urldefrag] *)

(** Tabs and line-ends are removed. *)
Definition strip (f : pystr) : pystr := List.filter (fun c => negb (existsb (N.eqb c) [9; 13; 10]%N)) f.

Lemma strip_plain : forall p, plain_chars p -> strip p = p.
Proof.
  intros p H. induction H as [|x l Hx Hl IH]; [reflexivity|]. unfold strip in *. cbn [List.filter].
  assert (existsb (N.eqb x) [9; 13; 10]%N = false) as ->.
  { apply Bool.not_true_iff_false. intros E. apply existsb_exists in E. destruct E as (y & I & E).
    apply N.eqb_eq in E. subst y. apply Hx. cbn [In] in *. tauto. }
  cbn [negb]. rewrite IH. reflexivity.
Qed.

Lemma plain_without : forall c p, plain_chars p -> In c [92; 35; 63; 9; 10; 13]%N -> ~ In c p.
Proof. intros c p H I F. unfold plain_chars in H. rewrite Forall_forall in H. exact (H c F I). Qed.

Lemma in_has_char : forall c s, has_char c s = true <-> In c s.
Proof.
  intros c s. unfold has_char. rewrite existsb_exists. split.
  - intros (x & I & E). apply N.eqb_eq in E. subst x. exact I.
  - intros I. exists c. split; [exact I|apply N.eqb_refl].
Qed.

Lemma split_join_last : forall u, join (lit "/") (split_on (chr "/") u) = u.
Proof. intros u. change (lit "/") with [chr "/"]. apply join_split. Qed.

Lemma params_back : forall u p q, splitparams u = (p, q) -> no_semicolon_end u ->
  (if str_eqb q [] then p else p ++ lit ";" ++ q) = u.
Proof.
  intros u p q E H. unfold splitparams in E.
  set (segs := split_on (chr "/") u) in *.
  assert (NE : segs <> []) by (unfold segs; apply split_on_not_nil).
  destruct (partition1 (chr ";") (last segs [])) as [[a b]|] eqn:P.
  2: { injection E as <- <-. reflexivity. }
  injection E as <- <-. apply partition1_some in P. destruct P as (P & _).
  assert (U : join (lit "/") (removelast segs ++ [a]) ++ lit ";" ++ b = u).
  { rewrite <- (split_join_last u). fold segs. rewrite (app_removelast_last [] NE) at 2. rewrite P.
    generalize (removelast segs) as l. intros l. clear.
    induction l as [|x l IH]; [reflexivity|]. cbn [app].
    destruct l as [|y l]; cbn [app join] in *; rewrite <- ?app_assoc.
    - reflexivity.
    - rewrite <- IH, <- ?app_assoc. reflexivity. }
  destruct (str_eqb b []) eqn:B; [|exact U].
  apply str_eqb_eq in B. subst b. exfalso. rewrite app_nil_r in U. exact (H _ (eq_sym U)).
Qed.

Section Defrag.
  Variable bad_host : pystr -> bool.

  Lemma defrag_local : forall u f, local_path u -> no_semicolon_end u ->
    urldefrag bad_host (u ++ lit "#" ++ f) = (u, strip f).
  Proof.
    intros u f (P & (c0 & r0 & U & C0) & S & D) SC. unfold urldefrag.
    assert (has_char (chr "#") (u ++ lit "#" ++ f) = true) as ->.
    { apply in_has_char. apply in_or_app. right. left. reflexivity. }
    assert (NH : ~ In (chr "#") u) by (apply plain_without; [exact P|cbn [In]; tauto]).
    assert (NQ : ~ In (chr "?") u) by (apply plain_without; [exact P|cbn [In]; tauto]).
    unfold urlparse, urlsplit.
    assert (clean_url (u ++ lit "#" ++ f) = u ++ lit "#" ++ strip f) as ->.
    { unfold clean_url. assert (drop_while (fun c => (c <=? 32)%N) (u ++ lit "#" ++ f) = u ++ lit "#" ++ f) as ->.
      { rewrite U. cbn [app drop_while]. rewrite (proj2 (N.leb_gt c0 32) C0). reflexivity. }
      rewrite filter_app. fold (strip u). rewrite (strip_plain u P). reflexivity. }
    rewrite no_scheme.
    2: { intros a b E Sa. destruct (app_eq_app _ _ _ _ E) as (l & [(E1 & E2)|(E1 & E2)]).
         - (* u = a ++ l *) destruct l as [|x l]; [rewrite app_nil_r in E1; subst a; cbn in E2; discriminate E2|].
           injection E2 as <- _. exact (proj1 (S _ _ E1) Sa).
         - (* a = u ++ l *) destruct l as [|x l]; [cbn in E2; discriminate E2|].
           injection E2 as <- E2. destruct Sa as (c & r & _ & _ & F). rewrite Forall_forall in F.
           assert (I : In (chr "#") a) by (rewrite E1; apply in_or_app; right; left; reflexivity).
           specialize (F _ I). unfold letter in F. change (chr "#") with 35%N in F. lia. }
    assert (starts_with (lit "//") (u ++ lit "#" ++ strip f) = false) as NN.
    { rewrite starts2, U. cbn [app]. destruct (N.eqb_spec c0 47) as [->|X].
      - destruct r0 as [|d r0]; [reflexivity|]. cbn [app].
        destruct (N.eqb_spec d 47) as [->|Y]; [|not_slash d Y].
        exfalso. exact (D _ [] r0 U U).
      - not_slash c0 X. }
    rewrite NN. unfold split1. change (u ++ lit "#" ++ strip f) with (u ++ chr "#" :: strip f).
    rewrite (partition1_app _ _ _ NH), (partition1_none _ _ NQ).
    change (check_netloc bad_host []) with true. cbn [rbind u_scheme u_path u_netloc u_query u_fragment].
    change (in_list [] uses_params) with true. cbv iota.
    destruct (splitparams u) as [p q] eqn:E. cbn [rbind u_scheme u_path u_netloc u_query u_fragment].
    f_equal. unfold urlunparse, urlunsplit. cbn [u_scheme u_path u_netloc u_query u_fragment].
    rewrite (params_back _ _ _ E SC). change (str_eqb [] []) with true. cbn [negb andb orb].
    assert (starts_with (lit "//") u = false) as ->; [|reflexivity].
    rewrite starts2, U. destruct (N.eqb_spec c0 47) as [->|X]; [|not_slash c0 X].
    destruct r0 as [|d r0]; [reflexivity|]. destruct (N.eqb_spec d 47) as [->|Y]; [|not_slash d Y].
    exfalso. exact (D _ [] r0 U U).
  Qed.

  Lemma defrag_none : forall u, ~ In (chr "#") u -> urldefrag bad_host u = (u, []).
  Proof.
    intros u H. unfold urldefrag. destruct (has_char (chr "#") u) eqn:E; [|reflexivity].
    apply in_has_char in E. contradiction.
  Qed.
End Defrag.

(** ** Opening *)

Lemma first_named_fun : forall l n i j, first_named l n i -> first_named l n j -> i = j.
Proof.
  intros l n i j (H1 & H2) (G1 & G2). destruct (Nat.lt_trichotomy i j) as [L|[E|L]]; [|exact E|].
  - exfalso. exact (G2 i L H1).
  - exfalso. exact (H2 j L G1).
Qed.
Lemma first_named_nodup : forall l n i, NoDup l -> nth_error l i = Some n -> first_named l n i.
Proof.
  intros l n i H E. split; [exact E|]. intros j L F.
  assert (i < length l)%nat by (apply nth_error_Some; congruence).
  assert (j = i); [|lia]. apply (proj1 (NoDup_nth_error l) H); [lia|congruence].
Qed.
Lemma open_bound : forall l sh i, open_by_name_or_index l sh = Ok i -> (i < length l)%nat.
Proof.
  assert (forall l z i, sheet_by_index l z = Ok i -> (i < length l)%nat) as S.
  { intros l z i H. apply sheet_by_index_spec in H. destruct H as (H & _). exact H. }
  intros l [|z|n] i H; cbn [open_by_name_or_index] in H; [exact (S _ _ _ H)|exact (S _ _ _ H)|].
  unfold sheet_by_name in H. destruct (find_name n l 0) as [j|] eqn:E.
  - injection H as <-. apply find_name_spec in E. destruct E as (k & -> & (E & _)). apply nth_error_Some. cbn. congruence.
  - destruct (py_int n); [exact (S _ _ _ H)|discriminate H].
Qed.
Lemma open_named : forall l n i, NoDup l -> nth_error l i = Some n -> open_by_name_or_index l (SStr n) = Ok i.
Proof.
  intros l n i H E. apply C69_name; [exact (nth_error_In _ _ E)|]. apply first_named_nodup; assumption.
Qed.
Lemma open_indexed : forall l i, (i < length l)%nat -> open_by_name_or_index l (SInt (Z.of_nat i)) = Ok i.
Proof. intros l i H. apply C69_index. unfold position. lia. Qed.

(** ** Cells *)

Lemma parse_shows : forall x, sound_cell x -> ~ blank x -> exists v, parse_cell xldate_as_datetime false x = Ok v /\ shows x v.
Proof.
  intros x (O & D) B. destruct (x_type x) eqn:T.
  - exfalso. apply B. left. exact T.
  - eexists. split; [apply C68_texts; exact T|]. constructor. exact T.
  - destruct (Qeq_dec (x_num x) (inject_Z (q_trunc (x_num x)))) as [E|E].
    + eexists. split; [apply (proj1 (C68_numbers xldate_as_datetime false x T)); exact E|]. constructor; assumption.
    + assert (F : forall n, ~ (x_num x == inject_Z n)%Q).
      { intros n F. pose proof (proj1 (C68_numbers xldate_as_datetime false x T) n F) as G. unfold parse_cell in G. rewrite T in G.
        destruct (Qeq_bool _ _) eqn:Q in G; [|discriminate G]. injection G as G. apply Qeq_bool_iff in Q. apply E. now rewrite Q. }
      eexists. split; [apply (proj2 (C68_numbers xldate_as_datetime false x T)); exact F|]. constructor; assumption.
  - destruct (D eq_refl) as (P & H). pose proof (not_sixty _ H) as N60. destruct (C98_serial _ P) as (n & S & N & M).
    destruct (meant_of excel_day false (x_num x) n x) as (v & E & V); auto using excel_first.
    + intros k d G L. exact (ne_first k d G L).
    + exists v. split; [exact E|]. apply Shows_date; assumption.
  - destruct (Qeq_dec (x_num x) 0) as [E|E].
    + eexists. split; [apply (proj1 (C68_booleans xldate_as_datetime false x T)); exact E|]. apply Shows_false; assumption.
    + eexists. split; [apply (proj2 (C68_booleans xldate_as_datetime false x T)); exact E|]. apply Shows_true; assumption.
  - eexists. split; [apply C68_errors; exact T|]. apply Shows_error. exact T.
  - exfalso. apply B. right. exact T.
  - congruence.
Qed.

Lemma xlrd_shows : forall s st nd, sound_sheet s -> sorted_rect st nd -> exists t,
  xlrd_read_rect xldate_as_datetime false s st (Some nd) = Ok (XTable t) /\ placed (xlrd_cell shows s) st nd t.
Proof.
  intros s st nd (_ & _ & S) R.
  destruct (C39_xlrd_reads xldate_as_datetime false s st nd R) as (x & E). { intros r c _ _ I. apply S. exact I. }
  destruct (C39_xlrd_placed xldate_as_datetime false s st nd R x E) as (t & -> & (L & P)).
  exists t. split; [exact E|]. split; [exact L|]. intros i row Hi. destruct (P i row Hi) as (L' & P'). split; [exact L'|].
  intros j v Hj. destruct (P' j v Hj) as [(I & B & V)|N]; [left|right; exact N]. split; [exact I|]. split; [exact B|].
  destruct (parse_shows _ (S _ _ I) B) as (v' & V' & H). rewrite V in V'. injection V' as ->. exact H.
Qed.

(** ** Corners *)

Definition alnum (c : N) : Prop := (48 <= c <= 57 \/ 65 <= c <= 90 \/ 97 <= c <= 122)%N.
Lemma number_alnum : forall s, number_text s -> Forall alnum s.
Proof.
  intros s (d & t & -> & D & T). constructor; [left; lia|]. apply Forall_forall. intros c I. specialize (T c I).
  unfold is_digit in T. apply andb_true_iff in T. rewrite !N.leb_le in T. left. exact T.
Qed.
Lemma up_alnum : forall c k, up c = k -> (k = 82 \/ k = 67)%N -> alnum c.
Proof.
  intros c k E K. unfold up in E. unfold alnum. destruct (is_lower c) eqn:L; [|lia]. unfold is_lower in L. apply andb_true_iff in L. rewrite !N.leb_le in L. lia.
Qed.
Lemma corner_alnum : forall t p, corner t p -> Forall alnum t.
Proof.
  intros t p [col row k r (_ & L) _ R _ _|rr cc row col r c RR CC R _ _ C _ _].
  - apply Forall_app. split; [|apply number_alnum; exact R]. apply Forall_forall. intros c I. right. exact (is_alpha_ranges c (L c I)).
  - assert (A : alnum rr) by (eapply up_alnum; eauto). assert (B : alnum cc) by (eapply up_alnum; eauto).
    cbn [app]. constructor; [exact A|]. apply Forall_app. split; [apply number_alnum; exact R|]. constructor; [exact B|]. apply number_alnum; exact C.
Qed.
Lemma corner_not_nil : forall t p, corner t p -> t <> [].
Proof. intros t p [col row k r (L & _) _ _ _ _|rr cc row col r c _ _ _ _ _ _ _ _]; [destruct col; [congruence|discriminate]|discriminate]. Qed.
Lemma number_not_nil : forall s, number_text s -> s <> [].
Proof. intros s (d & t & -> & _). discriminate. Qed.

Lemma corner_cell : forall t p dot, corner t p -> exists c, cell_text dot t c /\ forall u dn base, resolve_cell c u dn base = Ok p.
Proof.
  assert (X : forall first last b s r, py_int s = Some (r + 1)%Z -> (0 <= r)%Z -> denotes first last b (CStr s) r).
  { intros first last b s r E H. replace r with (r + 1 - 1)%Z by lia. apply Dn_pos; [exact E|lia]. }
  intros t p dot [col row k r L N R I P|rr cc row col r c RR CC R I P C J Q].
  - exists (Cell (CStr row) (CStr (upper col))). split; [apply Ct_a1; left; assumption|]. intros u dn base.
    destruct (names_letters _ _ N) as [L' U]. apply resolve_cell_spec; cbn [c_row c_col]; [destruct L'; congruence|].
    split; [apply X; assumption|]. apply Dc_name; [exact L'|]. rewrite U. exact N.
  - exists (Cell (CStr row) (CStr col)). split; [apply Ct_rc; try assumption; left; assumption|]. intros u dn base.
    apply resolve_cell_spec; cbn [c_row c_col]; [pose proof (number_not_nil _ C); congruence|].
    split; [apply X; assumption|]. apply Dc_same, X; assumption.
Qed.
Lemma corner_nonneg : forall t p, corner t p -> (0 <= fst p /\ 0 <= snd p)%Z.
Proof. intros t p [col row k r _ _ _ _ P|rr cc row col r c _ _ _ _ P _ _ Q]; cbn [fst snd]; lia. Qed.

(** ** Xl-refs *)

Lemma translate_plain : forall s, no_quotes s -> translate s = s.
Proof.
  intros s (A & B). unfold translate. rewrite <- map_id. apply map_ext_in. intros c I.
  destruct (N.eqb_spec c 8220) as [->|_]; [contradiction|]. destruct (N.eqb_spec c 8221) as [->|_]; [contradiction|]. reflexivity.
Qed.
Lemma plain_translate : forall s t, plain_quotes s t -> translate s = t.
Proof.
  intros s t H. induction H as [|s t H IH|s t H IH|c s t A B H IH]; [reflexivity| | |]; cbn [translate map]; fold (translate s); rewrite IH; [reflexivity|reflexivity|].
  destruct (N.eqb_spec c 8220); [contradiction|]. destruct (N.eqb_spec c 8221); [contradiction|]. reflexivity.
Qed.
Lemma hash_stays : forall s, ~ In (chr "#") s -> ~ In (chr "#") (translate s).
Proof.
  intros s H I. apply H. unfold translate in I. apply in_map_iff in I. destruct I as (c & E & I).
  destruct ((c =? 8220)%N || (c =? 8221)%N); [discriminate E|]. subst c. exact I.
Qed.

Lemma strip_id : forall s, Forall (fun c => ~ In c [9; 10; 13]%N) s -> strip s = s.
Proof.
  intros s H. induction H as [|x l Hx Hl IH]; [reflexivity|]. unfold strip in *. cbn [List.filter].
  assert (existsb (N.eqb x) [9; 13; 10]%N = false) as ->.
  { apply Bool.not_true_iff_false. intros E. apply existsb_exists in E. destruct E as (y & I & E).
    apply N.eqb_eq in E. subst y. apply Hx. cbn [In] in *. tauto. }
  cbn [negb]. rewrite IH. reflexivity.
Qed.

Lemma alnum_strip : forall t, Forall alnum t -> Forall (fun c => ~ In c [9; 10; 13]%N) t /\ no_quotes t.
Proof.
  intros t H. split.
  - eapply Forall_impl; [|exact H]. intros c A [E|[E|[E|[]]]]; subst c; unfold alnum in A; lia.
  - rewrite Forall_forall in H. split; intros I; specialize (H _ I); unfold alnum in H; lia.
Qed.

(** The text of two corners, or of one *)
Inductive corners : pystr -> coords -> option coords -> Prop :=
| Corners_two : forall t1 t2 a b, corner t1 a -> corner t2 b -> corners (t1 ++ lit ":" ++ t2) a (Some b)
| Corners_one : forall t a, corner t a -> corners t a None.

Lemma corners_chars : forall t a b, corners t a b -> Forall (fun c => ~ In c [9; 10; 13]%N) t /\ no_quotes t.
Proof.
  intros t a b [t1 t2 x y H1 H2|t1 x H].
  - destruct (alnum_strip _ (corner_alnum _ _ H1)) as (A1 & B1 & C1). destruct (alnum_strip _ (corner_alnum _ _ H2)) as (A2 & B2 & C2).
    split.
    + apply Forall_app. split; [exact A1|]. constructor; [intros [E|[E|[E|[]]]]; discriminate E|exact A2].
    + split; intros I; apply in_app_or in I; destruct I as [I|[I|I]]; try discriminate I; contradiction.
  - exact (alnum_strip _ (corner_alnum _ _ H)).
Qed.

Section Parsing.
  Variable bad_host : pystr -> bool.
  Variable loads : pystr -> option json.
  Notation parse := (parse_xlref loads (urldefrag bad_host)).

  Lemma corners_parse : forall n t a b, nameable n -> corners t a b -> exists c1 e2,
    parse_xlref_fragment loads (n ++ lit "!" ++ t) = Ok (Parsed (Some n) (Some (Edge c1 None None)) e2 None None None)
    /\ (forall u dn base, resolve_cell c1 u dn base = Ok a)
    /\ match b with
       | None => e2 = None
       | Some b => exists c2, e2 = Some (Edge c2 None None) /\ forall u dn base, resolve_cell c2 u dn base = Ok b
       end.
  Proof.
    intros n t a b (SN & _ & _ & SP) C.
    assert (Rd : forall f, f_sheet f = Some n -> readable (n ++ lit "!" ++ t) f).
    { intros f E. unfold readable. rewrite E. destruct n as [|x n']; [destruct SN; congruence|]. exists x, n'. split; [reflexivity|]. exact (SP x n' eq_refl). }
    destruct C as [t1 t2 x y H1 H2|t1 x H1].
    - destruct (corner_cell _ _ false H1) as (c1 & T1 & R1). destruct (corner_cell _ _ true H2) as (c2 & T2 & R2).
      exists c1, (Some (Edge c2 None None)).
      pose (f := Frag (Some n) (Some (Edge c1 None None)) true (Some (Edge c2 None None)) None None).
      assert (Ft : frag_text (n ++ lit "!" ++ t1 ++ lit ":" ++ t2) f).
      { apply (Ft_sheet [] n (t1 ++ lit ":" ++ t2) f); [intros c []|exact SN| |reflexivity].
        replace (t1 ++ lit ":" ++ t2) with (t1 ++ (lit ":" ++ t2 ++ []) ++ []) by (rewrite !app_nil_r; reflexivity).
        apply Bt_two; [apply Et_plain; exact T1| |constructor].
        apply St_some; [apply Et_plain; exact T2|reflexivity]. }
      pose proof (C27_print_parse loads _ f Ft (Rd f eq_refl)) as E. cbn in E. split; [exact E|]. split; [exact R1|].
      exists c2. split; [reflexivity|exact R2].
    - destruct (corner_cell _ _ false H1) as (c1 & T1 & R1). exists c1, None.
      pose (f := Frag (Some n) (Some (Edge c1 None None)) false None None None).
      assert (Ft : frag_text (n ++ lit "!" ++ t1) f).
      { apply (Ft_sheet [] n t1 f); [intros c []|exact SN| |reflexivity].
        replace t1 with (t1 ++ []) by apply app_nil_r. apply Bt_one; [apply Et_plain; exact T1|constructor]. }
      pose proof (C27_print_parse loads _ f Ft (Rd f eq_refl)) as E. cbn in E. split; [exact E|]. split; [exact R1|]. reflexivity.
  Qed.

  Lemma fragment_kept : forall n t a b, nameable n -> corners t a b -> strip (n ++ lit "!" ++ t) = n ++ lit "!" ++ t /\ no_quotes (n ++ lit "!" ++ t).
  Proof.
    intros n t a b (_ & (Q1 & Q2) & T & _) C. destruct (corners_chars _ _ _ C) as (T' & Q1' & Q2'). split.
    - apply strip_id. apply Forall_app. split; [exact T|]. constructor; [intros [E|[E|[E|[]]]]; discriminate E|exact T'].
    - split; intros I; apply in_app_or in I; destruct I as [I|[I|I]]; try discriminate I; contradiction.
  Qed.

  Lemma parse_of : forall x u f p, translate x = x -> urldefrag bad_host x = (u, f) -> f <> [] -> parse_xlref_fragment loads f = Ok p ->
    parse x = Ok (ParsedXl p (match u with [] => None | _ => Some u end) x None).
  Proof.
    intros x u f p T U F P. unfold parse_xlref, parse_xlref0. rewrite T, U, P. destruct f; [congruence|]. reflexivity.
  Qed.

  Lemma local_parse : forall p n t a b, local_path p -> no_quotes p -> no_semicolon_end p -> nameable n -> corners t a b ->
    exists c1 e2, parse (p ++ lit "#" ++ n ++ lit "!" ++ t) = Ok (ParsedXl (Parsed (Some n) (Some (Edge c1 None None)) e2 None None None) (Some p) (p ++ lit "#" ++ n ++ lit "!" ++ t) None)
    /\ (forall u dn base, resolve_cell c1 u dn base = Ok a)
    /\ match b with
       | None => e2 = None
       | Some b => exists c2, e2 = Some (Edge c2 None None) /\ forall u dn base, resolve_cell c2 u dn base = Ok b
       end.
  Proof.
    intros p n t a b L (Q1 & Q2) S N C. destruct (corners_parse n t a b N C) as (c1 & e2 & E & R).
    exists c1, e2. split; [|exact R]. destruct (fragment_kept n t a b N C) as (K & Q1' & Q2').
    pose proof (defrag_local bad_host p (n ++ lit "!" ++ t) L S) as D. rewrite K in D.
    assert (Q : no_quotes (p ++ lit "#" ++ n ++ lit "!" ++ t)).
    { split; intros I; apply in_app_or in I; (destruct I as [I|I]; [contradiction|]); apply in_app_or in I; destruct I as [[I|[]]|I]; try discriminate I; contradiction. }
    rewrite (parse_of _ _ _ _ (translate_plain _ Q) D ltac:(destruct n; discriminate) E).
    destruct L as (_ & (c & r & -> & _) & _). reflexivity.
  Qed.

  Lemma hash_alone : forall f, urldefrag bad_host (lit "#" ++ f) = ([], strip f).
  Proof.
    intros f. unfold urldefrag. change (has_char (chr "#") (lit "#" ++ f)) with true. cbv iota. unfold urlparse, urlsplit.
    change (clean_url (lit "#" ++ f)) with (chr "#" :: strip f).
    rewrite no_scheme.
    2: { intros a b E (c & r & -> & A & _). injection E as <- _. unfold letter in A. change (chr "#") with 35%N in A. lia. }
    change (starts_with (lit "//") (chr "#" :: strip f)) with false. cbv iota.
    unfold split1. change (chr "#" :: strip f) with ([] ++ chr "#" :: strip f).
    rewrite (partition1_app _ _ _ (fun I : In _ [] => I)). reflexivity.
  Qed.

  Lemma sibling_parse : forall n t a b, nameable n -> corners t a b ->
    exists c1 e2, parse (lit "#" ++ n ++ lit "!" ++ t) = Ok (ParsedXl (Parsed (Some n) (Some (Edge c1 None None)) e2 None None None) None (lit "#" ++ n ++ lit "!" ++ t) None)
    /\ (forall u dn base, resolve_cell c1 u dn base = Ok a)
    /\ match b with
       | None => e2 = None
       | Some b => exists c2, e2 = Some (Edge c2 None None) /\ forall u dn base, resolve_cell c2 u dn base = Ok b
       end.
  Proof.
    intros n t a b N C. destruct (corners_parse n t a b N C) as (c1 & e2 & E & R).
    exists c1, e2. split; [|exact R]. destruct (fragment_kept n t a b N C) as (K & Q1' & Q2').
    pose proof (hash_alone (n ++ lit "!" ++ t)) as D. rewrite K in D.
    assert (Q : no_quotes (lit "#" ++ n ++ lit "!" ++ t)).
    { split; intros I; apply in_app_or in I; destruct I as [[I|[]]|I]; try discriminate I; contradiction. }
    exact (parse_of _ _ _ _ (translate_plain _ Q) D ltac:(destruct n; discriminate) E).
  Qed.

  (** The workbooks of xl-refs that are parsed *)
  Lemma local_ref_url : forall x p, local_ref x -> parse x = Ok p -> px_key p = None -> exists u, px_url p = Some u /\ local_path u.
  Proof.
    intros x p H E K. unfold parse_xlref in E. destruct (parse_xlref0 loads (urldefrag bad_host) x) as [q|e] eqn:P.
    - injection E as ->. unfold parse_xlref0 in P. destruct H as [H|(u & f & H & L & S)].
      + rewrite (defrag_none bad_host _ (hash_stays _ H)) in P. discriminate P.
      + rewrite (plain_translate _ _ H), (defrag_local bad_host u f L S) in P. destruct (strip f) as [|c r]; [discriminate P|].
        destruct (parse_xlref_fragment loads (c :: r)); [|discriminate P]. cbn [rbind] in P. injection P as <-. exists u.
        split; [|exact L]. destruct L as (_ & (c0 & r0 & -> & _) & _). reflexivity.
    - destruct e; try discriminate E. destruct (Regex.re_match encase_regex x); [|discriminate E].
      unfold rbind in E. clear P. destruct (parse_xlref0 _ _ _); [|discriminate E]. injection E as <-. discriminate K.
  Qed.
End Parsing.

Section Whole.
  Variable lossy : list N -> pystr.
  Variable bad_host : pystr -> bool.
  Variable expandvars : pystr -> pystr.
  Variable expanduser_tilde : pystr -> pystr.
  Variable word_char : pychar -> bool.
  Variable set_list : list key -> list key.
  Variable disk : source -> option xbook.
  Variable to_json : xvalue -> json.
  Variable loads : pystr -> option json.
  Variable base_opts : dict.
  Variable filters : pystr -> option (Lasso_Model.filter xworld (nat * xl)).
  Variable folders : list pystr.

  Hypothesis Hset : distinct_members set_list.
  Hypothesis Hdisk : forall s b, disk s = Some b -> NoDup (xb_names b).
  Hypothesis Hcwd : Forall name folders.
  Hypothesis Hcwd' : Forall (Forall scalar) folders.

  Notation cwd := (folder_path folders).
  Notation to_url := (to_url bad_host expandvars expanduser_tilde cwd).
  Notation open_url := (open_url lossy bad_host expandvars expanduser_tilde word_char disk cwd).
  Notation opens_to := (opens_to lossy bad_host expandvars expanduser_tilde word_char disk cwd).
  Notation fetch := (fetch lossy bad_host expandvars expanduser_tilde word_char set_list disk cwd).

  Lemma url_stays : forall p u, local_path p -> to_url p = Ok u -> to_url u = Ok u.
  Proof. intros p u L E. exact (C88_idempotent _ _ _ _ _ _ _ false _ Hcwd Hcwd' Hcwd Hcwd' L E). Qed.

  Lemma open_url_book : forall url sh o, open_url url sh = Ok o ->
    url <> [] /\ o_url o = url /\ NoDup (xb_names (o_book o)) /\ (o_index o < length (xb_names (o_book o)))%nat
    /\ open_by_name_or_index (xb_names (o_book o)) sh = Ok (o_index o)
    /\ forall sh', open_url url sh' = open_in_book url (o_book o) sh'.
  Proof.
    intros url sh o E. unfold Whole_Model.open_url in *.
    destruct (to_url url) as [u|e] eqn:U; [|discriminate E]. cbn [rbind] in *.
    destruct (bid lossy bad_host word_char u) as [[k|]|e] eqn:B; try discriminate E. cbn [rbind] in *.
    destruct (open_book lossy bad_host url) as [src|e]; [|discriminate E]. cbn [rbind] in *.
    destruct (disk src) as [b|] eqn:D; [|discriminate E].
    unfold open_in_book in E. destruct (open_by_name_or_index (xb_names b) sh) as [i|e] eqn:O; [|discriminate E].
    cbn [rbind] in E. injection E as <-. cbn [o_url o_book o_index].
    split. { intros ->. injection U as <-. discriminate B. }
    split; [reflexivity|]. split; [exact (Hdisk _ _ D)|]. split; [exact (open_bound _ _ _ O)|]. split; [exact O|]. reflexivity.
  Qed.

  Definition steady (o : xl) : Prop := to_url (o_url o) = Ok (o_url o) /\ exists sh, open_url (o_url o) sh = Ok o.

  Lemma steady_ids : forall o sh, steady o -> In sh (snd (o_ids o)) -> open_url (o_url o) sh = Ok o.
  Proof.
    intros o sh (_ & sh0 & E) I. destruct (open_url_book _ _ _ E) as (_ & _ & ND & B & _ & R). rewrite R. unfold open_in_book.
    assert (open_by_name_or_index (xb_names (o_book o)) sh = Ok (o_index o)) as ->.
    { destruct I as [<-|[<-|[]]]; [|apply open_indexed; exact B]. apply open_named; [exact ND|]. apply nth_error_nth'. exact B. }
    destruct o; reflexivity.
  Qed.

  Lemma steady_sibling : forall b sh o, steady b -> open_in_book (o_url b) (o_book b) sh = Ok o -> open_url (o_url b) sh = Ok o /\ steady o /\ o_url o = o_url b.
  Proof.
    intros b sh o (U & sh0 & E) O. destruct (open_url_book _ _ _ E) as (_ & _ & _ & _ & _ & R).
    assert (open_url (o_url b) sh = Ok o) as X by (rewrite R; exact O). split; [exact X|].
    destruct (open_url_book _ _ _ X) as (_ & Y & _). split; [|exact Y]. split; [rewrite Y; exact U|]. exists sh. rewrite Y. exact X.
  Qed.

  (** Every key leads to the sheet that would be opened by it. *)
  Definition coherent (w : xworld) : Prop :=
    proper_dicts (x_factory w) /\
    forall wb sh n, cache_get (x_factory w) (wb, sh) = Some n ->
      exists o, nth_error (x_sheets w) n = Some o /\ steady o /\ to_url wb = Ok (o_url o) /\ open_url (o_url o) sh = Ok o.

  Lemma coherent_new : coherent new_world.
  Proof. split; [split; [constructor|intros wb d []]|]. intros wb sh n E. discriminate E. Qed.

  Lemma coherent_close : forall w, coherent w -> coherent (XWorld (close (x_factory w)) (x_sheets w)).
  Proof. intros w H. split; [split; [constructor|intros wb d []]|]. intros wb sh n E. discriminate E. Qed.

  (** The workbook of a fetch is a local path, or that of a sheet opened before. *)
  Definition proper_fetch (w : xworld) (wb : option pystr) (name : option pystr) (base : option (nat * xl)) : Prop :=
    match wb, base with
    | Some p, _ => local_path p
    | None, Some (n, o) => name <> None /\ nth_error (x_sheets w) n = Some o /\ steady o
    | None, None => False
    end.

  Lemma grows : forall A (l : list A) x n y, nth_error l n = Some y -> nth_error (l ++ [x]) n = Some y.
  Proof. intros A l x n y E. rewrite nth_error_app1; [exact E|]. apply nth_error_Some. congruence. Qed.

  Lemma add_coherent : forall w o wb sh f', coherent w -> steady o -> to_url wb = Ok (o_url o) -> open_url (o_url o) sh = Ok o ->
    add_sheet set_list (ids_in (x_sheets w ++ [o])) (length (x_sheets w)) (One (Some wb)) (One sh) (opened (x_factory w)) = (f', Ok tt) ->
    coherent (XWorld f' (x_sheets w ++ [o])).
  Proof.
    intros w o wb sh f' (Hp & Hc) S U O E.
    assert (Hp' : proper_dicts (opened (x_factory w))) by exact Hp.
    assert (L : nth_error (x_sheets w ++ [o]) (length (x_sheets w)) = Some o) by (rewrite nth_error_app2, Nat.sub_diag by lia; reflexivity).
    split; cbn [x_factory x_sheets].
    - change f' with (fst (f', @Ok unit tt)). rewrite <- E. apply add_sheet_proper. exact Hp'.
    - intros wb' sh' n G. apply (add_sheet_get set_list _ Hset _ _ _ _ _ Hp' E) in G.
      destruct G as [((wb0 & shs & I1 & I2 & I3 & I4) & ->)|(_ & G & _)].
      + exists o. split; [exact L|]. split; [exact S|]. cbn [fst snd] in *. unfold ids_in in I1. rewrite L in I1.
        unfold o_ids in I1. injection I1 as <- <-. split.
        * destruct I2 as [->|I2]; [exact (proj1 S)|]. cbn in I2. injection I2 as ->. exact U.
        * destruct I4 as [I4|I4]; [apply steady_ids; [exact S|exact I4]|]. cbn in I4. subst sh'. exact O.
      + destruct (Hc _ _ _ G) as (o' & G1 & G2). exists o'. split; [apply grows; exact G1|exact G2].
  Qed.

  Lemma opens_add : forall l r wb sh f f' g, open_and_add set_list (ids_in l) r wb sh f = (f', g) -> Sheets_Model.opens f' = S (Sheets_Model.opens f).
  Proof.
    intros l r wb sh f f' g E. unfold open_and_add in E. destruct r as [s|e]; [|injection E as <- _; reflexivity].
    pose proof (add_sheet_opens set_list (ids_in l) s (One (Some wb)) (One sh) (opened f)) as X.
    destruct (add_sheet _ _ _ _ _ _) as [f1 [u|e]]; cbn [fst] in X; injection E as <- _; exact X.
  Qed.

  Lemma fetch_spec : forall w i wb name base s' r, coherent w -> proper_fetch w wb name base ->
    fetch wb name base (State w i) = (s', r) ->
    coherent (world s') /\ inter s' = i /\
    (forall n o, nth_error (x_sheets w) n = Some o -> nth_error (x_sheets (world s')) n = Some o) /\
    match opens_to wb (sheet_id name) base with
    | Ok o => exists n, r = Ok (n, o) /\ nth_error (x_sheets (world s')) n = Some o /\ steady o
    | Raise _ => exists e, r = Raise e
    end.
  Proof.
    intros w i wb name base s' r C P F. unfold Whole_Model.fetch in F. cbn [world inter] in F.
    (* the key, and the sheet that it leads to *)
    assert (K : match (match wb with Some p => rbind (to_url p) (fun _ => Ok tt) | None => Ok tt end) with
                | Raise e => exists e', opens_to wb (sheet_id name) base = Raise e'
                | Ok _ => exists p url, to_url p = Ok url /\ p <> [] /\ to_url url = Ok url
                    /\ opens_to wb (sheet_id name) base = open_url url (sheet_id name)
                    /\ forall f sheets l number, (forall n o, nth_error (x_sheets w) n = Some o -> nth_error l n = Some o) ->
                         fetch_sheet set_list (ids_in l) (fun p => p) (fun _ _ _ => number) (fun _ _ _ => number) wb (sheet_id name) (option_map fst base) f
                         = match cache_get f (p, sheet_id name) with
                           | Some s => (f, Ok s)
                           | None => open_and_add set_list (ids_in l) number p (sheet_id name) f
                           end /\ sheets = sheets :> list xl
                end).
    { destruct wb as [p|].
      - cbn [proper_fetch] in P. unfold Whole_Model.opens_to. destruct (to_url p) as [url|e] eqn:U; cbn [rbind]; [|exists e; reflexivity].
        exists p, url. split; [exact U|]. split. { destruct P as (_ & (c & q & -> & _) & _). discriminate. }
        split; [exact (url_stays _ _ P U)|]. split; [reflexivity|]. intros f sheets l number _. split; reflexivity.
      - destruct base as [[n o]|]; [|destruct P]. destruct P as (N & G & S). destruct name as [nm|]; [|congruence].
        exists (o_url o), (o_url o). split; [exact (proj1 S)|]. destruct S as (U & sh0 & E). destruct (open_url_book _ _ _ E) as (NE & _ & _ & _ & _ & R).
        split; [exact NE|]. split; [exact U|]. split; [cbn [Whole_Model.opens_to snd]; rewrite R; reflexivity|].
        intros f sheets l number H. cbn [fetch_sheet option_map fst sheet_id]. unfold ids_in at 1. rewrite (H _ _ G). cbn [o_ids fst]. split; reflexivity. }
    destruct (match wb with Some p => rbind (to_url p) (fun _ => Ok tt) | None => Ok tt end) as [u|e].
    2: { injection F as <- <-. destruct K as (e' & ->). split; [exact C|]. split; [reflexivity|]. split; [auto|]. exists e. reflexivity. }
    destruct K as (p & url & U & NE & U' & O & K). rewrite O in *.
    set (more := match open_url url (sheet_id name) with Ok o => x_sheets w ++ [o] | Raise _ => x_sheets w end) in *.
    assert (M : forall n o, nth_error (x_sheets w) n = Some o -> nth_error more n = Some o).
    { intros n o G. unfold more. destruct (open_url url (sheet_id name)); [apply grows|]; exact G. }
    destruct (K (x_factory w) [] more (rbind (open_url url (sheet_id name)) (fun _ => Ok (length (x_sheets w)))) M) as [K' _]. rewrite K' in F. clear K K'.
    destruct (cache_get (x_factory w) (p, sheet_id name)) as [n|] eqn:G.
    - rewrite Nat.eqb_refl in F. destruct (proj2 C _ _ _ G) as (o & G1 & G2 & G3 & G4). cbn [rbind] in F. rewrite G1 in F.
      injection F as <- <-. cbn [world inter x_sheets]. rewrite U in G3. injection G3 as ->. rewrite G4.
      split; [destruct w; exact C|]. split; [reflexivity|]. split; [auto|]. exists n. auto.
    - destruct (open_and_add _ _ _ _ _ _) as [f' got] eqn:A. pose proof (opens_add _ _ _ _ _ _ _ A) as X.
      assert (Nat.eqb (Sheets_Model.opens f') (Sheets_Model.opens (x_factory w)) = false) as Y by (apply Nat.eqb_neq; lia). rewrite Y in F. clear X Y.
      injection F as <- <-. cbn [world inter x_sheets].
      destruct (open_url url (sheet_id name)) as [o|e] eqn:E; cbn [rbind] in A; unfold more in *.
      + assert (OU : o_url o = url) by apply (open_url_book _ _ _ E).
        assert (S : steady o) by (split; rewrite OU; [exact U'|exists (sheet_id name); exact E]).
        assert (L : nth_error (x_sheets w ++ [o]) (length (x_sheets w)) = Some o) by (rewrite nth_error_app2, Nat.sub_diag by lia; reflexivity).
        unfold open_and_add in A.
        destruct (add_sheet_iff set_list (ids_in (x_sheets w ++ [o])) Hset (length (x_sheets w)) (One (Some p)) (One (sheet_id name)) (opened (x_factory w))) as (f1 & A1).
        { exists (p, sheet_id name). unfold id_of. do 2 eexists. unfold ids_in. rewrite L. split; [reflexivity|]. cbn. auto. }
        rewrite A1 in A. injection A as <- <-. split.
        * apply (add_coherent w o p (sheet_id name)); [exact C|exact S|rewrite OU; exact U|rewrite OU; exact E|exact A1].
        * split; [reflexivity|]. split; [exact M|]. exists (length (x_sheets w)). cbn [rbind]. rewrite L. auto.
      + cbn [open_and_add] in A. injection A as <- <-. split; [exact C|]. split; [reflexivity|]. split; [exact M|]. exists e. reflexivity.
  Qed.

  (** ** Lassoing *)

  Hypothesis Hfilt : forall n f l args kwds s, filters n = Some f -> world (fst (f_run f l args kwds s)) = world s.

  Notation states := states_of.
  Notation throw := (do_lasso filters base_opts loads (urldefrag bad_host) fetch states_of margins_of (read_of to_json)).
  Notation lasso_files := (lasso_files lossy bad_host expandvars expanduser_tilde word_char set_list disk to_json loads base_opts filters cwd).
  Notation lassos := (lassos lossy bad_host expandvars expanduser_tilde word_char set_list disk to_json loads base_opts filters cwd).

  Lemma make_call_world : forall v c s, world (fst (make_call filters v c s)) = world s.
  Proof.
    intros [l|x] c s; [|reflexivity]. unfold make_call, bind, relasso.
    destruct (filters (cs_func c)) as [f|] eqn:F.
    - pose proof (Hfilt _ f l (cs_args c) (sdel (lit "lax") (cs_kwds c)) (State (world s) (Some (cs_func c, l))) F) as H.
      destruct (f_run f l (cs_args c) (sdel (lit "lax") (cs_kwds c)) (State (world s) (Some (cs_func c, l)))) as [s' [[l'|x]|e]]; cbn [fst world] in H; [exact H| |].
      + destruct (_ && _); [exact H|]. destruct (match sget _ _ with Some _ => _ | None => _ end); exact H.
      + destruct (_ && _); [exact H|]. destruct (match sget _ _ with Some _ => _ | None => _ end); exact H.
    - destruct (_ && _); [reflexivity|]. destruct (match sget _ _ with Some _ => _ | None => _ end); reflexivity.
  Qed.
  Lemma run_filters_world : forall l s, world (fst (run_filters filters l s)) = world s.
  Proof.
    intros l s. unfold run_filters. destruct (l_call l) as [c|]; [|reflexivity]. unfold catching.
    pose proof (make_call_world (inl l) c s) as H. destruct (make_call filters (inl l) c s) as [s' [x|e]]; exact H.
  Qed.

  Definition more_sheets (w w' : xworld) : Prop := forall n o, nth_error (x_sheets w) n = Some o -> nth_error (x_sheets w') n = Some o.

  (** Lassos of local paths keep the cache coherent. *)
  Lemma throw_coherent : forall x ctx s, local_ref x -> coherent (world s) ->
    coherent (world (fst (throw x ctx s))) /\ more_sheets (world s) (world (fst (throw x ctx s))).
  Proof.
    intros x ctx s L C. rewrite do_lasso_eq. cbv zeta.
    assert (X : coherent (world s) /\ more_sheets (world s) (world s)) by (split; [exact C|intros n o H; exact H]).
    destruct (parse_and_merge loads (urldefrag bad_host) x (with_opts base_opts ctx)) as [l1|e] eqn:P; [|exact X].
    unfold parse_and_merge in P. destruct (parse_xlref loads (urldefrag bad_host) x) as [p|e] eqn:E; [|destruct e; discriminate P].
    destruct (px_key p) eqn:K; [discriminate P|]. destruct (local_ref_url _ _ _ _ L E K) as (u & U & LU).
    assert (l_url l1 = Some u) as U1 by (injection P as <-; cbn [l_url]; rewrite U; reflexivity). clear P.
    unfold open_sheet, catching. rewrite U1.
    destruct (fetch (Some u) (l_sheet_name l1) (l_sheet l1) (at_stage (world s) "parse" l1)) as [s2 r] eqn:F.
    destruct (fetch_spec (world s) _ (Some u) (l_sheet_name l1) (l_sheet l1) s2 r C LU F) as (C2 & _ & M & _).
    destruct r as [sh|e]; [|split; [exact C2|exact M]].
    destruct (resolve_rect states_of margins_of (with_sheet sh l1) sh) as [[st nd]|e]; [|split; [exact C2|exact M]].
    destruct (read (read_of to_json) sh st nd) as [v|e]; [|split; [exact C2|exact M]].
    rewrite run_filters_world. split; [exact C2|exact M].
  Qed.

  Lemma lasso_coherent : forall mine x ctx s, local_ref x -> coherent (world s) -> coherent (world (fst (lasso_files mine x ctx s))).
  Proof.
    intros mine x ctx s L C. unfold Whole_Model.lasso_files, lasso_values.
    destruct (throw_coherent x ctx s L C) as (C' & _).
    destruct (throw x ctx s) as [s1 r]. cbn [fst] in C'. destruct mine.
    - unfold close_all. destruct r as [[l|j]|e]; cbn [fst world]; apply coherent_close; exact C'.
    - destruct r as [[l|j]|e]; exact C'.
  Qed.
  Lemma lassos_coherent : forall xs w, Forall local_ref xs -> coherent w -> coherent (lassos xs w).
  Proof.
    induction xs as [|x xs IH]; intros w H C; [exact C|]. inversion H; subst. cbn [Whole_Model.lassos].
    apply IH; [assumption|]. apply lasso_coherent; [assumption|exact C].
  Qed.

  (** What is read of a sheet *)
  Definition taken (s : xsheet) (a : coords) (b : option coords) (v : json) : Prop :=
    match b with
    | Some b => exists t, v = json_of to_json (XTable t) /\ placed (xlrd_cell shows s) (low a b) (high a b) t
    | None => in_xsheet s (fst a) (snd a) /\ exists x, v = to_json x /\ xlrd_cell shows s (fst a) (snd a) x
    end.

  Lemma taken_read : forall n o a b, sound_sheet (o_sheet o) -> (0 <= fst a /\ 0 <= snd a)%Z ->
    match b with Some b => (0 <= fst b /\ 0 <= snd b)%Z | None => in_xsheet (o_sheet o) (fst a) (snd a) end ->
    exists v, read_of to_json (n, o) (Some (match b with Some b => low a b | None => a end)) (option_map (high a) b) = Ok v
      /\ taken (o_sheet o) a b v.
  Proof.
    intros n o a b S A B. destruct b as [b|].
    - destruct (xlrd_shows (o_sheet o) (low a b) (high a b) S) as (t & E & T).
      { unfold sorted_rect, low, high. cbn [fst snd]. lia. }
      exists (json_of to_json (XTable t)). split; [|exists t; auto]. unfold read_of, wrapped_read_rect. cbn [snd w_sheet w_epoch1904 option_map].
      rewrite E. reflexivity.
    - cbn [option_map]. unfold read_of, wrapped_read_rect. cbn [snd w_sheet w_epoch1904].
      pose proof (proj1 (C39_xlrd_single xldate_as_datetime false (o_sheet o) a) B) as R.
      assert (D : blank (xcell_at (o_sheet o) (fst a) (snd a)) \/ ~ blank (xcell_at (o_sheet o) (fst a) (snd a))).
      { unfold blank. destruct (x_type _); auto; right; intros [F|F]; discriminate F. }
      destruct D as [D|D].
      + rewrite (proj2 (R VNone)) by (apply C68_none; exact D). cbn [rbind json_of]. exists (to_json VNone). split; [reflexivity|].
        split; [exact B|]. exists VNone. split; [reflexivity|]. right. split; [|reflexivity]. intros (_ & F). exact (F D).
      + destruct (parse_shows _ (proj2 (proj2 S) _ _ B) D) as (v & E & V). rewrite (proj2 (R v) E). cbn [rbind json_of].
        exists (to_json v). split; [reflexivity|]. split; [exact B|]. exists v. split; [reflexivity|]. left. auto.
  Qed.

  Definition plain_context (ctx : lasso (nat * xl)) : Prop := l_nd_edge ctx = None /\ l_exp ctx = None /\ l_call ctx = None.

  Lemma throw_taken : forall x ctx s url n c1 e2 a b k o s2,
    parse_xlref loads (urldefrag bad_host) x = Ok (ParsedXl (Parsed (Some n) (Some (Edge c1 None None)) e2 None None None) url x None) ->
    (forall u dn base, resolve_cell c1 u dn base = Ok a) ->
    match b with
    | None => e2 = None
    | Some b => exists c2, e2 = Some (Edge c2 None None) /\ forall u dn base, resolve_cell c2 u dn base = Ok b
    end ->
    plain_context ctx ->
    (forall i, fetch (or_else url (l_url ctx)) (Some n) (l_sheet ctx) (State (world s) i) = (State s2 i, Ok (k, o))) ->
    sound_sheet (o_sheet o) -> (0 <= fst a /\ 0 <= snd a)%Z ->
    match b with Some b => (0 <= fst b /\ 0 <= snd b)%Z | None => in_xsheet (o_sheet o) (fst a) (snd a) end ->
    exists s' l, throw x ctx s = (s', Ok (inl l)) /\ world s' = s2 /\ l_sheet l = Some (k, o) /\ taken (o_sheet o) a b (l_values l).
  Proof.
    intros x ctx s url n c1 e2 a b k o s2 P R1 R2 (N1 & N2 & N3) F S A B.
    destruct (taken_read k o a b S A B) as (v & RD & T).
    assert (exists l1, parse_and_merge loads (urldefrag bad_host) x (with_opts base_opts ctx) = Ok l1 /\ l_url l1 = or_else url (l_url ctx)
      /\ l_sheet_name l1 = Some n /\ l_sheet l1 = l_sheet ctx /\ l_st_edge l1 = Some (Edge c1 None None) /\ l_nd_edge l1 = e2 /\ l_exp l1 = None /\ l_call l1 = None) as (l1 & M & M1 & M2 & M3 & M4 & M5 & M6 & M7).
    { unfold parse_and_merge. rewrite P. cbn [px_key px p_sheet p_st p_nd p_exp p_call p_opts px_url px_ref]. eexists. split; [reflexivity|].
      cbn [l_url l_sheet_name l_sheet l_st_edge l_nd_edge l_exp l_call with_opts or_else].
      repeat (split; [reflexivity|]). rewrite N1, N2, N3. repeat (split; [try reflexivity; destruct e2; reflexivity|]). reflexivity. }
    pose proof S as (S1 & S2 & _).
    specialize (F (Some (lit "parse", l1))). change (State (world s) (Some (lit "parse", l1))) with (at_stage (world s) "parse" l1) in F.
    rewrite <- M1, <- M3 in F. rewrite <- M2 in F.
    destruct (C66_values_read filters base_opts loads (urldefrag bad_host) fetch states_of margins_of (read_of to_json) x ctx s l1 (k, o) _ _ _ _
                (match b with Some b => low a b | None => a end) (option_map (high a) b) v M F eq_refl (C67_xlrd _ S1 S2) M4) as (s' & l & E & V & _ & _ & SH & _ & W).
    - rewrite M5, M6. destruct b as [b|].
      + destruct R2 as (c2 & -> & R2). unfold low, high. cbn [option_map]. apply capture_plain; [apply R1|apply R2].
      + subst e2. unfold resolve_capture_rect, capture_st. cbn [land mov]. rewrite R1. reflexivity.
    - exact RD.
    - exact M7.
    - exists s', l. split; [exact E|]. split; [exact W|]. split; [exact SH|]. rewrite V. exact T.
  Qed.

  Lemma fetch_total : forall wb name base w, exists s2 r, forall i, fetch wb name base (State w i) = (State s2 i, r).
  Proof.
    intros wb name base w. unfold Whole_Model.fetch. cbn [world inter].
    destruct (match wb with Some p => _ | None => _ end); [|do 2 eexists; reflexivity].
    destruct (Sheets_Model.fetch_sheet _ _ _ _ _ _ _ _ _) as [f' g]. do 2 eexists. reflexivity.
  Qed.

  Lemma book_opens : forall p b n i base, book_path (word word_char) cwd p -> disk (File (abspath cwd p)) = Some b ->
    nth_error (xb_names b) i = Some n -> exists url, opens_to (Some p) (SStr n) base = Ok (Xl url b i).
  Proof.
    intros p b n i base (L & _ & _ & O & H & LEN & X) D N.
    destruct (C89_open lossy bad_host expandvars expanduser_tilde folders p false Hcwd Hcwd' L O H LEN) as (url & U & OB).
    pose proof (proj1 (C89_bid lossy bad_host expandvars expanduser_tilde word_char folders p false url Hcwd Hcwd' L O H LEN U) X) as BD.
    exists url. cbn [Whole_Model.opens_to]. change (path2url bad_host expandvars expanduser_tilde cwd p false false) with (to_url p) in U.
    rewrite U. cbn [rbind]. unfold Whole_Model.open_url. rewrite (url_stays _ _ L U). cbn [rbind]. rewrite BD. cbn [rbind]. rewrite OB. cbn [rbind].
    rewrite D. unfold open_in_book. rewrite (open_named _ _ _ (Hdisk _ _ D) N). reflexivity.
  Qed.

  Lemma corners_nonneg : forall t a b, corners t a b -> (0 <= fst a /\ 0 <= snd a)%Z /\ match b with Some b => (0 <= fst b /\ 0 <= snd b)%Z | None => True end.
  Proof.
    intros t a b [t1 t2 x y H1 H2|t1 x H]; split; try (eapply corner_nonneg; eassumption). exact I.
  Qed.

  (** The cells of a file *)
  Lemma throw_file : forall p b n i t a c ctx s, coherent (world s) -> plain_context ctx ->
    book_path (word word_char) cwd p -> disk (File (abspath cwd p)) = Some b -> nth_error (xb_names b) i = Some n -> nameable n ->
    corners t a c -> sound_sheet (xb_sheet b i) -> (c = None -> in_xsheet (xb_sheet b i) (fst a) (snd a)) ->
    exists s' l k o, throw (p ++ lit "#" ++ n ++ lit "!" ++ t) ctx s = (s', Ok (inl l)) /\ coherent (world s') /\
      l_sheet l = Some (k, o) /\ nth_error (x_sheets (world s')) k = Some o /\ steady o /\ o_book o = b /\
      taken (xb_sheet b i) a c (l_values l).
  Proof.
    intros p b n i t a c ctx s C P B D N NM T S I. destruct (book_opens p b n i (l_sheet ctx) B D N) as (url & O).
    destruct (fetch_total (Some p) (Some n) (l_sheet ctx) (world s)) as (w2 & r & F).
    destruct (fetch_spec (world s) None (Some p) (Some n) (l_sheet ctx) (State w2 None) r C (proj1 B) (F None)) as (C2 & _ & _ & X).
    cbn [sheet_id] in X. rewrite O in X. destruct X as (k & -> & G & ST).
    destruct B as (B1 & B2 & B3 & _). destruct (local_parse bad_host loads p n t a c B1 B2 B3 NM T) as (c1 & e2 & PX & R1 & R2).
    destruct (corners_nonneg t a c T) as (Na & Nc).
    destruct (throw_taken _ ctx s (Some p) n c1 e2 a c k (Xl url b i) w2 PX R1 R2 P F S Na) as (s' & l & E & W & SH & TK).
    { destruct c; [exact Nc|apply I; reflexivity]. }
    exists s', l, k, (Xl url b i). rewrite W. repeat (split; [assumption || reflexivity|]). exact TK.
  Qed.

  (** The cells of another sheet of the same book *)
  Lemma throw_sibling : forall k o n i t a c ctx s, coherent (world s) -> plain_context ctx -> l_url ctx = None -> l_sheet ctx = Some (k, o) ->
    nth_error (x_sheets (world s)) k = Some o -> steady o -> nth_error (xb_names (o_book o)) i = Some n -> nameable n ->
    corners t a c -> sound_sheet (xb_sheet (o_book o) i) -> (c = None -> in_xsheet (xb_sheet (o_book o) i) (fst a) (snd a)) ->
    exists s' l, throw (lit "#" ++ n ++ lit "!" ++ t) ctx s = (s', Ok (inl l)) /\ taken (xb_sheet (o_book o) i) a c (l_values l).
  Proof.
    intros k o n i t a c ctx s C P U SH0 G0 ST0 N NM T S I.
    destruct (fetch_total None (Some n) (Some (k, o)) (world s)) as (w2 & r & F).
    destruct (fetch_spec (world s) None None (Some n) (Some (k, o)) (State w2 None) r C ltac:(split; [discriminate|split; assumption]) (F None)) as (C2 & _ & _ & X).
    assert (ND : NoDup (xb_names (o_book o))). { destruct ST0 as (_ & sh & E). apply (open_url_book _ _ _ E). }
    cbn [sheet_id Whole_Model.opens_to snd] in X. unfold open_in_book in X. rewrite (open_named _ _ _ ND N) in X. cbn [rbind] in X.
    destruct X as (j & -> & G & ST).
    destruct (sibling_parse bad_host loads n t a c NM T) as (c1 & e2 & PX & R1 & R2).
    destruct (corners_nonneg t a c T) as (Na & Nc).
    destruct (throw_taken _ ctx s None n c1 e2 a c j (Xl (o_url o) (o_book o) i) w2 PX R1 R2 P) as (s' & l & E & W & SH & TK).
    - rewrite U, SH0. exact F.
    - exact S.
    - exact Na.
    - destruct c; [exact Nc|apply I; reflexivity].
    - exists s', l. split; [exact E|exact TK].
  Qed.
End Whole.
