(** * Property C134: representations tell cells, edges and sheets apart *)
From Coq Require Import String Lia QArith_base.
From Verif Require Import PyBase PyBase_Proofs Coords_Model Coords_Proofs Capture_Model Parse_Model ReadRect_Model Dates_Model Whole_Model Repr_Model Repr_Spec Repr_Proofs Named_Model.

Definition texts (l : list (option pystr)) : Prop := forall s, In (Some s) l -> is_text s.
Definition cell_fields (c : full_cell) : list (option pystr) := [f_row c; f_col c; f_brow c; f_bcol c].
Definition edge_fields (e : full_edge) : list (option pystr) := f_mov e :: f_mod e :: cell_fields (f_land e).
(** Neither missing nor empty *)
Definition there (o : option pystr) : Prop := exists c s, o = Some (c :: s).
Definition same_base (c d : full_cell) : Prop :=
  (f_brow c = f_brow d /\ f_bcol c = f_bcol d) \/ Forall (fun o => ~ there o) [f_brow c; f_bcol c; f_brow d; f_bcol d].
Definition same_cell (c d : full_cell) : Prop := f_row c = f_row d /\ f_col c = f_col d /\ same_base c d.

Lemma filled_there : forall o, filled o = true <-> there o.
Proof.
  intros [[|c s]|]; cbn; split; try discriminate; try (intros (x & y & E); discriminate E); [|reflexivity]. intros _. exists c, s. reflexivity.
Qed.
Lemma filled_not : forall o, filled o = false <-> ~ there o.
Proof. intro o. rewrite <- filled_there. destruct (filled o); split; congruence. Qed.

Section Named.
  Variable printable : pychar -> bool.
  Notation field_repr := (field_repr printable).
  Notation cell_repr := (cell_repr printable).
  Notation edge_repr := (edge_repr printable).
  Notation sheet_repr := (sheet_repr printable).

  Lemma field_tells : forall a b, texts [a; b] -> tells field_repr a b.
  Proof.
    intros [s|] [s'|] T x y E; cbn [Named_Model.field_repr] in E.
    - destruct (str_tells printable s s' (T s (or_introl eq_refl)) (T s' (or_intror (or_introl eq_refl))) _ _ E) as [-> ->]. auto.
    - exfalso. destruct (str_starts printable s x) as (h & t & X & Q). rewrite X in E. injection E as E _. subst h. destruct Q; discriminate.
    - exfalso. destruct (str_starts printable s' y) as (h & t & X & Q). rewrite X in E. injection E as E _. subst h. destruct Q; discriminate.
    - apply app_inv_head in E. auto.
  Qed.
  Lemma texts_pair : forall l a b, texts l -> In a l -> In b l -> texts [a; b].
  Proof. intros l a b T A B s [->|[->|[]]]; apply T; assumption. Qed.

  Lemma cell_tells : forall c d x y, texts (cell_fields c ++ cell_fields d) -> cell_repr c ++ x = cell_repr d ++ y -> same_cell c d /\ x = y.
  Proof.
    intros c d x y T E.
    assert (P : forall a b, In a (cell_fields c ++ cell_fields d) -> In b (cell_fields c ++ cell_fields d) -> tells field_repr a b).
    { intros a b A B. apply field_tells. exact (texts_pair _ _ _ T A B). }
    unfold Named_Model.cell_repr in E.
    destruct (filled (f_brow c) || filled (f_bcol c)) eqn:C; destruct (filled (f_brow d) || filled (f_bcol d)) eqn:D;
      rewrite <- !app_assoc in E; apply app_inv_head in E; apply P in E; try (cbn; tauto); destruct E as [E1 E]; apply app_inv_head in E;
      apply P in E; try (cbn; tauto); destruct E as [E2 E].
    - apply app_inv_head in E. apply P in E; try (cbn; tauto). destruct E as [E3 E]. apply app_inv_head in E. apply P in E; try (cbn; tauto). destruct E as [E4 E].
      apply app_inv_head in E. split; [|exact E]. split; [exact E1|]. split; [exact E2|]. left. split; assumption.
    - discriminate E.
    - discriminate E.
    - apply app_inv_head in E. apply Bool.orb_false_iff in C, D. destruct C as [C1 C2], D as [D1 D2]. rewrite filled_not in C1, C2, D1, D2.
      unfold same_cell, same_base. split; [|exact E]. split; [exact E1|]. split; [exact E2|]. right. repeat constructor; assumption.
  Qed.
  Lemma cell_alike : forall c d, same_cell c d -> cell_repr c = cell_repr d.
  Proof.
    intros c d (R & C & B). unfold Named_Model.cell_repr. rewrite R, C. destruct B as [[-> ->]|B]; [reflexivity|].
    rewrite Forall_forall in B. assert (X : forall o, In o [f_brow c; f_bcol c; f_brow d; f_bcol d] -> filled o = false) by (intros o I; apply filled_not; auto).
    rewrite !X by (cbn; tauto). reflexivity.
  Qed.

  (** Cells have the same representation exactly if their coordinates are the same, and so are their bases, or there are none. *)
  Theorem C134_cells : forall c d, texts (cell_fields c ++ cell_fields d) -> (cell_repr c = cell_repr d <-> same_cell c d).
  Proof.
    intros c d T. split; [|apply cell_alike]. intro E. apply (f_equal (fun s => s ++ [])) in E. exact (proj1 (cell_tells c d [] [] T E)).
  Qed.
  Theorem C134_edges : forall e e', texts (edge_fields e ++ edge_fields e') ->
    (edge_repr e = edge_repr e' <-> same_cell (f_land e) (f_land e') /\ f_mov e = f_mov e' /\ f_mod e = f_mod e').
  Proof.
    intros e e' T. split.
    - intro E. unfold Named_Model.edge_repr in E. apply app_inv_head in E. apply cell_tells in E.
      2: { intros s I. apply T. unfold edge_fields. cbn [app]. apply in_app_or in I. right. right. apply in_or_app. destruct I as [I|I]; [now left|]. right. right. now right. }
      destruct E as [C E]. split; [exact C|]. apply app_inv_head in E. apply field_tells in E; [|apply (texts_pair _ _ _ T); cbn; tauto]. destruct E as [-> E].
      apply app_inv_head in E. apply field_tells in E; [|apply (texts_pair _ _ _ T); cbn; tauto]. tauto.
    - intros (C & M & D). unfold Named_Model.edge_repr. rewrite (cell_alike _ _ C), M, D. reflexivity.
  Qed.

  Lemma upper_text : forall s, is_text s -> is_text (upper s).
  Proof.
    intros s H. unfold is_text in *. rewrite Forall_forall in *. intros c I. unfold upper in I. apply in_map_iff in I. destruct I as (b & <- & B). specialize (H b B).
    unfold up. destruct (is_lower b); lia.
  Qed.
  (** Edges made of texts have the same representation exactly if they are the same, *)
  Theorem C134_made : forall r c m d e r' c' m' d' e', texts [r; c; m; d; r'; c'; m'; d'] ->
    full_edge_new r c m d None = Some e -> full_edge_new r' c' m' d' None = Some e' -> (edge_repr e = edge_repr e' <-> e = e').
  Proof.
    intros r c m d e r' c' m' d' e' T H H'. split; [|intros ->; reflexivity].
    assert (K : forall a b c d x, full_edge_new a b c d None = Some x -> x = FullEdge (full_cell_new a b None None) (option_map upper c) d).
    { intros [a|] [b|] [c0|] [d0|] x X; cbn in X; try discriminate X; injection X as <-; reflexivity. }
    apply K in H, H'. subst e e'. intro E. apply C134_edges in E.
    - destruct E as ((R & C & _) & M & D). cbn in *. unfold full_cell_new. rewrite R, C, M, D. reflexivity.
    - assert (U : forall o s, In o [r; c; m; d; r'; c'; m'; d'] -> option_map upper o = Some s -> is_text s).
      { intros o s I E'. destruct o as [t|]; [|discriminate E']. injection E' as <-. apply upper_text. apply T. exact I. }
      intros s I. cbn in I. repeat (destruct I as [I|I]; [solve [discriminate I|apply T; subst; cbn; tauto|eapply U; [|exact I]; cbn; tauto]|]). destruct I.
  Qed.
  (** that is if their texts differ in case only, and not in the modifiers. *)
  Theorem C134_case : forall r c m d r' c' m' d' dflt,
    full_edge_new r c m d dflt = full_edge_new r' c' m' d' dflt <->
    (option_map upper r = option_map upper r' /\ option_map upper c = option_map upper c' /\ option_map upper m = option_map upper m' /\ d = d')
    \/ (exists e, dflt = Some e /\ ((r = None /\ c = None /\ m = None /\ d = None /\ full_edge_new r' c' m' d' None = Some e)
                                  \/ (r' = None /\ c' = None /\ m' = None /\ d' = None /\ full_edge_new r c m d None = Some e))).
  Proof.
    intros r c m d r' c' m' d' dflt.
    assert (K : forall a b c d x, (a = None /\ b = None /\ c = None /\ d = None /\ full_edge_new a b c d x = x)
      \/ (~ (a = None /\ b = None /\ c = None /\ d = None) /\ full_edge_new a b c d x = Some (FullEdge (full_cell_new a b None None) (option_map upper c) d))).
    { intros [a|] [b|] [c0|] [d0|] x; cbn; first [left; tauto | right; split; [intros (? & ? & ? & ?); discriminate|reflexivity]]. }
    assert (N : forall o : option pystr, option_map upper o = None -> o = None) by (intros [o|] E; [discriminate E|reflexivity]).
    split.
    - destruct (K r c m d dflt) as [(-> & -> & -> & -> & ->)|(N1 & ->)]; destruct (K r' c' m' d' dflt) as [(-> & -> & -> & -> & ->)|(N2 & ->)]; intro E.
      + left. tauto.
      + right. eexists. split; [exact E|]. left. repeat (split; [reflexivity|]). destruct (K r' c' m' d' None) as [(? & ? & ? & ? & _)|(_ & X)]; [tauto|exact X].
      + right. eexists. split; [symmetry; exact E|]. right. repeat (split; [reflexivity|]). destruct (K r c m d None) as [(? & ? & ? & ? & _)|(_ & X)]; [tauto|exact X].
      + injection E as E1 E2 E3 E4. left. auto.
    - intros [(R & C & M & <-)|(e & -> & [(-> & -> & -> & -> & E)|(-> & -> & -> & -> & E)])].
      + destruct (K r c m d dflt) as [(-> & -> & -> & -> & X)|(N1 & ->)].
        * symmetry in R, C, M. apply N in R, C, M. subst. reflexivity.
        * destruct (K r' c' m' d dflt) as [(-> & -> & -> & -> & X)|(N2 & ->)]; [apply N in R, C, M; tauto|]. unfold full_cell_new. rewrite R, C, M. reflexivity.
      + cbn. destruct (K r' c' m' d' None) as [(-> & -> & -> & -> & X)|(N2 & X)]; [cbn in E; discriminate E|]. destruct (K r' c' m' d' (Some e)) as [(? & ? & ? & ? & _)|(_ & ->)]; [tauto|]. congruence.
      + cbn. destruct (K r c m d None) as [(-> & -> & -> & -> & X)|(N2 & X)]; [cbn in E; discriminate E|]. destruct (K r c m d (Some e)) as [(? & ? & ? & ? & _)|(_ & ->)]; [tauto|]. congruence.
  Qed.

  (** Sheets have the same representation exactly if they have the same name and place in files of the same URL. *)
  Definition name_of_sheet (o : xl) : pystr := nth (o_index o) (xb_names (o_book o)) [].
  Theorem C134_sheets : forall o o', Forall is_text [o_url o; o_url o'; name_of_sheet o; name_of_sheet o'] ->
    (sheet_repr o = sheet_repr o' <-> o_url o = o_url o' /\ name_of_sheet o = name_of_sheet o' /\ o_index o = o_index o').
  Proof.
    intros o o' T. rewrite Forall_forall in T. unfold Named_Model.sheet_repr. fold (name_of_sheet o) (name_of_sheet o'). split.
    - intro E. apply app_inv_head in E. apply str_tells in E; try (apply T; cbn; tauto). destruct E as [-> E]. apply app_inv_head in E.
      apply str_tells in E; try (apply T; cbn; tauto). destruct E as [-> E]. apply app_inv_head in E. apply app_inv_tail in E.
      apply (f_equal py_int) in E. rewrite !py_int_str_of_Z in E. injection E as E. split; [reflexivity|]. split; [reflexivity|]. lia.
    - intros (-> & -> & ->). reflexivity.
  Qed.
End Named.

(** So it is for cells. *)
Theorem C134_cells_case : forall r c b d r' c' b' d', full_cell_new r c b d = full_cell_new r' c' b' d' <->
  option_map upper r = option_map upper r' /\ option_map upper c = option_map upper c' /\ option_map upper b = option_map upper b' /\ option_map upper d = option_map upper d'.
Proof. intros r c b d r' c' b' d'. split; [intro E; injection E; auto|]. intros (R & C & B & D). unfold full_cell_new. rewrite R, C, B, D. reflexivity. Qed.
Print Assumptions C134_cells_case.

(** The edges are those of the parser, but for the base coordinates. *)
Definition as_coord (o : option pystr) : coord := match o with Some s => CStr s | None => CNone end.
Definition as_edge (e : full_edge) : Capture_Model.edge :=
  Capture_Model.Edge (Cell (as_coord (f_row (f_land e))) (as_coord (f_col (f_land e)))) (f_mov e) (f_mod e).
Theorem C134_models : forall r c m d dflt,
  option_map as_edge (full_edge_new r c m d dflt) = Parse_Model.edge_new r c m d (option_map as_edge dflt).
Proof. intros [r|] [c|] [m|] [d|] [e|]; reflexivity. Qed.
Print Assumptions C134_models.
Print Assumptions C134_cells.
Print Assumptions C134_edges.
Print Assumptions C134_made.
Print Assumptions C134_case.
Print Assumptions C134_sheets.

Definition plain (c : pychar) : bool := false.
Definition t (s : string) : option pystr := Some (lit s).
(** The examples of the documentation of [Edge_new], and others *)
Example C134_example :
  option_map (edge_repr plain) (full_edge_new (t "1") (t "a") (t "Rul") (t "-") None) = t "Edge(land=Cell(row='1', col='A'), mov='RUL', mod='-')" /\
  option_map (edge_repr plain) (full_edge_new (t "Any") (t "foo") (t "BaR") (t "+_&%") None) = t "Edge(land=Cell(row='ANY', col='FOO'), mov='BAR', mod='+_&%')" /\
  full_edge_new None None None None None = None /\
  option_map (edge_repr plain) (full_edge_new (t "1") None None None None) = t "Edge(land=Cell(row='1', col=None), mov=None, mod=None)" /\
  cell_repr plain (full_cell_new (t "1") (t "a") (t "b'") None) = lit "Cell(row='1', col='A', brow=""B'"", bcol=None)" /\
  sheet_repr plain (Xl (lit "file:///a.xls") (XBook [lit "In"; lit "Out"] (fun _ => XSheet 0 0 (fun _ _ => XCell XEmpty (QArith_base.inject_Z 0) [])) false) 1) =
    lit "XlrdSheet(book='file:///a.xls', sheet_ids=['Out', 1])".
Proof. vm_compute. auto 10. Qed.

(** Cells without base coordinates have the same representation as those where they are empty. *)
Theorem C134_empty_refuted : exists c d, c <> d /\ cell_repr plain c = cell_repr plain d.
Proof. exists (full_cell_new (t "1") (t "A") None None), (full_cell_new (t "1") (t "A") (t "") (t "")). split; [discriminate|reflexivity]. Qed.
Print Assumptions C134_empty_refuted.
