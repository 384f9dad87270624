(** * The "df" filter: properties *)
From Coq Require Import String FinFun Lia.
From Verif Require Import PyBase Df_Model Df_Spec Df_Proofs.

Section Oracles.
  Variable fill_mi_header : list cell -> list bool -> res (list cell * list bool).
  Variable pop_header_name : list cell -> rows_arg -> res (cell * list cell).
  Variable frame : Type.
  Variable parse : list (list cell) -> rows_arg -> rows_arg -> bool -> rows_arg -> cols_arg -> option frame.
  Variable set_names : frame -> list cell -> frame.
  Variable empty_frame : frame.
  Let prepare := prepare fill_mi_header pop_header_name.
  Let df_filter := df_filter fill_mi_header pop_header_name frame parse set_names empty_frame.

  (** With one header row, blank cells of index columns below it stand for the nearest one above
      them; all other cells are shown as they are. *)
  Theorem C83_index_filled : forall w h cols skiprows data header,
    header = RInt (Z.of_nat h) \/ header = RList [Z.of_nat h] ->
    rect w data -> columns_exist w cols ->
    exists t, prepare header (RList cols) skiprows data = Ok (t, []) /\
      index_filled w (S h) cols data t.
  Proof.
    intros w h cols skiprows data header Hh R X. unfold prepare, Df_Model.prepare.
    replace (single_header header) with (RInt (Z.of_nat h)) by (destruct Hh; subst; reflexivity).
    cbn [do_headers rbind].
    destruct (fill_index_spec w (S h) (RInt (Z.of_nat h)) cols data R X) as (t & E & F).
    - unfold data_offset. f_equal. rewrite Nat2Z.inj_succ. apply Z.add_comm.
    - rewrite E. cbn [rbind]. eexists. split; [reflexivity|exact F].
  Qed.

  (** With many header rows (and no [skiprows] number) that holds below the last of them; each
      header row has given one name. *)
  Theorem C83_index_filled_headers : forall w h hs cols skiprows data t names,
    (forall row ctl row' ctl', fill_mi_header row ctl = Ok (row', ctl') -> length row' = length row) ->
    (forall row i name row', pop_header_name row i = Ok (name, row') -> length row' = length row) ->
    (forall n, skiprows <> RInt n) ->
    rect w data -> columns_exist w cols ->
    2 <= length hs -> In h hs -> (forall x, In x hs -> x <= h) ->
    prepare (RList (map Z.of_nat hs)) (RList cols) skiprows data = Ok (t, names) ->
    data_filled w (S h) cols data t /\ length names = length hs.
  Proof.
    intros w h hs cols skiprows data t names F P K R X L I M E.
    refine (prepare_list _ _ w h hs cols skiprows data t names _ F P _ R X M I E L).
    - intros ->. inversion I.
    - destruct skiprows as [| |n|]; try exact Logic.I. exact (K n eq_refl).
  Qed.

  (** Without index columns, the cells are shown as they are. *)
  Theorem C83_shown : forall w h index_col skiprows data,
    rect w data -> (forall l, index_col <> RList l) ->
    exists t, prepare (RInt h) index_col skiprows data = Ok (t, []) /\ length t = length data /\
      forall r c, r < length data -> c < w ->
        exists c0 v, cell_of data r c = Some c0 /\ cell_of t r c = Some v /\ shown c0 v.
  Proof.
    intros w h i s data R N. exists (map (map no_none) data). split.
    - unfold prepare, Df_Model.prepare. cbn [single_header do_headers rbind].
      destruct i as [| | |l]; try reflexivity. destruct (N l eq_refl).
    - split; [apply map_length|]. intros r c Hr Hc.
      destruct (cell_of_in w data r c R Hr Hc) as (v & E). exists v, (no_none v).
      rewrite cell_of_map, E. repeat split; auto. apply shown_no_none.
  Qed.

  (** Refused arguments: boolean headers and some keywords, whatever the table. *)
  Theorem C83_refused_header : forall b index_col skiprows usecols kwds data,
    df_filter (RBool b) index_col skiprows usecols kwds data = Raise TypeError.
  Proof. reflexivity. Qed.

  Theorem C83_refused_keywords : forall header index_col skiprows usecols kwds data k,
    (forall b, header <> RBool b) ->
    In k (map lit ["skip_footer"; "chunksize"; "date_parser"; "converted"]%string) -> In k kwds ->
    df_filter header index_col skiprows usecols kwds data = Raise NotImplemented.
  Proof.
    intros header i s u kwds data k Nb Hk Hin. unfold df_filter, Df_Model.df_filter.
    replace (validate_header_arg header) with (@Ok unit tt)
      by (destruct header as [|b| |]; try reflexivity; destruct (Nb b eq_refl)).
    cbn [rbind].
    replace (existsb _ rejected_args) with true; [reflexivity|]. symmetry.
    apply existsb_exists. exists k. split; [exact Hk|]. apply existsb_exists. exists k.
    split; [exact Hin|]. apply PyBase_Proofs.str_eqb_refl.
  Qed.

  (** A number of columns means all up to that one. *)
  Theorem C83_columns_number : forall z, exists l, maybe_convert_usecols (UInt z) = Ok (UList l) /\
    NoDup l /\ forall c, In c l <-> (0 <= c <= z)%Z.
  Proof.
    intro z. eexists. split; [reflexivity|]. unfold zrange. split.
    - apply FinFun.Injective_map_NoDup; [intros a b E; simpl in E; lia|apply seq_NoDup].
    - intro c. rewrite in_map_iff. split.
      + intros (i & <- & Hi). apply in_seq in Hi. lia.
      + intro Hc. exists (Z.to_nat c). split; [lia|]. apply in_seq. lia.
  Qed.

  (** What is returned for a captured table is a lasso, if anything is. *)
  Theorem C83_lasso : forall header index_col skiprows usecols kwds data out, data <> [] ->
    df_filter header index_col skiprows usecols kwds data = Ok out ->
    exists f, out = Filtered frame f.
  Proof.
    intros header i s u kwds data out N E. unfold df_filter, Df_Model.df_filter in E.
    destruct (validate_header_arg header); [|discriminate]. cbn [rbind] in E.
    destruct (existsb _ _); [discriminate|]. destruct data as [|row data]; [congruence|].
    destruct (maybe_convert_usecols u) as [cols|]; [|discriminate]. cbn [rbind] in E.
    destruct (Df_Model.prepare _ _ _ _ _ _) as [[t names]|]; [|discriminate]. cbn [rbind] in E.
    destruct (parse _ _ _ _ _ _); injection E as <-; eexists; reflexivity.
  Qed.

  (** But for the empty table it is none (line 145). *)
  Theorem C83_lasso_refuted : exists data f,
    df_filter (RInt 0) RNone RNone UNone [] data = Ok (Bare frame f).
  Proof. exists [], empty_frame. reflexivity. Qed.

  (** Columns given by text, as "A:C", never work: there is no [_range2cols] (line 91). *)
  Theorem C83_columns_text_refuted : exists text data,
    df_filter (RInt 0) RNone RNone (UStr text) [] data = Raise NameError.
  Proof. exists (lit "A:C"), [[COther 1]]. reflexivity. Qed.

  (** Index columns in a table without headers do not work (line 175). *)
  Theorem C83_no_header_refuted : exists data,
    rect 2 data /\ columns_exist 2 [0%Z] /\
    df_filter RNone (RList [0%Z]) RNone UNone [] data = Raise TypeError.
  Proof.
    exists [[CStr (lit "a"); COther 1]; [CNone; COther 2]]. repeat split; repeat constructor; discriminate.
  Qed.

  (** The documentation excludes [converters]; the code refuses "converted" instead (line 139). *)
  Theorem C83_unsupported_refuted : exists kwds data out,
    In (lit "converters") kwds /\
    df_filter (RInt 0) RNone RNone UNone kwds data = Ok (Filtered frame out).
  Proof.
    exists [lit "converters"].
    destruct (parse [[COther 1]] (RInt 0) RNone false RNone UNone) as [f|] eqn:E.
    - exists [[COther 1]], f. split; [left; reflexivity|].
      unfold df_filter, Df_Model.df_filter. simpl. rewrite E. reflexivity.
    - exists [[COther 1]], empty_frame. split; [left; reflexivity|].
      unfold df_filter, Df_Model.df_filter. simpl. rewrite E. reflexivity.
  Qed.

  (** With rows to skip the header is at row [skiprows + header], but index columns are filled
      from row [header + 1] on: the first blank index takes the text of the header. *)
  Theorem C83_skiprows_refuted : exists data t,
    rect 2 data /\
    prepare (RInt 0) (RList [0%Z]) (RInt 1) data = Ok (t, []) /\
    cell_of data 1 0 = Some (CStr (lit "key")) /\ (* the header *)
    cell_of data 2 0 = Some CNone /\ (* the first index *)
    cell_of t 2 0 = Some (CStr (lit "key")).
  Proof.
    exists [[CStr (lit "title"); CNone]; [CStr (lit "key"); CStr (lit "val")]; [CNone; COther 1]].
    eexists. split; [repeat constructor|]. split; [vm_compute; reflexivity|].
    repeat split.
  Qed.
End Oracles.

(** Two index columns, the second counted from the end; the table starts with blank indices. *)
Example C83_example :
  let s := fun x => CStr (lit x) in
  prepare (fun r c => Ok (r, c)) (fun r _ => Ok (CNone, r)) (RInt 0) (RList [0; -1]%Z) RNone
    [[s "k"; s "v"; s "l"]; [CNone; COther 1; s "p"]; [s "a"; CNone; CNone];
     [s ""; COther 3; s "q"]; [s "b"; s ""; s ""]]%string
  = Ok ([[s "k"; s "v"; s "l"]; [s ""; COther 1; s "p"]; [s "a"; s ""; s "p"];
     [s "a"; COther 3; s "q"]; [s "b"; s ""; s "q"]]%string, []).
Proof. reflexivity. Qed.

(** Two header rows. *)
Example C83_headers_example :
  let s := fun x => CStr (lit x) in
  prepare (fun r c => Ok (r, c)) (fun r _ => Ok (hd CNone r, CStr [] :: tl r))
    (RList [0; 1]%Z) (RList [0]%Z) RNone
    [[s "k"; s "v"]; [s "kk"; CNone]; [s "a"; COther 1]; [CNone; COther 2]]%string
  = Ok ([[s ""; s "v"]; [s ""; s ""]; [s "a"; COther 1]; [s "a"; COther 2]]%string,
        [s "k"; s "kk"]%string).
Proof. reflexivity. Qed.

(** With many header rows, with pandas' own [_fill_mi_header]: an empty cell of a header row is
    the cell of the nearest column before it where a header of that or an upper row starts. *)
Theorem C83_headers_filled : forall pop w data a r b skiprows,
  (0 < w)%nat -> rect w data -> (forall n, skiprows <> RInt n) -> a ++ b <> [] -> NoDup (a ++ r :: b) ->
  Forall (fun x => (x < length data)%nat) (a ++ r :: b) ->
  exists t, prepare pandas_fill_mi_header pop (RList (map Z.of_nat (a ++ r :: b))) RNone skiprows data = Ok (t, []) /\
    (forall c c0, (c < w)%nat -> header_column data (a ++ [r]) c c0 ->
      exists v v', cell_of data r c0 = Some v /\ cell_of t r c = Some v' /\ shown v v') /\
    forall x c v, ~ In x (a ++ r :: b) -> cell_of data x c = Some v -> exists v', cell_of t x c = Some v' /\ shown v v'.
Proof.
  intros pop w data a r b skiprows W R K NE N F.
  assert (SH : single_header (RList (map Z.of_nat (a ++ r :: b))) = RList (map Z.of_nat (a ++ r :: b))).
  { destruct a as [|x [|y a]]; [|reflexivity|reflexivity]. destruct b; [destruct NE; reflexivity|reflexivity]. }
  destruct data as [|r0 data']. { rewrite Forall_app in F. destruct F as (_ & F). inversion F as [|x l X]. cbn in X. lia. }
  set (data := r0 :: data') in *.
  destruct (fill_headers_cells pop skiprows w data W R) with (hs := a ++ r :: b) (pre := @nil nat) (ctl := map (fun _ : cell => true) r0) (names := @nil cell) (t1 := data)
    as (t & E & L & Rt & S & H).
  - destruct skiprows as [| |n|]; try exact Logic.I. exact (K n eq_refl).
  - exact N.
  - exact F.
  - split; [rewrite map_length; inversion R; assumption|]. intros c _. split.
    + intros X. rewrite nth_error_map in X. destruct (nth_error r0 c); discriminate X.
    + intros (x & v & [] & _).
  - reflexivity.
  - exact R.
  - reflexivity.
  - exists (map (map no_none) t). split; [|split].
    + unfold prepare. rewrite SH. cbn [do_headers]. unfold get. change (list_getitem data 0) with (list_getitem data (Z.of_nat 0)). rewrite getitem_nat. cbn [nth_error rbind data].
      fold data. rewrite E. reflexivity.
    + intros c c0 Hc HC. rewrite Forall_app in F. destruct F as (_ & F). inversion F as [|x l F1 F2]; subst.
      destruct (cell_of_in w data r c0 R F1) as (v & V). { destruct HC. lia. }
      exists v, (no_none v). split; [exact V|]. rewrite cell_of_map, (H a r b c c0 eq_refl Hc HC), V. split; [reflexivity|apply shown_no_none].
    + intros x c v I V. exists (no_none v). rewrite cell_of_map. unfold cell_of in *. rewrite (S x I). destruct (nth_error data x) as [row|]; [|discriminate V]. rewrite V.
      split; [reflexivity|apply shown_no_none].
Qed.
Example C83_headers_filled_example :
  let s := fun x => CStr (lit x) in
  prepare pandas_fill_mi_header (fun r _ => Ok (CNone, r)) (RList [0; 1]%Z) RNone RNone
    [[s "a"; CNone; s "b"; s ""]; [s "x"; CNone; CNone; s "y"]; [CNone; CNone; CNone; COther 1]]%string
  = Ok ([[s "a"; s "a"; s "b"; s "b"]; [s "x"; s "x"; s ""; s "y"]; [s ""; s ""; s ""; COther 1]]%string, []).
Proof. reflexivity. Qed.
(** The parser is told of index names only if there is more than one header row. *)
Example C83_index_names_example :
  let told := fun header => df_filter (fun r c => Ok (r, c)) (fun r _ => Ok (CNone, r)) bool (fun _ _ _ n _ _ => Some n) (fun f _ => f) false
    header RNone RNone UNone [] [[CNone]; [CNone]] in
  told (RList [0; 1]%Z) = Ok (Filtered _ true) /\ told (RList [0]%Z) = Ok (Filtered _ false) /\ told (RList []) = Ok (Filtered _ false) /\ told RNone = Ok (Filtered _ false).
Proof. repeat split. Qed.

Print Assumptions C83_headers_filled.
Print Assumptions C83_index_filled.
Print Assumptions C83_index_filled_headers.
Print Assumptions C83_shown.
Print Assumptions C83_refused_header.
Print Assumptions C83_refused_keywords.
Print Assumptions C83_columns_number.
Print Assumptions C83_lasso.
Print Assumptions C83_lasso_refuted.
Print Assumptions C83_columns_text_refuted.
Print Assumptions C83_no_header_refuted.
Print Assumptions C83_unsupported_refuted.
Print Assumptions C83_skiprows_refuted.
