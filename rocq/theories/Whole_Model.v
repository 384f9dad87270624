(** * Lassoing the cells of files: the parts of xleash put together

    The ranger of [Lasso_Model], with the [SheetsFactory] of [Sheets_Model] whose single
    backend is that of [FileUrl_Model] and [ReadRect_Model].  Files do not change. *)
From Coq Require Import String QArith.
From Verif Require Import PyBase Json Coords_Model Capture_Model Parse_Model Lasso_Model Sheets_Model.
From Verif Require Import OsPath_Model FileUrl_Model ReadRect_Model Dates_Model.

(** _xlrd.py:145-155 [XlrdSheet]: its [book_fname], and the sheet by its position in the book *)
Record xl := Xl { o_url : pystr; o_book : xbook; o_index : nat }.
Definition o_sheet (o : xl) : xsheet := xb_sheet (o_book o) (o_index o).
(** _xlrd.py:165-167 [get_sheet_ids] *)
Definition o_ids (o : xl) : option pystr * list sid :=
  (Some (o_url o), [SStr (nth (o_index o) (xb_names (o_book o)) []); SInt (Z.of_nat (o_index o))]).

(** The factory, and the sheets made so far, by their number *)
Record xworld := XWorld { x_factory : factory; x_sheets : list xl }.
Definition new_world : xworld := XWorld new_factory [].

Section Whole.
  Variable lossy : list N -> pystr.
  Variable bad_host : pystr -> bool.
  Variable expandvars : pystr -> pystr.
  Variable expanduser_tilde : pystr -> pystr.
  Variable word_char : pychar -> bool.
  Variable set_list : list key -> list key.
  (** What is found in files, and downloaded *)
  Variable disk : source -> option xbook.
  (** [json] has no floats, nor dates. *)
  Variable to_json : xvalue -> json.
  Variable loads : pystr -> option json.
  Variable base_opts : dict.
  Variable filters : pystr -> option (Lasso_Model.filter xworld (nat * xl)).
  (** [os.getcwd()] *)
  Variable cwd : pystr.

  Definition to_url (p : pystr) : res pystr := path2url bad_host expandvars expanduser_tilde cwd p false false.

  (** [urllib.parse.urldefrag]; that of URLs with malformed hosts fails. *)
  Definition urldefrag (url : pystr) : pystr * pystr :=
    if has_char (chr "#") url then
      match urlparse bad_host url [] with
      | Ok (r, params) =>
          (urlunparse {| u_scheme := u_scheme r; u_netloc := u_netloc r; u_path := u_path r;
                         u_query := u_query r; u_fragment := [] |} params, u_fragment r)
      | Raise _ => ([], [])
      end
    else (url, []).

  (** _xlrd.py:123-142 *)
  Definition open_in_book (url : pystr) (b : xbook) (sh : sid) : res xl :=
    do i <- open_by_name_or_index (xb_names b) sh;
    Ok (Xl url b i).

  (** backend.py:89-103, 110-115 and _xlrd.py:223-230 *)
  Definition open_url (url : pystr) (sh : sid) : res xl :=
    do wb_url <- to_url url;
    do score <- bid lossy bad_host word_char wb_url;
    match score with
    | None => Raise ValueError
    | Some _ =>
        do src <- open_book lossy bad_host url;
        match disk src with
        | None => Raise IOError
        | Some b => open_in_book url b sh
        end
    end.

  Definition sheet_id (name : option pystr) : sid := match name with None => SNone | Some n => SStr n end.

  (** What would be opened *)
  Definition opens_to (wb : option pystr) (sh : sid) (base : option (nat * xl)) : res xl :=
    match wb, base with
    | Some p, _ => do url <- to_url p; open_url url sh
    | None, Some b => open_in_book (o_url (snd b)) (o_book (snd b)) sh
    | None, None => Raise ValueError
    end.

  Definition ids_in (l : list xl) (s : nat) : option pystr * list sid :=
    match nth_error l s with Some o => o_ids o | None => (None, []) end.

  (** backend.py:216-245 [fetch_sheet]: what is opened becomes the next sheet.
      [path2url] is called first, when there is a workbook. *)
  Definition fetch (wb : option pystr) (name : option pystr) (base : option (nat * xl)) : M xworld (nat * xl) (nat * xl) := fun s =>
    match (match wb with Some p => do _ <- to_url p; Ok tt | None => Ok tt end) with
    | Raise e => (s, Raise e)
    | Ok _ =>
        let f := x_factory (world s) in
        let sheets := x_sheets (world s) in
        let r := opens_to wb (sheet_id name) base in
        let more := match r with Ok o => sheets ++ [o] | Raise _ => sheets end in
        let number := do _ <- r; Ok (length sheets) in
        let (f', got) := fetch_sheet set_list (ids_in more) (fun p => p) (fun _ _ _ => number) (fun _ _ _ => number)
                           wb (sheet_id name) (option_map fst base) f in
        let sheets' := if Nat.eqb (opens f') (opens f) then sheets else more in
        (State (XWorld f' sheets') (inter s),
         do n <- got; match nth_error sheets' n with Some o => Ok (n, o) | None => Raise AssertionError end)
    end.

  (** _xlrd.py:176-186 *)
  Definition states_of (sh : nat * xl) : res mat := Ok (xlrd_states (o_sheet (snd sh))).
  Definition margins_of (sh : nat * xl) : res (coords * coords) := xlrd_margins (o_sheet (snd sh)).
  (** _xlrd.py:188-212; [epoch1904] is never given. *)
  Definition json_of (x : xreading) : json :=
    match x with
    | XScalar v => to_json v
    | XTable t => JList (map (fun row => JList (map to_json row)) t)
    end.
  Definition read_of (sh : nat * xl) (st nd : option coords) : res json :=
    match st with
    | None => Raise TypeError
    | Some st => do x <- wrapped_read_rect (Wrapped (o_sheet (snd sh)) false) st nd; Ok (json_of x)
    end.
  (** backend.py:192-197 *)
  Definition close_all : M xworld (nat * xl) unit := fun s =>
    (State (XWorld (close (x_factory (world s))) (x_sheets (world s))) (inter s), Ok tt).

  (** _lasso.py:316-392 *)
  Definition lasso_files : bool -> pystr -> lasso (nat * xl) -> M xworld (nat * xl) json :=
    lasso_values filters base_opts loads urldefrag fetch states_of margins_of read_of close_all.

  (** The context of [lasso] by default *)
  Definition no_context : lasso (nat * xl) := Lasso (nat * xl) None None None None None None None None None None JNull None [].

  (** Some lassos with the same factory *)
  Fixpoint lassos (xlrefs : list pystr) (w : xworld) : xworld :=
    match xlrefs with
    | [] => w
    | x :: rest => lassos rest (world (fst (lasso_files false x no_context (State w None))))
    end.
End Whole.
