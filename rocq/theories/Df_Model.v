(** * The "df" filter: model of xleash/_pandas_filters.py *)
From Coq Require Import String.
From Verif Require Import PyBase.

(** Cells of the captured table: [None], texts, and anything else. *)
Inductive cell := CNone | CStr (s : pystr) | COther (n : nat).

(** A captured table: a list of rows, as [read_rect] makes them (no two rows are the same list
    object, hence assigning to a cell changes one row). *)
Notation table := (list (list cell)) (only parsing).

(** [header], [index_col] and [skiprows] arguments; lists are those that [is_list_like]. *)
Inductive rows_arg := RNone | RBool (b : bool) | RInt (z : Z) | RList (l : list Z).

(** [usecols] arguments. *)
Inductive cols_arg := UNone | UInt (z : Z) | UStr (s : pystr) | UList (l : list Z).

(** [NotImplementedError] *)
Definition NotImplemented : exn := OtherError 2.

(** [range(a, b)] *)
Definition zrange (a b : Z) : list Z :=
  map (fun i => (a + Z.of_nat i)%Z) (seq 0 (Z.to_nat (b - a))).

(** _pandas_filters.py:47-54 *)
Definition validate_header_arg (header : rows_arg) : res unit :=
  match header with RBool _ => Raise TypeError | _ => Ok tt end.

(** _pandas_filters.py:57-93.  The module has no [_range2cols], hence line 91 raises. *)
Definition maybe_convert_usecols (usecols : cols_arg) : res cols_arg :=
  match usecols with
  | UNone => Ok UNone
  | UInt z => Ok (UList (zrange 0 (z + 1)))
  | UStr _ => Raise NameError
  | UList l => Ok (UList l)
  end.

(** [data[row][col] == "" or data[row][col] is None], line 186 *)
Definition blank (c : cell) : bool :=
  match c with CNone => true | CStr [] => true | _ => false end.

Definition get {A} (l : list A) (z : Z) : res A :=
  match list_getitem l z with Some x => Ok x | None => Raise IndexError end.

Definition put {A} (l : list A) (z : Z) (v : A) : res (list A) :=
  match list_setitem l z v with Some l' => Ok l' | None => Raise IndexError end.

Definition get_cell (data : table) (row col : Z) : res cell :=
  do r <- get data row; get r col.

Definition put_cell (data : table) (row col : Z) (v : cell) : res table :=
  do r <- get data row; do r' <- put r col v; put data row r'.

(** _pandas_filters.py:185-189, the inner loop *)
Fixpoint fill_rows (col : Z) (rows : list Z) (last : cell) (data : table) : res table :=
  match rows with
  | [] => Ok data
  | row :: rest =>
      do c <- get_cell data row col;
      if blank c then do data' <- put_cell data row col last; fill_rows col rest last data'
      else fill_rows col rest c data
  end.

(** _pandas_filters.py:182-189 *)
Fixpoint fill_cols (offset : Z) (cols : list Z) (data : table) : res table :=
  match cols with
  | [] => Ok data
  | col :: rest =>
      do last <- get_cell data offset col;
      do data' <- fill_rows col (zrange (offset + 1) (Z.of_nat (length data))) last data;
      fill_cols offset rest data'
  end.

(** [max(l)] *)
Definition py_max (l : list Z) : res Z :=
  match l with [] => Raise ValueError | z :: l' => Ok (fold_left Z.max l' z) end.

(** _pandas_filters.py:173-177.  [1 + None] is a TypeError. *)
Definition data_offset (header : rows_arg) : res Z :=
  match header with
  | RNone => Raise TypeError
  | RBool b => Ok (1 + (if b then 1 else 0))%Z
  | RInt z => Ok (1 + z)%Z
  | RList l => do m <- py_max l; Ok (1 + m)%Z
  end.

(** _pandas_filters.py:172-189 *)
Definition fill_index (header index_col : rows_arg) (data : table) : res table :=
  match index_col with
  | RList cols =>
      do offset <- data_offset header;
      if (offset <? Z.of_nat (length data))%Z then fill_cols offset cols data else Ok data
  | _ => Ok data
  end.

(** _pandas_filters.py:194 *)
Definition no_none (c : cell) : cell := match c with CNone => CStr [] | _ => c end.

(** _pandas_filters.py:149-150 *)
Definition single_header (header : rows_arg) : rows_arg :=
  match header with RList [z] => RInt z | _ => header end.

(** [_fill_mi_header(row, control_row)] of [pandas/io/excel/_util.py], v0.24.2 (imported at
    _pandas_filters.py:22-26): its loop over the cells but the first.  Not in the repository. *)
Fixpoint fill_mi_cells (last : cell) (row : list cell) (control : list bool) : res (list cell * list bool) :=
  match row, control with
  | [], _ => Ok ([], control)
  | _, [] => Raise IndexError
  | c :: row', open :: control' =>
      let last := if open then last else c in
      let '(c, open, last) := if blank c then (last, open, last) else (c, false, c) in
      do (row', control') <- fill_mi_cells last row' control';
      Ok (c :: row', open :: control')
  end.
Definition pandas_fill_mi_header (row : list cell) (control : list bool) : res (list cell * list bool) :=
  match row with
  | [] => Raise IndexError
  | c :: row' =>
      do (row', control') <- fill_mi_cells c row' (tl control);
      Ok (c :: row', firstn 1 control ++ control')
  end.

(** _pandas_filters.py:138-140 *)
Definition rejected_args : list pystr :=
  map lit ["skip_footer"; "chunksize"; "date_parser"; "converted"]%string.

Section Oracles.
  (** pandas' [_fill_mi_header(row, control_row)] and [_pop_header_name(row, index_col)]:
      functions of what they are given.  (Lines 162-166 serve pandas < 0.19, not modelled.) *)
  Variable fill_mi_header : list cell -> list bool -> res (list cell * list bool).
  Variable pop_header_name : list cell -> rows_arg -> res (cell * list cell).

  (** [TextParser(data, ...).read()]: [None] when it raises [EmptyDataError].  The arguments
      that the filter just passes on are those of the oracle. *)
  Variable frame : Type.
  Variable parse : table -> rows_arg -> rows_arg -> bool -> rows_arg -> cols_arg -> option frame.
  Variable set_names : frame -> list cell -> frame.
  Variable empty_frame : frame.

  (** What the filter returns: its lasso with the values replaced, or a value that is no lasso
      (line 145). *)
  Inductive filtered := Filtered (values : frame) | Bare (values : frame).

  (** _pandas_filters.py:157-170, the loop *)
  Fixpoint fill_headers (index_col skiprows : rows_arg) (rows : list Z) (control : list bool)
           (names : list cell) (data : table) : res (table * list cell) :=
    match rows with
    | [] => Ok (data, names)
    | row0 :: rest =>
        let row := match skiprows with RInt z => (row0 + z)%Z | _ => row0 end in
        do r <- get data row;
        do (r', control') <- fill_mi_header r control;
        do data' <- put data row r';
        match index_col with
        | RNone => fill_headers index_col skiprows rest control' names data'
        | _ =>
            do (name, r'') <- pop_header_name r' index_col;
            do data'' <- put data' row r'';
            fill_headers index_col skiprows rest control' (names ++ [name]) data''
        end
    end.

  (** _pandas_filters.py:152-170.  [data] is not empty (line 144). *)
  Definition do_headers (header index_col skiprows : rows_arg) (data : table)
    : res (table * list cell) :=
    match header with
    | RList rows =>
        do r0 <- get data 0;
        fill_headers index_col skiprows rows (map (fun _ => true) r0) [] data
    | _ => Ok (data, [])
    end.

  (** The tables given to the parser: _pandas_filters.py:149-194 *)
  Definition prepare (header index_col skiprows : rows_arg) (data : table)
    : res (table * list cell) :=
    let header := single_header header in
    do (data1, names) <- do_headers header index_col skiprows data;
    do data2 <- fill_index header index_col data1;
    Ok (map (map no_none) data2, names).

  (** [is_list_like(header) and len(header) > 1], line 191 *)
  Definition has_index_names (header : rows_arg) : bool :=
    match header with RList (_ :: _ :: _) => true | _ => false end.

  (** _pandas_filters.py:96-231 without [squeeze]; [kwds] are the names of the further keyword
      arguments. *)
  Definition df_filter (header index_col skiprows : rows_arg) (usecols : cols_arg)
             (kwds : list pystr) (data : table) : res filtered :=
    do _ <- validate_header_arg header;
    if existsb (fun k => existsb (str_eqb k) kwds) rejected_args then Raise NotImplemented else
    match data with
    | [] => Ok (Bare empty_frame)
    | _ =>
        do cols <- maybe_convert_usecols usecols;
        do (data', names) <- prepare header index_col skiprows data;
        let header := single_header header in
        match parse data' header index_col (has_index_names header) skiprows cols with
        | None => Ok (Filtered empty_frame)
        | Some f =>
            Ok (Filtered (match names with [] => f | _ => set_names f names end))
        end
    end.
End Oracles.
