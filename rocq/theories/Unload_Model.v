(** * Sheets that are closed while their workbook stays in use

    The sheets of one workbook, fetched with a [SheetsFactory] as siblings of each other. *)
From Coq Require Import String.
From Verif Require Import PyBase Coords_Model Capture_Model Sheets_Model ReadRect_Model.

(** The factory, and the positions in the workbook of the sheets made so far *)
Record obook := OBook { ob_factory : factory; ob_made : list nat }.

Section Unload.
  Variable set_list : list key -> list key.
  (** [book.sheet_names()] *)
  Variable names : list pystr.
  (** The workbook as it was first asked for, and its URL *)
  Variable path url : pystr.

  (** _xlrd.py:165-167 [get_sheet_ids] *)
  Definition made_ids (made : list nat) (s : nat) : option pystr * list sid :=
    match nth_error made s with
    | Some i => (Some url, [SStr (nth i names []); SInt (Z.of_nat i)])
    | None => (None, [])
    end.

  (** _xlrd.py:157-159 [_close]: [Book.unload_sheet(name)] of xlrd sets
      [_sheet_list[_sheet_names.index(name)]] to [None]. *)
  Definition unloads (made : list nat) (e : event) : option nat :=
    match e with
    | Closed s => match nth_error made s with Some i => find_name (nth i names []) names 0 | None => None end
    | _ => None
    end.
  Definition unloaded (w : obook) (i : nat) : bool :=
    existsb (fun e => match unloads (ob_made w) e with Some j => Nat.eqb i j | None => false end) (events (ob_factory w)).

  (** [Book.sheet_by_index] of xlrd is [_sheet_list[i] or get_sheet(i)], and [get_sheet] fails:
      books that are not opened with [on_demand] have released their files. *)
  Definition loaded_by_index (w : obook) (z : Z) : res nat :=
    do i <- sheet_by_index names z;
    if unloaded w i then Raise (OtherError 2) else Ok i.
  Definition loaded_by_name (w : obook) (n : pystr) : res nat :=
    do i <- sheet_by_name names n;
    loaded_by_index w (Z.of_nat i).
  (** _xlrd.py:123-142 [_open_sheet_by_name_or_index]; any failure with the name tries it as an index. *)
  Definition open_loaded (w : obook) (id : sid) : res nat :=
    match id with
    | SNone => loaded_by_index w 0
    | SInt z => loaded_by_index w z
    | SStr n =>
        match loaded_by_name w n with
        | Ok i => Ok i
        | Raise e => match py_int n with None => Raise e | Some z => loaded_by_index w z end
        end
    end.

  (** backend.py:216-245 [fetch_sheet]: what is opened becomes the next sheet. *)
  Definition fetch_made (wb : option pystr) (sh : sid) (base : option nat) (w : obook) : obook * res nat :=
    let r := open_loaded w sh in
    let more := match r with Ok i => ob_made w ++ [i] | Raise _ => ob_made w end in
    let number := do _ <- r; Ok (length (ob_made w)) in
    let (f', got) := fetch_sheet set_list (made_ids more) (fun _ => url) (fun _ _ _ => number) (fun _ _ _ => number) wb sh base (ob_factory w) in
    (OBook f' (if Nat.eqb (opens f') (opens (ob_factory w)) then ob_made w else more), got).

  (** The first fetch opens the workbook; the others are given a sheet of it as [base_sheet], by its number. *)
  Definition first_fetch (sh : sid) : obook * res nat := fetch_made (Some path) sh None (OBook new_factory []).
  Definition next_fetch (w : obook) (q : nat * sid) : obook * res nat := fetch_made None (snd q) (Some (fst q)) w.
  Fixpoint next_fetches (w : obook) (l : list (nat * sid)) : obook :=
    match l with [] => w | q :: l' => next_fetches (fst (next_fetch w q)) l' end.
End Unload.

(** backend.py:192-197 [close], with _xlrd.py:161-163 [_close_all]: [Book.release_resources()] of xlrd
    leaves the sheets that are loaded. *)
Definition close_book (w : obook) : obook := OBook (close (ob_factory w)) (ob_made w).
