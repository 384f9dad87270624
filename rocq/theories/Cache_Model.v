(** * What a sheet remembers: model of the caches of [ABCSheet],
      [/repo/pandalone/xleash/io/backend.py] lines 331-332, 365-375 and 408-428, of [ArraySheet]
      (lines 436-462) and of [XlrdSheet.read_rect], [/repo/pandalone/xleash/io/_xlrd.py] lines 188-212 *)
From Coq Require Import String QArith.
From Verif Require Import PyBase Coords_Model Capture_Model Sheets_Model ReadRect_Model.
Open Scope Z_scope.

(** ** Any sheet *)
Section Sheet.
  (** What is wrapped, as it is at some moment; what is read from it (values) *)
  Context {K V : Type}.
  (** [_read_states_matrix], [_read_margin_coords] and [read_rect] of the class; the latter is given
      [get_states_matrix()] because that of xlrd-sheets asks for it. *)
  Variable read_states : K -> res mat.
  Variable read_margins : K -> res (option coords * option coords).
  Variable reads_states : option coords -> bool.
  Variable read : K -> res mat -> coords -> option coords -> res V.

  (** A sheet: what it wraps, [_states_matrix] and [_margin_coords] *)
  Record sheet := Sheet { s_cells : K; s_states : option mat; s_margins : option (coords * coords) }.
  (** Just made (backend.py:331-332) *)
  Definition made (k : K) : sheet := Sheet k None None.

  (** backend.py:365-375 [get_states_matrix]: what raises is not remembered. *)
  Definition get_states (s : sheet) : sheet * res mat :=
    match s_states s with
    | Some m => (s, Ok m)
    | None =>
        match read_states (s_cells s) with
        | Ok m => (Sheet (s_cells s) (Some m) (s_margins s), Ok m)
        | Raise e => (s, Raise e)
        end
    end.

  (** backend.py:408-428 [get_margin_coords]; pairs of coords are truthy, and so are coords. *)
  Definition get_margins (s : sheet) : sheet * res (coords * coords) :=
    match s_margins s with
    | Some b => (s, Ok b)
    | None =>
        match read_margins (s_cells s) with
        | Raise e => (s, Raise e)
        | Ok (Some up, Some dn) => (Sheet (s_cells s) (s_states s) (Some (up, dn)), Ok (up, dn))
        | Ok (up, dn) =>
            match get_states s with
            | (s', Raise e) => (s', Raise e)
            | (s', Ok sm) =>
                let (up1, dn1) := margin_coords sm in
                let b := (match up with Some u => u | None => up1 end, match dn with Some d => d | None => dn1 end) in
                (Sheet (s_cells s') (s_states s') (Some b), Ok b)
            end
        end
    end.

  (** [read_rect]; the states are asked for when the class does so. *)
  Definition get_rect (s : sheet) (st : coords) (nd : option coords) : sheet * res V :=
    if reads_states nd then
      let (s', sm) := get_states s in (s', read (s_cells s) sm st nd)
    else (s, read (s_cells s) (Raise EmptyCapture) st nd).

  (** What can happen to a sheet: questions; the wrapped thing changing behind its back (an array
      is not copied, backend.py:440 [np.asarray]); and the receiver of the states writing on them
      (they are given the array remembered, not a copy of it). *)
  Inductive event :=
  | AskStates
  | AskMargins
  | AskRect (st : coords) (nd : option coords)
  | Change (k : K)
  | Scribble (m : mat).
  Inductive answer :=
  | States (r : res mat)
  | Margins (r : res (coords * coords))
  | Rect (r : res V)
  | Silence.

  Definition step (s : sheet) (e : event) : sheet * answer :=
    match e with
    | AskStates => let (s', r) := get_states s in (s', States r)
    | AskMargins => let (s', r) := get_margins s in (s', Margins r)
    | AskRect st nd => let (s', r) := get_rect s st nd in (s', Rect r)
    | Change k => (Sheet k (s_states s) (s_margins s), Silence)
    | Scribble m => (match s_states s with
                     | Some _ => Sheet (s_cells s) (Some m) (s_margins s)
                     | None => s
                     end, Silence)
    end.

  (** A history: each event with what was wrapped when it came, and its answer *)
  Fixpoint history (s : sheet) (l : list event) : list (K * event * answer) :=
    match l with
    | [] => []
    | e :: l' => let (s', a) := step s e in (s_cells s, e, a) :: history s' l'
    end.
End Sheet.

Arguments event : clear implicits.
Arguments answer : clear implicits.
Arguments sheet : clear implicits.

(** ** Array sheets, backend.py:436-462 *)
Section Array.
  Context {V : Type}.
  Definition array_history (a : array V) : list (event (array V)) -> list (array V * event (array V) * answer (reading V)) :=
    history array_states (fun _ => Ok (None, None)) (fun _ => false)
            (fun a _ st nd => array_read_rect a st nd) (made a).
End Array.

(** ** xlrd sheets, _xlrd.py:176-212 *)
Section Xlrd.
  Variable as_datetime : Q -> bool -> datetime.
  Variable epoch1904 : bool.
  (** _xlrd.py:203-210, with the states given *)
  Definition read_cell_of (s : xsheet) (sm : mat) (r c : Z) : res xvalue :=
    match (do full <- get sm (r, c);
           if full then do x <- xl_cell s r c; do v <- parse_cell as_datetime epoch1904 x; Ok (Some v) else Ok None) with
    | Ok (Some v) => Ok v
    | Ok None | Raise IndexError => Ok VNone
    | Raise e => Raise e
    end.
  (** _xlrd.py:188-212 [read_rect], with the states given *)
  Definition xlrd_read_of (s : xsheet) (sm : res mat) (st : coords) (nd : option coords) : res xreading :=
    match nd with
    | None => do x <- xl_cell s (fst st) (snd st); do v <- parse_cell as_datetime epoch1904 x; Ok (XScalar v)
    | Some nd =>
        do sm <- sm;
        do t <- rmap (fun r => rmap (fun c => read_cell_of s sm r c) (zrange (snd st) (snd nd + 1))) (zrange (fst st) (fst nd + 1));
        Ok (XTable t)
    end.
  Definition xlrd_history (s : xsheet) : list (event xsheet) -> list (xsheet * event xsheet * answer xreading) :=
    history (fun s => Ok (xlrd_states s)) xlrd_read_margins
            (fun nd => match nd with None => false | Some _ => true end) xlrd_read_of (made s).
End Xlrd.
