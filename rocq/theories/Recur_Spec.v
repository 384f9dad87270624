(** * Recursive lassos over files: what is meant

    What a text stands for at a place: the values of the cells meant (see [Meaning_Spec]); and,
    when the text asks for it, with the texts among these values that refer to other cells
    replaced by what they stand for at the place where they are.  Further filters may be asked
    for, one after the other, for all values or for each one replaced. *)
From Coq Require Import String.
From Verif Require Import PyBase Json Coords_Model Coords_Spec Capture_Model Capture_Spec Parse_Model Parse_Spec Lasso_Spec.
From Verif Require Import OsPath_Model OsPath_Spec FileUrl_Model FileUrl_Spec ReadRect_Model ReadRect_Spec Dates_Model Dates_Spec Whole_Spec Meaning_Spec.
Open Scope Z_scope.

(** A sheet of a book, by its position; and a cell that dots count from *)
Definition place : Type := option (xbook * nat).

Section Stands.
  Variable word : N -> Prop.
  Variable cwd : pystr.
  Variable disk : source -> option xbook.
  Variable to_json : xvalue -> json.
  Variable loads : pystr -> option json.
  (** Whether captures of nothing are forbidden, and whether pandas is installed *)
  Variable no_empty has_pandas : Prop.
  (** What the other filters, with these arguments, do to values *)
  Variable effect : pystr -> list json -> list (pystr * json) -> json -> json -> Prop.

  (** The sheet referred to: one of a file, by its name or the first one; or one of the book
      where the text is, by its name or the same one. *)
  Definition refers (at_ : place) (p : pystr) (n : option pystr) (b : xbook) (i : nat) : Prop :=
    (book_path word cwd p /\ disk (File (abspath cwd p)) = Some b /\ sheet_number b n i)
    \/ (p = [] /\ exists j, at_ = Some (b, j) /\ match n with Some n => nth_error (xb_names b) i = Some n | None => i = j end).

  Definition captures (s : xsheet) (f : frag) (base : option coords) (r : res (coords * option coords)) : Prop :=
    exists m up e1, cells_of s m /\ first_of m up /\ meant_st f = Some e1 /\ within (last_of s) e1 /\
      (forall e, meant_nd f = Some e -> within (last_of s) e) /\
      means m up (last_of s) base e1 (meant_nd f) (f_exp f) r.

  Definition rows_of (t : list (list json)) : json := JList (map JList t).
  (** The values in what is captured *)
  Definition holds (s : xsheet) (r : res (coords * option coords)) (v : json) : Prop :=
    match r with
    | Ok (a, Some b) => exists t, v = rows_of (map (map to_json) t) /\ placed (xlrd_cell shows s) a b t
    | Ok (a, None) => in_xsheet s (fst a) (snd a) /\ exists x, v = to_json x /\ xlrd_cell shows s (fst a) (snd a) x
    | Raise EmptyCapture => ~ no_empty /\ v = rows_of []
    | Raise _ => False
    end.
  Definition start (r : res (coords * option coords)) : option coords := match r with Ok (a, _) => Some a | Raise _ => None end.

  (** ** The arguments of [recurse] *)

  (** The [i]th one, by position or by name; [None] when it is missing *)
  Definition given (c : call_spec) (i : nat) (name : string) (v : option json) : Prop :=
    match v with
    | Some v => nth_error (cs_args c) i = Some v \/ ((length (cs_args c) <= i)%nat /\ sget (lit name) (cs_kwds c) = Some v)
    | None => (length (cs_args c) <= i)%nat /\ sget (lit name) (cs_kwds c) = None
    end.
  Definition names_in_order : list string := ["filters"; "include"; "exclude"; "depth"]%string.
  (** No others are given, besides the [lax] of all filters. *)
  Definition known (c : call_spec) : Prop :=
    (length (cs_args c) <= 4)%nat /\
    forall k v, In (k, v) (cs_kwds c) -> k = lit "lax" \/ exists i n, (length (cs_args c) <= i)%nat /\ nth_error names_in_order i = Some n /\ k = lit n.

  (** Lists of calls *)
  Definition calls_told (j : option json) (cs : list call_spec) : Prop :=
    match j with None => cs = [] | Some (JList l) => Forall2 call_of l cs | _ => False end.
  (** One key or many; none at all is no condition *)
  Definition keys_told (j : option json) (ks : list pystr) : Prop :=
    match j with
    | None | Some JNull => ks = []
    | Some (JStr s) => (s = [] /\ ks = []) \/ (s <> [] /\ ks = [s])
    | Some (JList l) => l = map JStr ks
    | _ => False
    end.
  Definition included (inc exc : list pystr) (k : pystr) : Prop := (inc = [] \/ In k inc) /\ ~ In k exc.
  (** The level not entered; only numbers tell one *)
  Definition stops (j : option json) (level : Z) : Prop :=
    match j with Some (JNum z) => level = z | Some (JBool b) => level = if b then 1 else 0 | _ => False end.

  (** ** Values at levels *)

  (** Item [i] of a list at that level: lists are of rows, these of cells, and what is in cells is
      at the same place.  With pandas, all are at the start. *)
  Definition item_at (level : Z) (base : option coords) (i : nat) (base' : option coords) : Prop :=
    (has_pandas -> base' = base) /\
    (~ has_pandas -> base' = option_map (fun p =>
       if level =? 0 then (fst p + Z.of_nat i, snd p) else if level =? 1 then (fst p, snd p + Z.of_nat i) else p) base).

  (** Values without texts to replace *)
  Definition kept (x : json) : Prop := match x with JStr t => ~ In (chr "#") t | JList _ | JDict _ => False | _ => True end.
  (** Texts are replaced as [R] tells, which is given what the dots count from, in lists and dictionaries. *)
  Inductive spread (R : option coords -> pystr -> json -> Prop) (inc : pystr -> Prop) (stop : Z -> Prop) : Z -> option coords -> json -> json -> Prop :=
  | Sp_stop : forall n base x, stop n -> spread R inc stop n base x x
  | Sp_kept : forall n base x, kept x -> spread R inc stop n base x x
  | Sp_text : forall n base t y, ~ stop n -> R base t y -> spread R inc stop n base (JStr t) y
  | Sp_list : forall n base xs ys, ~ stop n -> length xs = length ys ->
      (forall i x y base', nth_error xs i = Some x -> nth_error ys i = Some y -> item_at n base i base' -> spread R inc stop (n + 1) base' x y) ->
      spread R inc stop n base (JList xs) (JList ys)
  | Sp_dict : forall n base d d', ~ stop n -> map fst d = map fst d' ->
      (forall i k x y, nth_error d i = Some (k, x) -> nth_error d' i = Some (k, y) -> inc k -> spread R inc stop (n + 1) None x y) ->
      (forall i k x y, nth_error d i = Some (k, x) -> nth_error d' i = Some (k, y) -> ~ inc k -> y = x) ->
      spread R inc stop n base (JDict d) (JDict d').

  (** Dates that are not in the middle of two milliseconds *)
  Definition sharp_sheet (s : xsheet) : Prop := forall r c, in_xsheet s r c -> x_type (xcell_at s r c) = XDate ->
    forall n m, serial_ms (x_num (xcell_at s r c)) n -> serial_ms (x_num (xcell_at s r c)) m -> n = m.

  (** ** Filters and texts *)

  (** Calls one after the other *)
  Inductive chain (act : call_spec -> json -> json -> Prop) : list call_spec -> json -> json -> Prop :=
  | Ch_none : forall v, chain act [] v v
  | Ch_call : forall c cs v v1 v2, act c v v1 -> chain act cs v1 v2 -> chain act (c :: cs) v v2.

  (** The text, at a place, stands for [v], after the filter asked for, if any: with values of the sheet [to] from [st] on,
      which [act] tells about. *)
  Definition stands_by (act : xbook * nat -> option coords -> call_spec -> json -> json -> Prop) (at_ : place) (base : option coords) (t : pystr)
      (to : xbook * nat) (st : option coords) (v : json) : Prop :=
    exists p tf f r v0, t = p ++ lit "#" ++ tf /\ frag_text tf f /\ readable tf f /\ url_text tf /\
      (let (b, i) := to in
       refers at_ p (f_sheet f) b i /\ xb_1904 b = false /\ sound_sheet (xb_sheet b i) /\ sharp_sheet (xb_sheet b i) /\
       captures (xb_sheet b i) f base r /\ holds (xb_sheet b i) r v0) /\ st = start r /\
      ((f_filt f = None /\ v = v0) \/
       (exists js j c, f_filt f = Some js /\ loads js = Some j /\ filters_of j None c /\ match c with None => v = v0 | Some c => act to st c v0 v end)).

  (** What a filter does to values of a sheet.  [n] counts how deep filters call filters. *)
  Fixpoint acts (n : nat) (to : xbook * nat) (st : option coords) (c : call_spec) (v v' : json) : Prop :=
    (cs_func c <> lit "recurse" /\ cs_func c <> lit "pipe" /\ effect (cs_func c) (cs_args c) (without (lit "lax") (cs_kwds c)) v v') \/
    match n with
    | O => False
    | S n =>
        (cs_func c = lit "pipe" /\ exists cs, Forall2 call_of (cs_args c) cs /\ chain (acts n to st) cs v v') \/
        (cs_func c = lit "recurse" /\ known c /\ exists jf ji je jd cs inc exc,
           given c 0 "filters" jf /\ calls_told jf cs /\ given c 1 "include" ji /\ keys_told ji inc /\ given c 2 "exclude" je /\ keys_told je exc /\ given c 3 "depth" jd /\
           spread (fun base t y => exists to' st' v1, stands_by (acts n) (Some to) base t to' st' v1 /\ chain (acts n to' st') cs v1 y)
             (included inc exc) (stops jd) 0 st v v')
    end.
  Definition stands (n : nat) (at_ : place) (base : option coords) (t : pystr) (v : json) : Prop :=
    exists to st, stands_by (acts n) at_ base t to st v.

  (** A call that replaces texts, at least the value of a single cell *)
  Definition replaces (c : call_spec) : Prop :=
    cs_func c = lit "recurse" /\ known c /\ ~ (exists v, In (lit "lax", v) (cs_kwds c)) /\ exists jf ji je jd inc exc,
      given c 0 "filters" jf /\ calls_told jf [] /\ given c 1 "include" ji /\ keys_told ji inc /\ given c 2 "exclude" je /\ keys_told je exc /\ given c 3 "depth" jd /\ ~ stops jd 0.

  (** Texts that refer to cells with such texts, and ask for them *)
  Definition endless (T : place -> option coords -> pystr -> Prop) : Prop := forall at_ base t, T at_ base t ->
    exists p tf f b i a t' js j c, t = p ++ lit "#" ++ tf /\ frag_text tf f /\ readable tf f /\ url_text tf /\
      refers at_ p (f_sheet f) b i /\ xb_1904 b = false /\ sound_sheet (xb_sheet b i) /\ sharp_sheet (xb_sheet b i) /\
      captures (xb_sheet b i) f base (Ok (a, None)) /\ in_xsheet (xb_sheet b i) (fst a) (snd a) /\ xlrd_cell shows (xb_sheet b i) (fst a) (snd a) (VText t') /\
      f_filt f = Some js /\ loads js = Some j /\ filters_of j None (Some c) /\ replaces c /\ T (Some (b, i)) (Some a) t'.
End Stands.
