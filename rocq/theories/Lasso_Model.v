(** * Lassoing: model of [/repo/pandalone/xleash/_lasso.py], and of
      [/repo/pandalone/xleash/_filter.py] lines 34-45 and 198-370

    The world that filters, sheets and factories may change is an abstract type
    [W]; sheets are of an abstract type [SH].  Captured values are nested lists,
    dicts and cells; there are no pandas objects. *)
From Coq Require Import String.
From Verif Require Import PyBase Json Regex Coords_Model Capture_Model Parse_Model.

Definition dict := list (pystr * json).

(** xleash/__init__.py:785-845 [Lasso]; [values] is [JNull] when unset, and the
    options are always there. *)
Record lasso {SH : Type} := Lasso {
  l_ref : option pystr; l_url : option pystr; l_sheet_name : option pystr;
  l_st_edge : option edge; l_nd_edge : option edge; l_exp : option pystr; l_call : option call_spec;
  l_sheet : option SH; l_st : option coords; l_nd : option coords; l_values : json;
  l_base : option coords; l_opts : dict }.
Arguments lasso : clear implicits.

(** The [lasso._replace()]s of the code *)
Definition with_values {SH} (v : json) (l : lasso SH) : lasso SH :=
  Lasso SH (l_ref l) (l_url l) (l_sheet_name l) (l_st_edge l) (l_nd_edge l) (l_exp l) (l_call l) (l_sheet l) (l_st l) (l_nd l) v (l_base l) (l_opts l).
Definition with_opts {SH} (o : dict) (l : lasso SH) : lasso SH :=
  Lasso SH (l_ref l) (l_url l) (l_sheet_name l) (l_st_edge l) (l_nd_edge l) (l_exp l) (l_call l) (l_sheet l) (l_st l) (l_nd l) (l_values l) (l_base l) o.
Definition with_sheet {SH} (s : SH) (l : lasso SH) : lasso SH :=
  Lasso SH (l_ref l) (l_url l) (l_sheet_name l) (l_st_edge l) (l_nd_edge l) (l_exp l) (l_call l) (Some s) (l_st l) (l_nd l) (l_values l) (l_base l) (l_opts l).
Definition with_rect {SH} (st nd : option coords) (l : lasso SH) : lasso SH :=
  Lasso SH (l_ref l) (l_url l) (l_sheet_name l) (l_st_edge l) (l_nd_edge l) (l_exp l) (l_call l) (l_sheet l) st nd (l_values l) (l_base l) (l_opts l).

Section Lasso.
  Context {W SH : Type}.

  (** The world, and [Ranger.intermediate_lasso]. *)
  Record state := State { world : W; inter : option (pystr * lasso SH) }.
  Definition M (A : Type) : Type := state -> state * res A.
  Definition ret {A} (a : A) : M A := fun s => (s, Ok a).
  Definition raise {A} (e : exn) : M A := fun s => (s, Raise e).
  Definition bind {A B} (m : M A) (f : A -> M B) : M B :=
    fun s => match m s with (s', Ok a) => f a s' | (s', Raise e) => (s', Raise e) end.
  Definition lift {A} (r : res A) : M A := fun s => (s, r).
  (** [try: ... except Exception as ex: raise e]; [keep] tells the exceptions that pass. *)
  Definition catching {A} (keep : exn -> bool) (e : exn) (m : M A) : M A :=
    fun s => match m s with (s', Raise x) => (s', Raise (if keep x then x else e)) | r => r end.
  Definition no_exn (e : exn) : bool := false.

  (** What filters return: a lasso, or something else. *)
  Definition fval : Type := lasso SH + json.
  (** [f_doc]: the description of the filter's record or its docstring, if any. *)
  Record filter := Filter { f_run : lasso SH -> list json -> dict -> M fval; f_doc : option pystr }.

  (** _lasso.py:90-95 [_relasso], when nothing is replaced *)
  Definition relasso (l : lasso SH) (stage : pystr) : M unit := fun s => (State (world s) (Some (stage, l)), Ok tt).

  Definition opt (name : string) (o : dict) : bool :=
    match sget (lit name) o with Some v => truthy v | None => false end.

  Section Calls.
    (** [Ranger.available_filters] *)
    Variable filters : pystr -> option filter.

    (** _lasso.py:97-136 [make_call].  [pop_lax] is the call-spec afterwards.
        [_build_call_help] fails for filters without description, in
        [textwrap.dedent(None)]. *)
    Definition pop_lax (c : call_spec) : call_spec := CallSpec (cs_func c) (cs_args c) (sdel (lit "lax") (cs_kwds c)).
    Definition make_call (v : fval) (c : call_spec) : M fval :=
      match v with
      | inr _ => raise AttributeError
      | inl l =>
          bind (relasso l (cs_func c)) (fun _ =>
          let verbose := opt "verbose" (l_opts l) in
          let lax := match sget (lit "lax") (cs_kwds c) with
                     | Some v => truthy v
                     | None => opt "lax" (l_opts l)
                     end in
          let failed (cur : fval) (doc : option pystr) : M fval :=
            if verbose && match doc with None => true | _ => false end then raise TypeError
            else if lax then ret cur else raise ValueError in
          match filters (cs_func c) with
          | None => failed (inl l) (Some [])
          | Some f => fun s =>
              match f_run f l (cs_args c) (sdel (lit "lax") (cs_kwds c)) s with
              | (s', Ok (inl l')) => (s', Ok (inl l'))
              | (s', Ok (inr x)) => failed (inr x) (f_doc f) s'
              | (s', Raise _) => failed (inl l) (f_doc f) s'
              end
          end)
      end.

    (** _filter.py:34-45 [pipe_filter] *)
    Fixpoint pipe_filter (v : fval) (filts : list json) : M fval :=
      match filts with
      | [] => ret v
      | f :: filts' =>
          bind (lift (parse_call_spec f)) (fun c => bind (make_call v c) (fun v' => pipe_filter v' filts'))
      end.

    (** The loop over the sub-filters, _filter.py:309-310 *)
    Fixpoint run_specs (v : fval) (specs : list call_spec) : M fval :=
      match specs with
      | [] => ret v
      | c :: specs' => bind (make_call v c) (fun v' => run_specs v' specs')
      end.

    (** ** Element-wise filters *)

    (** _filter.py:198 [XLocation] *)
    Record location := Location { x_sheet : option SH; x_st : option coords; x_nd : option coords; x_base : option coords }.

    Section Elementwise.
      Variable element_func : lasso SH -> location -> json -> M (bool * fval).
      Variable has_pandas : bool.
      Variable the_lasso : lasso SH.
      Variables (include exclude : option (list pystr)) (depth : option Z).

      (** _filter.py:266-271 [is_included], of dicts: keys are not filtered by
          empty lists *)
      Definition is_included (k : pystr) : bool :=
        match include with None | Some [] => true | Some l => existsb (str_eqb k) l end
        && match exclude with None | Some [] => true | Some l => negb (existsb (str_eqb k) l) end.

      (** _filter.py:273-291 [upd_base_coords], of lists: only without pandas *)
      Definition upd_base_coords (cdepth : Z) (base : option coords) (i : Z) : option coords :=
        match base with
        | None => None
        | Some (row, col) =>
            if has_pandas then Some (row, col)
            else if (cdepth =? 0)%Z then Some (row + i, col)%Z
            else if (cdepth =? 1)%Z then Some (row, col + i)%Z
            else Some (row, col)
        end.

      (** The call-specs are changed by [make_call]. *)
      Definition est : Type := state * list call_spec.

      (** _filter.py:293-313 [call_element_func]: the new value, or [None] when it
          was not processed.  A dict returned by lax filters has a [values]
          method, which is not modelled. *)
      Definition call_element_func (v : json) (base : option coords) (es : est) : est * res (option json) :=
        let (s, specs) := es in
        match catching no_exn ValueError (element_func the_lasso (Location (l_sheet the_lasso) (l_st the_lasso) (l_nd the_lasso) base) v) s with
        | (s, Raise e) => ((s, specs), Raise e)
        | (s, Ok (false, _)) => ((s, specs), Ok None)
        | (s, Ok (true, r)) =>
            let r := match r with inl l => inl l | inr x => inl (with_values x the_lasso) end in
            match run_specs r specs s with
            | (s, Raise e) => ((s, map pop_lax specs), Raise e)
            | (s, Ok (inl l)) => ((s, map pop_lax specs), Ok (Some (l_values l)))
            | (s, Ok (inr x)) =>
                ((s, map pop_lax specs), if truthy x then Raise AttributeError else Ok (Some x))
            end
        end.

      (** _filter.py:315-343 [dive_list] and [dive_indexed].  Containers are
          updated in place: besides the error, the value then found is given. *)
      Fixpoint dive (v : json) (cdepth : Z) (base : option coords) (es : est) {struct v} : est * json * option exn :=
        if match depth with Some d => (cdepth =? d)%Z | None => false end then (es, v, None)
        else match v with
        | JDict d =>
            let '(es, d, e) :=
              (fix items (d : dict) (es : est) : est * dict * option exn :=
                 match d with
                 | [] => (es, [], None)
                 | (k, x) :: d' =>
                     if is_included k then
                       match dive x (cdepth + 1)%Z None es with
                       | (es, y, Some e) => (es, (k, y) :: d', Some e)
                       | (es, y, None) => let '(es, r, e) := items d' es in (es, (k, y) :: r, e)
                       end
                     else let '(es, r, e) := items d' es in (es, (k, x) :: r, e)
                 end) d es in
            (es, JDict d, e)
        | _ =>
            match call_element_func v base es with
            | (es, Raise e) => (es, v, Some e)
            | (es, Ok (Some y)) => (es, y, None)
            | (es, Ok None) =>
                match v with
                | JList l =>
                    let '(es, l, e) :=
                      (fix elems (l : list json) (i : Z) (es : est) : est * list json * option exn :=
                         match l with
                         | [] => (es, [], None)
                         | x :: l' =>
                             match dive x (cdepth + 1)%Z (upd_base_coords cdepth base i) es with
                             | (es, y, Some e) => (es, y :: l', Some e)
                             | (es, y, None) => let '(es, r, e) := elems l' (i + 1)%Z es in (es, y :: r, e)
                             end
                         end) l 0%Z es in
                    (es, JList l, e)
                | _ => (es, v, None)
                end
            end
        end.
    End Elementwise.

    (** _filter.py:207-353 [run_filter_elementwise]: besides the result, the
        values of the given lasso as found afterwards. *)
    Definition run_filter_elementwise (element_func : lasso SH -> location -> json -> M (bool * fval)) (has_pandas : bool)
        (l : lasso SH) (filts : list json) (include exclude : option (list pystr)) (depth : option Z) (s : state)
        : state * json * res (lasso SH) :=
      match rmap parse_call_spec filts with
      | Raise e => (s, l_values l, Raise e)
      | Ok specs =>
          match dive element_func has_pandas l include exclude depth (l_values l) 0 (l_st l) (s, specs) with
          | ((s, _), v, Some e) => (s, v, Raise e)
          | ((s, _), v, None) => (s, v, Ok (with_values v l))
          end
      end.
  End Calls.

  (** ** The ranger *)

  Section Ranger.
    Variable filters : pystr -> option filter.
    Variable base_opts : dict.
    Variable loads : pystr -> option json.
    Variable urldefrag : pystr -> pystr * pystr.
    (** The sheets *)
    Variable fetch_sheet : option pystr -> option pystr -> option SH -> M SH.
    Variable states_matrix : SH -> res mat.
    Variable margins : SH -> res (coords * coords).
    Variable read_rect : SH -> option coords -> option coords -> res json.

    (** _lasso.py:138-143 [_make_init_Lasso] *)
    Definition init_lasso (ctx : lasso SH) : lasso SH := with_opts base_opts ctx.

    Definition or_else {A} (a b : option A) : option A := match a with Some _ => a | None => b end.

    (** _lasso.py:145-167 [_parse_and_merge_with_context].  [_replace] has no
        field for the key that [parse_xlref] sets for encased xl-refs. *)
    Definition parse_and_merge (xlref : pystr) (l : lasso SH) : res (lasso SH) :=
      match parse_xlref loads urldefrag xlref with
      | Raise SyntaxError => Raise SyntaxError
      | Raise _ => Raise ValueError
      | Ok p =>
          match px_key p with
          | Some _ => Raise ValueError
          | None =>
              Ok (Lasso SH (Some (px_ref p)) (or_else (px_url p) (l_url l)) (or_else (p_sheet (px p)) (l_sheet_name l))
                    (or_else (p_st (px p)) (l_st_edge l)) (or_else (p_nd (px p)) (l_nd_edge l)) (or_else (p_exp (px p)) (l_exp l))
                    (or_else (p_call (px p)) (l_call l)) (l_sheet l) (l_st l) (l_nd l) (l_values l) (l_base l)
                    (match p_opts (px p) with Some o => o | None => l_opts l end))
          end
      end.

    (** _lasso.py:169-177 [_open_sheet] *)
    Definition open_sheet (l : lasso SH) : M SH := catching no_exn ValueError (fetch_sheet (l_url l) (l_sheet_name l) (l_sheet l)).

    (** _lasso.py:39-44 [_Lasso_to_edges_str], called for the message of the
        error: it adds a text to the 1st edge, which is a tuple, when there is
        no 2nd one.  The texts of messages are not modelled. *)
    Definition edges_error (l : lasso SH) : exn :=
      match l_st_edge l, l_nd_edge l with
      | Some _, None => TypeError
      | _, _ => ValueError
      end.
    (** _lasso.py:180-199 [_resolve_capture_rect]; without a 1st edge
        [resolve_capture_rect] fails with an AttributeError. *)
    Definition resolve_rect (l : lasso SH) (sheet : SH) : res (option coords * option coords) :=
      match (do m <- states_matrix sheet; do mg <- margins sheet;
             match l_st_edge l with
             | Some e => resolve_capture_rect m mg e (l_nd_edge l) (l_exp l) (l_base l)
             | None => Raise AttributeError
             end) with
      | Ok (st, nd) => Ok (Some st, nd)
      | Raise EmptyCapture => if opt "no_empty" (l_opts l) then Raise EmptyCapture else Ok (None, None)
      | Raise _ => Raise (edges_error l)
      end.

    (** _lasso.py:201-209 [_run_filters] *)
    Definition run_filters (l : lasso SH) : M fval :=
      match l_call l with
      | None => ret (inl l)
      | Some c => catching no_exn ValueError (make_call filters (inl l) c)
      end.

    (** _lasso.py:211-256 [do_lasso] *)
    Definition do_lasso (xlref : pystr) (ctx : lasso SH) : M fval :=
      fun s0 =>
      (let l := init_lasso ctx in
       bind (relasso l (lit "context")) (fun _ =>
       bind (lift (parse_and_merge xlref l)) (fun l =>
       bind (relasso l (lit "parse")) (fun _ =>
       bind (open_sheet l) (fun sheet =>
       let l := with_sheet sheet l in
       bind (relasso l (lit "open")) (fun _ =>
       bind (lift (resolve_rect l sheet)) (fun '(st, nd) =>
       let l := with_rect st nd l in
       bind (relasso l (lit "capture")) (fun _ =>
       bind (match st, nd with None, None => ret (JList []) | _, _ => lift (read_rect sheet st nd) end) (fun values =>
       let l := with_values values l in
       bind (relasso l (lit "read_rect")) (fun _ =>
       run_filters l))))))))))
      (State (world s0) None).

    (** _filter.py:356-370 [_recurse_element_func] *)
    Definition context_of (x : location) : lasso SH :=
      Lasso SH None None None None None None None (x_sheet x) (x_st x) (x_nd x) JNull (x_base x) [].
    Definition recurse_element (l : lasso SH) (x : location) (v : json) : M (bool * fval) :=
      match v with
      | JStr t => fun s =>
          match do_lasso t (context_of x) s with
          | (s, Ok r) => (s, Ok (true, r))
          | (s, Raise SyntaxError) => (s, Ok (false, inl l))
          | (s, Raise _) => (s, Raise ValueError)
          end
      | _ => ret (false, inl l)
      end.
    (** _filter.py:373-391 [recursive_filter] *)
    Definition recursive_filter (has_pandas : bool) (l : lasso SH) (filts : list json) (include exclude : option (list pystr)) (depth : option Z) :=
      run_filter_elementwise filters recurse_element has_pandas l filts include exclude depth.

    (** _lasso.py:316-392 [lasso]; [close] is the [close()] of the factory. *)
    Variable close : M unit.
    Definition lasso_values (factory_is_mine : bool) (xlref : pystr) (ctx : lasso SH) : M json :=
      fun s =>
      let (s, r) := do_lasso xlref ctx s in
      match (if factory_is_mine then close s else (s, Ok tt)) with
      | (s, Raise e) => (s, Raise e)
      | (s, Ok _) =>
          match r with
          | Raise e => (s, Raise e)
          | Ok (inl l) => (s, Ok (l_values l))
          | Ok (inr _) => (s, Raise AttributeError)
          end
      end.
  End Ranger.
End Lasso.
Arguments state : clear implicits.
Arguments M : clear implicits.
Arguments fval : clear implicits.
Arguments filter : clear implicits.
Arguments location : clear implicits.

(** _lasso.py:259-272 [get_default_opts] *)
Definition get_default_opts (overrides : dict) : dict :=
  fold_left (fun o kv => sset (fst kv) (snd kv) o) overrides
    [(lit "lax", JBool false); (lit "verbose", JBool false); (lit "read", JDict [(lit "on_demand", JBool true)])].

(** _lasso.py:307-311 and 374-381: the options that [lasso] gives to its ranger, by way of
    [make_default_Ranger]; an empty dictionary is false. *)
Definition ranger_opts (base_opts : option dict) : dict :=
  let base_opts := match base_opts with None => get_default_opts [] | Some o => o end in
  match base_opts with [] => get_default_opts [] | o => o end.
