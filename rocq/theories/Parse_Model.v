(** * xl-refs: model of [/repo/pandalone/xleash/_parse.py] lines 25-287 and 363-553 *)
From Coq Require Import Ascii String.
From Verif Require Import PyBase Json Regex Coords_Model Capture_Model.

(** ** The grammar *)

Definition is_19 (c : pychar) : bool := (49 <=? c)%N && (c <=? 57)%N.
(** [[A-Z]] with re.IGNORECASE *)
Definition is_letter : pychar -> bool := is_alpha.
Definition r_int : re := RSeq (RChr is_19) (RStar is_digit).
Definition r_one (cs : string) : re := RChr (in_class (lit cs)).

(** The names of the groups of an edge. *)
Record gnames := GNames { g_col : string; g_row : string; g_row2 : string; g_col2 : string; g_mov : string; g_mod : string }.
Definition st_names := GNames "st_col" "st_row" "st_row2" "st_col2" "st_mov" "st_mod".
Definition nd_names := GNames "nd_col" "nd_row" "nd_row2" "nd_col2" "nd_mov" "nd_mod".

(** L|U|R|D|LD|LU|UL|UR|RU|RD|DL|DR *)
Definition r_moves : re :=
  RAlts (map RLit_ci ["L"; "U"; "R"; "D"; "LD"; "LU"; "UL"; "UR"; "RU"; "RD"; "DL"; "DR"]%string).

(** _parse.py:147-163 (1st edge) and 165-182 (2nd edge): they differ in the
    symbols allowed in A1-style. *)
Definition r_a1 (n : gnames) (specials : string) : re :=
  RSeq (RGrp (g_col n) (RAlt (RPlus is_letter) (r_one specials)))
       (RGrp (g_row n) (RAlt r_int (r_one specials))).
Definition r_rc (n : gnames) : re :=
  RSeqs [ RLit_ci "R"; RGrp (g_row2 n) (RAlt (RSeq (ROpt (RLit "-")) r_int) (r_one "_^."));
          RLit_ci "C"; RGrp (g_col2 n) (RAlt (RSeq (ROpt (RLit "-")) r_int) (r_one "_^.")) ].
Definition r_target (n : gnames) (specials : string) : re := RAlt (r_a1 n specials) (r_rc n).
Definition r_mov (n : gnames) : re :=
  ROpt (RSeqs [ RLit "("; RGrp (g_mov n) r_moves; ROpt (RGrp (g_mod n) (r_one "+?")); RLit ")" ]).
Definition r_edge (n : gnames) (specials : string) : re := ROpt (RSeq (r_target n specials) (r_mov n)).

(** _parse.py:147: the sheet *)
Definition r_sheet : re :=
  RSeq (RStar is_space)
       (ROpt (RSeq (ROpt (RGrp "sh_name" (RPlus (fun c => negb (c =? chr "!")%N)))) (RLit "!"))).
(** _parse.py:183-185 *)
Definition r_exp : re :=
  ROpt (RSeq (RLit ":") (RGrp "exp_moves" (RPlus (in_class_ci (lit "LURD?123456789"))))).
(** _parse.py:187-189 *)
Definition r_filt : re :=
  ROpt (RSeqs [ RLit ":"; RStar is_space;
                RGrp "js_filt" (RSeq (RChr (fun c => (c =? 123)%N || (c =? 34)%N || (c =? 91)%N)) (RStar (fun _ => true))) ]).
Definition r_second : re := ROpt (RSeqs [ RGrp "colon" (RLit ":"); r_edge nd_names "_^."; r_exp ]).

(** _parse.py:145-190 [_regular_xlref_regex], IGNORECASE and DOTALL. *)
Definition r_rest : re := RSeqs [ r_edge st_names "_^"; r_second; r_filt; REnd ].
Definition xlref_regex : re := RSeq r_sheet r_rest.

(** _parse.py:144 [_encase_regex]; its 2nd group is called "content" here. *)
Definition encase_regex : re :=
  RSeqs [ RStar is_space; RGrp "q" (RChr (in_class (lit "/\" ++ [34%N] ++ lit "$%&")));
          RGrp "content" (RPlus (fun _ => true)); RRef "q"; RStar is_space; REnd ].

(** ** Edges *)

(** _parse.py:94-95 *)
Definition topleft_edge : edge := Edge (Cell (CStr (lit "^")) (CStr (lit "^"))) None None.
Definition bottomright_edge : edge := Edge (Cell (CStr (lit "_")) (CStr (lit "_"))) None None.

(** [Cell.__new__], _parse.py:33-41: missing coordinates stay so. *)
Definition cell_new (row col : option pystr) : cell :=
  Cell (match row with Some s => CStr (upper s) | None => CNone end)
       (match col with Some s => CStr (upper s) | None => CNone end).

(** _parse.py:97-141 [Edge_new] *)
Definition edge_new (row col mov mod_ : option pystr) (default : option edge) : option edge :=
  match row, col, mov, mod_ with
  | None, None, None, None => default
  | _, _, _, _ => Some (Edge (cell_new row col) (option_map upper mov) mod_)
  end.

(** [a or b] of optional texts, where the empty text is falsy. *)
Definition str_or (a b : option pystr) : option pystr :=
  match a with Some (_ :: _) => a | _ => b end.

(** _parse.py:363-372 [_parse_edge] *)
Definition parse_edge (gs : groups) (n : gnames) (default : option edge) : option edge :=
  edge_new (str_or (group (g_row n) gs) (group (g_row2 n) gs))
           (str_or (group (g_col n) gs) (group (g_col2 n) gs))
           (group (g_mov n) gs) (group (g_mod n) gs) default.

(** ** Call-specs, _parse.py:205-287 *)

Record call_spec := CallSpec { cs_func : pystr; cs_args : list json; cs_kwds : list (pystr * json) }.

(** [parse_list], lines 237-252: [None] is the ValueError. *)
Definition is_list (j : json) : bool := match j with JList _ => true | _ => false end.
Definition is_dict (j : json) : bool := match j with JDict _ => true | _ => false end.
Definition is_null (j : json) : bool := match j with JNull => true | _ => false end.
Definition parse_list (func item1 item2 : json) : res (json * json * json) :=
  let items := [item1; item2] in
  if forallb is_list items || forallb is_dict items
     || negb (forallb (fun a => xorb (xorb (is_list a) (is_dict a)) (is_null a)) items)
  then Raise ValueError
  else Ok (func, hd JNull (filter is_list items), hd JNull (filter is_dict items)).

(** [parse_object] on the items of a JSON object, lines 254-255 *)
Definition parse_object (d : list (pystr * json)) : res (json * json * json) :=
  if forallb (fun kv => existsb (str_eqb (fst kv)) [lit "func"; lit "args"; lit "kwds"]) d then
    match sget (lit "func") d with
    | Some f => Ok (f, match sget (lit "args") d with Some a => a | None => JNull end,
                       match sget (lit "kwds") d with Some a => a | None => JNull end)
    | None => Raise TypeError
    end
  else Raise TypeError.

Definition parse_call_spec (v : json) : res call_spec :=
  do (func, args, kwds) <-
     match match v with
           | JStr s => Ok (JStr s, JNull, JNull)
           | JList [f] => parse_list f JNull JNull
           | JList [f; a] => parse_list f a JNull
           | JList [f; a; b] => parse_list f a b
           | JList _ => Raise TypeError
           | JDict d => parse_object d
           | _ => Raise ValueError
           end with
     | Ok x => Ok x
     | Raise _ => Raise ValueError
     end;
  do f <- match func with JStr s => Ok s | _ => Raise ValueError end;
  do a <- match args with JNull => Ok [] | JList l => Ok l | _ => Raise ValueError end;
  do k <- match kwds with JNull => Ok [] | JDict d => Ok d | _ => Raise ValueError end;
  Ok (CallSpec f a k).

(** ** Fragments *)

(** The dictionary returned. *)
Record parsed := Parsed {
  p_sheet : option pystr; p_st : option edge; p_nd : option edge; p_exp : option pystr;
  p_opts : option (list (pystr * json)); p_call : option call_spec }.

(** Truth of a JSON value. *)
Definition truthy (j : json) : bool :=
  match j with
  | JNull => false
  | JBool b => b
  | JNum z => negb (z =? 0)%Z
  | JStr s => negb (str_eqb s [])
  | JList l => match l with [] => false | _ => true end
  | JDict d => match d with [] => false | _ => true end
  end.

Section Parse.
  (** [json.loads]; [None] is its ValueError. *)
  Variable loads : pystr -> option json.
  (** [urllib.parse.urldefrag] *)
  Variable urldefrag : pystr -> pystr * pystr.

  (** _parse.py:440-459: the filters *)
  Definition parse_filters (js_filt : option pystr) : res (option (list (pystr * json)) * option call_spec) :=
    do js <- match js_filt with
             | Some (c :: t) => match loads (c :: t) with Some j => Ok j | None => Raise ValueError end
             | _ => Ok JNull
             end;
    let (opts, js) := match js with
                      | JDict d => (match sget (lit "opts") d with Some o => o | None => JNull end,
                                    JDict (sdel (lit "opts") d))
                      | _ => (JNull, js)
                      end in
    do o <- match opts with JNull => Ok None | JDict d => Ok (Some d) | _ => Raise ValueError end;
    do c <- (if truthy js then do c <- parse_call_spec js; Ok (Some c) else Ok None);
    Ok (o, c).

  (** _parse.py:375-461 [parse_xlref_fragment] *)
  Definition parse_xlref_fragment (frag : pystr) : res parsed :=
    match re_match xlref_regex frag with
    | None => Raise SyntaxError
    | Some gs =>
        let is_colon := match group "colon" gs with Some _ => true | None => false end in
        let st := parse_edge gs st_names (if is_colon then Some topleft_edge else None) in
        let nd := parse_edge gs nd_names (if is_colon then Some bottomright_edge else None) in
        if is_colon || match nd with None => true | Some _ => false end then
          let (st, nd) := match st, nd with
                          | None, None => (Some topleft_edge, Some bottomright_edge)
                          | _, _ => (st, nd)
                          end in
          do (o, c) <- parse_filters (group "js_filt" gs);
          Ok (Parsed (group "sh_name" gs) st nd (group "exp_moves" gs) o c)
        else Raise AssertionError
    end.

  (** _parse.py:204 [_excel_str_translator]: typographic double-quotes. *)
  Definition translate (s : pystr) : pystr := map (fun c => if (c =? 8220)%N || (c =? 8221)%N then 34%N else c) s.

  (** The fields that [_parse_xlref] adds; [px_key] tells whether the spurious
      key "xl-ref" was set by line 480. *)
  Record parsed_xl := ParsedXl { px : parsed; px_url : option pystr; px_ref : pystr; px_key : option pystr }.

  (** _parse.py:487-553 [_parse_xlref] *)
  Definition parse_xlref0 (xlref : pystr) : res parsed_xl :=
    let xlref := translate xlref in
    let (url_file, frag) := urldefrag xlref in
    match frag with
    | [] => Raise SyntaxError
    | _ =>
        do p <- parse_xlref_fragment frag;
        Ok (ParsedXl p (match url_file with [] => None | _ => Some url_file end) xlref None)
    end.

  (** _parse.py:464-484 [parse_xlref] *)
  Definition parse_xlref (xlref : pystr) : res parsed_xl :=
    match parse_xlref0 xlref with
    | Raise SyntaxError =>
        match re_match encase_regex xlref with
        | Some gs =>
            do p <- parse_xlref0 (match group "content" gs with Some t => t | None => [] end);
            Ok (ParsedXl (px p) (px_url p) (px_ref p) (Some xlref))
        | None => Raise SyntaxError
        end
    | x => x
    end.
End Parse.
