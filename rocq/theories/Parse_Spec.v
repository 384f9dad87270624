(** * Vocabulary for properties C27, C28, C30 and C51: the grammar of xl-refs, as
    documented in /repo/pandalone/xleash/__init__.py *)
From Coq Require Import String.
From Verif Require Import PyBase Json Coords_Model Coords_Spec Capture_Model Capture_Spec Parse_Model.

(** Texts with only characters of a kind. *)
Definition only_of (f : pychar -> bool) (s : pystr) : Prop := forall c, In c s -> f c = true.

(** 1, 2, .. 10, .. with no leading zero. *)
Definition number_text (s : pystr) : Prop :=
  exists d t, s = d :: t /\ (49 <= d <= 57)%N /\ only_of is_digit t.
Definition symbol_text (dot : bool) (s : pystr) : Prop :=
  s = lit "^" \/ s = lit "_" \/ (dot = true /\ s = lit ".").
(** Coordinates of the RC style may be negative. *)
Definition rc_text (s : pystr) : Prop :=
  number_text s \/ (exists t, s = lit "-" ++ t /\ number_text t) \/ symbol_text true s.

(** Landing cells, in the two styles; [dot] tells whether a dot is allowed in A1 style. *)
Inductive cell_text (dot : bool) : pystr -> cell -> Prop :=
| Ct_a1 : forall col row, letters col \/ symbol_text dot col -> number_text row \/ symbol_text dot row ->
    cell_text dot (col ++ row) (Cell (CStr row) (CStr (upper col)))
| Ct_rc : forall r c row col, up r = chr "R" -> up c = chr "C" -> rc_text row -> rc_text col ->
    cell_text dot ([r] ++ row ++ [c] ++ col) (Cell (CStr row) (CStr col)).

(** Edges. *)
Definition modifier_text (o : option pystr) (s : pystr) : Prop :=
  (o = None /\ s = []) \/ (o = Some s /\ (s = lit "+" \/ s = lit "?")).
Inductive edge_text (dot : bool) : pystr -> edge -> Prop :=
| Et_plain : forall t c, cell_text dot t c -> edge_text dot t (Edge c None None)
| Et_moves : forall t c ds mv md o, cell_text dot t c -> good_moves ds -> same_letters mv (moves_text ds) ->
    modifier_text o md -> edge_text dot (t ++ lit "(" ++ mv ++ md ++ lit ")") (Edge c (Some (moves_text ds)) o).

Definition opt_text {A} (P : pystr -> A -> Prop) (s : pystr) (o : option A) : Prop :=
  match o with Some a => P s a | None => s = [] end.

(** The 2nd part: a colon, maybe an edge, maybe another colon and expansions. *)
Definition exp_char (c : pychar) : bool := existsb (N.eqb (up c)) (lit "LURD?123456789").
Definition exp_text (s m : pystr) : Prop := s = lit ":" ++ m /\ m <> [] /\ only_of exp_char m.
Inductive second_text : pystr -> option edge -> option pystr -> Prop :=
| St_some : forall t nd u em, opt_text (edge_text true) t nd -> opt_text exp_text u em ->
    second_text (lit ":" ++ t ++ u) nd em.

(** What is written. *)
Record frag := Frag {
  f_sheet : option pystr;
  f_st : option edge;
  f_colon : bool;
  f_nd : option edge;
  f_exp : option pystr;
  f_filt : option pystr }.

(** The end: filters, nothing, or a newline. *)
Definition filter_start (c : pychar) : bool := existsb (N.eqb c) (lit "{[" ++ [34%N]).
Inductive tail_text : pystr -> option pystr -> Prop :=
| Tt_none : tail_text [] None
| Tt_newline : tail_text [10%N] None
| Tt_filters : forall sp c t, only_of is_space sp -> filter_start c = true ->
    tail_text (lit ":" ++ sp ++ c :: t) (Some (c :: t)).

Inductive body_text : pystr -> frag -> Prop :=
| Bt_one : forall sh a st e f, opt_text (edge_text false) a st -> tail_text e f ->
    body_text (a ++ e) (Frag sh st false None None f)
| Bt_two : forall sh a st b nd em e f, opt_text (edge_text false) a st -> second_text b nd em -> tail_text e f ->
    body_text (a ++ b ++ e) (Frag sh st true nd em f).

Definition sheet_name (s : pystr) : Prop := s <> [] /\ only_of (fun c => negb (c =? chr "!")%N) s.
Inductive frag_text : pystr -> frag -> Prop :=
| Ft_none : forall sp t f, only_of is_space sp -> body_text t f -> f_sheet f = None -> frag_text (sp ++ t) f
| Ft_sheet : forall sp n t f, only_of is_space sp -> sheet_name n -> body_text t f -> f_sheet f = Some n ->
    frag_text (sp ++ n ++ lit "!" ++ t) f.

(** A "!" with no name before it means no sheet, too. *)
Definition accepted_text (t : pystr) (f : frag) : Prop :=
  frag_text t f
  \/ exists sp t', t = sp ++ lit "!" ++ t' /\ only_of is_space sp /\ body_text t' f /\ f_sheet f = None.

(** What follows the 1st "!" of a text written without sheet cannot be taken
    for a fragment. *)
Definition frag_start (c : pychar) : bool := is_alpha c || existsb (N.eqb c) (lit "_^:" ++ [10%N]).
Definition no_sheet_look (t : pystr) : Prop :=
  forall a b, t = a ++ lit "!" ++ b -> only_of (fun c => negb (c =? chr "!")%N) a ->
    exists c b', b = c :: b' /\ frag_start c = false.
Definition readable (t : pystr) (f : frag) : Prop :=
  match f_sheet f with
  | Some n => exists c n', n = c :: n' /\ is_space c = false
  | None => no_sheet_look t
  end.

(** The edges meant: "^^" and "__" are the default ones. *)
Definition top_left : edge := Edge (Cell (CStr (lit "^")) (CStr (lit "^"))) None None.
Definition bottom_right : edge := Edge (Cell (CStr (lit "_")) (CStr (lit "_"))) None None.
Definition meant_st (f : frag) : option edge :=
  match f_st f with Some e => Some e | None => Some top_left end.
Definition meant_nd (f : frag) : option edge :=
  match f_nd f with
  | Some e => Some e
  | None => if f_colon f then Some bottom_right
            else match f_st f with Some _ => None | None => Some bottom_right end
  end.

(** The options and the call-spec of some filters. *)
Definition without (k : pystr) (d : list (pystr * json)) : list (pystr * json) :=
  filter (fun kv => negb (str_eqb (fst kv) k)) d.
Definition says_nothing (j : json) : Prop :=
  j = JNull \/ j = JBool false \/ j = JNum 0 \/ j = JStr [] \/ j = JList [] \/ j = JDict [].

(** ** Call-specs *)

Definition opt_item {A} (mk : A -> json) (none : A) (l : list json) (x : A) : Prop :=
  (l = [] /\ x = none) \/ l = [mk x].
Inductive call_of : json -> call_spec -> Prop :=
| Co_name : forall f, call_of (JStr f) (CallSpec f [] [])
| Co_list : forall f items la lk args kwds, (length items <= 2)%nat ->
    filter (fun j => negb (json_eqb j JNull)) items = la ++ lk
    \/ filter (fun j => negb (json_eqb j JNull)) items = lk ++ la ->
    opt_item JList [] la args -> opt_item JDict [] lk kwds ->
    call_of (JList (JStr f :: items)) (CallSpec f args kwds)
| Co_dict : forall d f args kwds, 
    (forall k j, In (k, j) d -> k = lit "func" \/ k = lit "args" \/ k = lit "kwds") ->
    sget (lit "func") d = Some (JStr f) ->
    sget (lit "args") d = Some (JList args) \/ (sget (lit "args") d = None \/ sget (lit "args") d = Some JNull) /\ args = [] ->
    sget (lit "kwds") d = Some (JDict kwds) \/ (sget (lit "kwds") d = None \/ sget (lit "kwds") d = Some JNull) /\ kwds = [] ->
    call_of (JDict d) (CallSpec f args kwds).

Definition call_or_none (j : json) (c : option call_spec) : Prop :=
  (says_nothing j /\ c = None) \/ (~ says_nothing j /\ exists c', c = Some c' /\ call_of j c').
Inductive filters_of : json -> option (list (pystr * json)) -> option call_spec -> Prop :=
| Fo_other : forall j c, is_mapping j = false -> call_or_none j c -> filters_of j None c
| Fo_dict : forall d o c, call_or_none (JDict (without (lit "opts") d)) c ->
    (o = None /\ (sget (lit "opts") d = None \/ sget (lit "opts") d = Some JNull))
    \/ (exists x, o = Some x /\ sget (lit "opts") d = Some (JDict x)) ->
    filters_of (JDict d) o c.

(** ** Encased xl-refs *)

Definition delimiter (q : pychar) : Prop := In q (lit "/\$%&" ++ [34%N]).
(** [urldefrag] keeps the last character of a url in the fragment, if there is
    one. *)
Definition keeps_last (urldefrag : pystr -> pystr * pystr) : Prop :=
  forall u q, delimiter q -> snd (urldefrag (u ++ [q])) = [] \/ exists u', snd (urldefrag (u ++ [q])) = u' ++ [q].
(** A text that cannot be taken for one with filters. *)
Definition no_filter_look (t : pystr) : Prop :=
  forall a sp c r, t = a ++ lit ":" ++ sp ++ c :: r -> only_of is_space sp -> filter_start c = false.

(** [urldefrag] cuts at the first hash. *)
Definition cuts_at_hash (urldefrag : pystr -> pystr * pystr) : Prop :=
  (forall u f, ~ In (chr "#") u -> urldefrag (u ++ lit "#" ++ f) = (u, f))
  /\ (forall u, ~ In (chr "#") u -> urldefrag u = (u, [])).
(** Texts that differ only in typographic double-quotes. *)
Inductive plain_quotes : pystr -> pystr -> Prop :=
| Pq_nil : plain_quotes [] []
| Pq_open : forall s t, plain_quotes s t -> plain_quotes (8220%N :: s) (34%N :: t)
| Pq_close : forall s t, plain_quotes s t -> plain_quotes (8221%N :: s) (34%N :: t)
| Pq_same : forall c s t, c <> 8220%N -> c <> 8221%N -> plain_quotes s t -> plain_quotes (c :: s) (c :: t).
