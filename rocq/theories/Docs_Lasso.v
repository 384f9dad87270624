(** * The project's own examples, run on the model: whole lassos of [/repo/pandalone/xleash/_lasso.py]

    The sheets are arrays ([ArraySheet]); the ranger, the parser, the capture, the reading and the filter
    are those of the other files. *)
From Coq Require Import String.
From Verif Require Import PyBase Json Coords_Model Capture_Model Parse_Model Parse_Props Lasso_Model ReadRect_Model Redim_Model.

Definition sheet := array json.
Definition array_of (rows : list (list json)) : sheet :=
  Array (length rows) (match rows with r :: _ => length r | [] => 0%nat end)
        (fun r c => match nth c (nth r rows []) JNull with JNull => None | v => Some v end).
Definition of_cell (v : option json) : json := match v with Some v => v | None => JNull end.
Definition read_array (a : sheet) (st nd : option coords) : res json :=
  match st with
  | None => Raise TypeError
  | Some st => do x <- array_read_rect a st nd;
               Ok (match x with Scalar v => of_cell v | Table t => JList (map (fun row => JList (map of_cell row)) t) end)
  end.

(** [redim_filter] of _filter.py:182-195, called with positional ints *)
Definition redim_run (l : lasso sheet) (args : list json) (kwds : dict) : M unit sheet (fval sheet) :=
  let dim i := match nth_error args i with Some (JNum z) => Some (DInt z) | _ => None end in
  lift (do v <- redim_filter (match l_st l with Some st => st | None => (0, 0)%Z end) (l_nd l) (l_values l) (dim 0%nat) (dim 1%nat) (dim 2%nat) (dim 3%nat) (dim 4%nat);
        Ok (inl (with_values v l))).
Definition doc_filters (name : pystr) : option (filter unit sheet) :=
  if str_eqb name (lit "redim") then Some (Filter redim_run (Some [])) else None.

(** [json.loads] on the texts below *)
Definition lasso_loads (t : pystr) : option json := sget t
  [(lit "[""redim"", [0, 1, 1, 1, 2]]", JList [JStr (lit "redim"); JList [JNum 0; JNum 1; JNum 1; JNum 1; JNum 2]]);
   (lit "{""opts"": {""no_empty"": true}}", JDict [(lit "opts", JDict [(lit "no_empty", JBool true)])])].
Definition lasso_on (rows : list (list json)) (xlref : string) : res json :=
  let a := array_of rows in
  snd (lasso_values doc_filters (get_default_opts []) lasso_loads hash_defrag
         (fun _ _ base => match base with Some b => lift (Ok b) | None => lift (Raise ValueError) end)
         array_states array_margins read_array (lift (Ok tt)) false (lit xlref)
         (Lasso sheet None None None None None None None (Some a) None None JNull None [])
         (State tt None)).

Local Notation N := JNull.
Local Notation n x := (JNum x).
Definition nones : list (list json) := repeat (repeat JNull 5) 5.

(** /repo/tests/test_xleash.py:1665-1685 *)
Example test_missing_on_empty :
  map (lasso_on [[]]) ["#A1:A1"; "#A1:.."; "#A1:C1"; "#A1:A3"; "#A1:B2"]%string = repeat (Ok (JList [])) 5.
Proof. vm_compute; reflexivity. Qed.
Example test_missing_on_nones :
  map (lasso_on nones) ["#A1:A1"; "#A1:.."; "#A1:C1"; "#A1:A3"; "#A1:B2"]%string
  = [Ok (JList [JList [N]]); Ok (JList [JList [N]]); Ok (JList [JList [N; N; N]]);
     Ok (JList [JList [N]; JList [N]; JList [N]]); Ok (JList [JList [N; N]; JList [N; N]])].
Proof. vm_compute; reflexivity. Qed.

(** :1687-1722 *)
Definition empty_refs : list string :=
  ["#A1:A1(D)"; "#A1:..(D)"; "#A1(D):A1"; "#C3(D):C3(D)"; "#A1:A1(DR+)"; "#A1:..(L)"; "#A1(U+):A1"; "#C3(LU+):C3(D)"]%string.
Definition screaming (x : string) : string := (x ++ ":{""opts"": {""no_empty"": true}}")%string.
Example test_empty :
  map (lasso_on []) empty_refs = repeat (Ok (JList [])) 8 /\ map (lasso_on nones) empty_refs = repeat (Ok (JList [])) 8
  /\ map (fun x => lasso_on [[]] (screaming x)) empty_refs = repeat (Raise EmptyCapture) 8
  /\ map (fun x => lasso_on nones (screaming x)) empty_refs = repeat (Raise EmptyCapture) 8.
Proof. repeat split; vm_compute; reflexivity. Qed.

(** :1750-1774, with the call of _filter.py:177-179; 61 and 71 stand for 6.1 and 7.1 *)
Definition table : list (list json) :=
  [[N; N; N; N; N];
   [N; N; N; N; N];
   [N; N; N; N; N];
   [N; N; n 0; n 1; n 2];
   [N; n 0; n 1; n 2; N];
   [N; n 1; N; n 61; n 71]].
Definition dims (x : string) : string := (x ++ ":[""redim"", [0, 1, 1, 1, 2]]")%string.
Example test_xlwings_dims :
  map (fun x => lasso_on table (dims x)) ["#R5C4:..(UL)"; "#R5C4:R5C4:LURD"; "#R5C_(LU):A1(RD)"; "#__(LU+):^^(RD)"; "#R_C5:R6C.(L+)"; "#R^C3(U+):..(D+)"; "#D6"]%string
  = [Ok (JList [JList [N; n 0; n 1]; JList [n 0; n 1; n 2]]);
     Ok (JList [JList [N; n 0; n 1; n 2]; JList [n 0; n 1; n 2; N]; JList [n 1; N; n 61; n 71]]);
     Ok (JList [JList [n 0; n 1]; JList [n 1; n 2]]);
     Ok (JList [JList [n 0; n 1]; JList [n 1; n 2]; JList [N; n 61]]);
     Ok (JList [n 61; n 71]);
     Ok (JList [n 0; n 1]);
     Ok (n 61)].
Proof. vm_compute; reflexivity. Qed.

(** xleash/__init__.py:137-147; 22 and 314 stand for 2.2 and 3.14 *)
Example doc_intro :
  lasso_on [[N; N; JStr (lit "A"); N]; [N; n 22; JStr (lit "foo"); N]; [N; N; n 2; N]; [N; N; N; n 314]] "#A1(DR):..(DR):RULD"
  = Ok (JList [JList [N; JStr (lit "A")]; JList [n 22; JStr (lit "foo")]; JList [N; n 2]]).
Proof. vm_compute; reflexivity. Qed.

(** ** Recursion: the lassos of texts are replaced by one whose values are 777 *)
Definition bingo_element (l : lasso sheet) (x : location sheet) (v : json) : M unit sheet (bool * fval sheet) :=
  match v with
  | JStr t => lift (Ok (true, inl (with_values (n 777) l)))
  | _ => lift (Ok (false, inl l))
  end.
(** As above, where texts give themselves *)
Definition same_element (l : lasso sheet) (x : location sheet) (v : json) : M unit sheet (bool * fval sheet) :=
  match v with
  | JStr t => lift (Ok (true, inl (with_values v l)))
  | _ => lift (Ok (false, inl l))
  end.
Definition recursed (element : lasso sheet -> location sheet -> json -> M unit sheet (bool * fval sheet)) (include exclude : option (list pystr)) (depth : option Z) (v : json) : res json :=
  do l <- snd (run_filter_elementwise (fun _ => None) element true
                 (Lasso sheet None None None None None None None None None None v None []) [] include exclude depth (State tt None));
  Ok (l_values l).
Local Notation t x := (JStr (lit x)).
Local Notation B := (JNum 777).

(** :1779-1797 *)
Definition plain : list json :=
  [n 1; JList [n 1; n 2]; t "str"; JList []; JList [n 1]; JList [JList [n 1; n 2]; JList [n 3; n 4]];
   JList [JList []; JList [n 1; t "a"; t "b"]; JList [n 11; JList [t "a"; t "b"; t "c"]]]].
Example test_dont_expand_non_dicts : map (recursed same_element None None None) plain = map (@Ok json) plain.
Proof. vm_compute; reflexivity. Qed.
(** :1799-1813 *)
Example test_expand_nested_strings :
  map (recursed bingo_element None None None)
    [t "str"; JList [n 1; t "str"; JList []]; JList [n 1; t "str"; JList [JList [n 1; n 2]]];
     JList [JList []; JList [n 1; t "a"; t "b"]; JList [n 11; JList [t "a"; t "b"; t "c"]]]]
  = map (@Ok json) [B; JList [n 1; B; JList []]; JList [n 1; B; JList [JList [n 1; n 2]]];
     JList [JList []; JList [n 1; B; B]; JList [n 11; JList [B; B; B]]]].
Proof. vm_compute; reflexivity. Qed.
(** :1842-1868 *)
Example test_expand_dicts :
  map (recursed bingo_element None None None)
    [JDict [(lit "key", t "str")]; JList [JDict [(lit "key", t "str")]];
     JList [JDict [(lit "key", JList [t "str"; t "a"; JDict [(lit "key", JList [JList [t "a"; t "b"]])]])]]]
  = map (@Ok json) [JDict [(lit "key", B)]; JList [JDict [(lit "key", B)]];
     JList [JDict [(lit "key", JList [B; B; JDict [(lit "key", JList [JList [B; B]])]])]]].
Proof. vm_compute; reflexivity. Qed.
(** :1870-1896: what is left by depth *)
Definition deep (str foo abc bar k3 bang : json) : json :=
  JList [JDict [(lit "key1", JList [str; foo; JDict [(lit "key2", JList [abc; bar]); (lit "k3", k3)]]); (lit "key11", bang)]].
Example test_depth :
  let v := deep (t "str") (t "foo") (t "abc") (t "bar") (t "123") (t "bang") in
  map (fun d => recursed bingo_element None None (Some d) v) [0; 1; 2; 3; 4; 5; 6]%Z
  = [Ok v; Ok v; Ok v; Ok (deep (t "str") (t "foo") (t "abc") (t "bar") (t "123") B); Ok (deep B B (t "abc") (t "bar") (t "123") B);
     Ok (deep B B (t "abc") (t "bar") B B); Ok (deep B B B B B B)].
Proof. vm_compute; reflexivity. Qed.
(** :1917-1957 *)
Definition keyed (str foo abc bar k3 : json) : json :=
  JList [JDict [(lit "key1", JList [str; foo; JDict [(lit "key2", JList [abc; bar]); (lit "k3", k3)]])]].
Example test_include_exclude :
  let v := keyed (t "str") (t "foo") (t "abc") (t "bar") (t "123") in
  recursed bingo_element (Some [lit "key1"]) None None v = Ok (keyed B B (t "abc") (t "bar") (t "123"))
  /\ recursed bingo_element None (Some [lit "key2"; lit "k3"]) None v = Ok (keyed B B (t "abc") (t "bar") (t "123"))
  /\ recursed bingo_element (Some [lit "key1"; lit "key2"]) None None v = Ok (keyed B B B B (t "123")).
Proof. repeat split; vm_compute; reflexivity. Qed.
