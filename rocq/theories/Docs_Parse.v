(** * The project's own examples, run on the model: [/repo/pandalone/xleash/_parse.py] *)
From Coq Require Import String.
From Verif Require Import PyBase Json Coords_Model Capture_Model Parse_Model Parse_Props.

(** [json.loads] on the texts that appear below; no other is JSON. *)
Definition doc_loads (t : pystr) : option json := sget t
  [(lit "{""opts"":{}, ""func"": ""foo""}", (JDict [(lit "opts", (JDict [])); (lit "func", (JStr (lit "foo")))]));
   (lit "[]", (JList []));
   (lit """fun""", (JStr (lit "fun")));
   (lit """func""", (JStr (lit "func")));
   (lit "{""opts"": {""1"":2}}", (JDict [(lit "opts", (JDict [(lit "1", (JNum 2))]))]));
   (lit "{""func"": ""func"", ""opts"": {""a"": 1}}", (JDict [(lit "func", (JStr (lit "func"))); (lit "opts", (JDict [(lit "a", (JNum 1))]))]));
   (lit "{""opts"": ""...""}", (JDict [(lit "opts", (JStr (lit "...")))]));
   (lit "{""opts"": [2]}", (JDict [(lit "opts", (JList [(JNum 2)]))]));
   (lit "{""opts"": [4]}", (JDict [(lit "opts", (JList [(JNum 4)]))]));
   (lit "{""func"":""foo""}", (JDict [(lit "func", (JStr (lit "foo")))]))]%Z.
Definition frag (x : string) : res parsed := parse_xlref_fragment doc_loads (lit x).
Definition whole (x : string) : res parsed_xl := parse_xlref doc_loads hash_defrag (lit x).
Definition is_syntax_error {A : Type} (x : res A) : bool := match x with Raise SyntaxError => true | _ => false end.
Definition is_value_error {A : Type} (x : res A) : bool := match x with Raise ValueError => true | _ => false end.
Definition fields (x : res parsed_xl) := do p <- x; Ok (px_url p, p_sheet (px p), p_call (px p), p_st (px p), p_nd (px p)).

(** _parse.py:399-425 *)
Example doc_fragment :
  frag "Sheet1!A1(DR+):Z20(UL):L1U2R1D1:{""opts"":{}, ""func"": ""foo""}" = Ok (Parsed (Some (lit "Sheet1")) (Some (Edge (Cell (CStr (lit "1")) (CStr (lit "A"))) (Some (lit "DR")) (Some (lit "+")))) (Some (Edge (Cell (CStr (lit "20")) (CStr (lit "Z"))) (Some (lit "UL")) None)) (Some (lit "L1U2R1D1")) (Some []) (Some (CallSpec (lit "foo") [] [])))
  /\ frag ":" = Ok (Parsed None (Some (Edge (Cell (CStr (lit "^")) (CStr (lit "^"))) None None)) (Some (Edge (Cell (CStr (lit "_")) (CStr (lit "_"))) None None)) None None None)
  /\ frag "A1(DR)Z20(UL)" = Raise SyntaxError.
Proof. repeat split; vm_compute; reflexivity. Qed.
(** /repo/tests/test_xleash.py:237-258 *)
Example test_bad :
  forallb (fun x => is_syntax_error (frag x))
  ["A"; "AB"; "a"; "ab"; "12"; "0"; "A0"; "A1:A0"; "%A1"; "A1:LURD"; "s![[]"; "s!{}[]"; "s!A"; "s!A1:!"; "s!1:2"; "s!A0:B1"]%string = true.
Proof. vm_compute; reflexivity. Qed.
(** :310-345 *)
Example test_regular :
  frag "Sheet1!a1(L):C2(UL)" = Ok (Parsed (Some (lit "Sheet1")) (Some (Edge (Cell (CStr (lit "1")) (CStr (lit "A"))) (Some (lit "L")) None)) (Some (Edge (Cell (CStr (lit "2")) (CStr (lit "C"))) (Some (lit "UL")) None)) None None None)
  /\ frag "!a1(l):c2(ul):""fun""" = Ok (Parsed None (Some (Edge (Cell (CStr (lit "1")) (CStr (lit "A"))) (Some (lit "L")) None)) (Some (Edge (Cell (CStr (lit "2")) (CStr (lit "C"))) (Some (lit "UL")) None)) None None (Some (CallSpec (lit "fun") [] [])))
  /\ frag "0!a1:a2" = Ok (Parsed (Some (lit "0")) (Some (Edge (Cell (CStr (lit "1")) (CStr (lit "A"))) None None)) (Some (Edge (Cell (CStr (lit "2")) (CStr (lit "A"))) None None)) None None None)
  /\ frag "r1c1:r2c2" = Ok (Parsed None (Some (Edge (Cell (CStr (lit "1")) (CStr (lit "1"))) None None)) (Some (Edge (Cell (CStr (lit "2")) (CStr (lit "2"))) None None)) None None None).
Proof. repeat split; vm_compute; reflexivity. Qed.
(** :208-232 with :347-375 *)
Example test_shortcuts :
  frag "A1:" = Ok (Parsed None (Some (Edge (Cell (CStr (lit "1")) (CStr (lit "A"))) None None)) (Some (Edge (Cell (CStr (lit "_")) (CStr (lit "_"))) None None)) None None None)
  /\ frag "A1::""func""" = Ok (Parsed None (Some (Edge (Cell (CStr (lit "1")) (CStr (lit "A"))) None None)) (Some (Edge (Cell (CStr (lit "_")) (CStr (lit "_"))) None None)) None None (Some (CallSpec (lit "func") [] [])))
  /\ frag "A1::{""opts"": {""1"":2}}" = Ok (Parsed None (Some (Edge (Cell (CStr (lit "1")) (CStr (lit "A"))) None None)) (Some (Edge (Cell (CStr (lit "_")) (CStr (lit "_"))) None None)) None (Some [(lit "1", (JNum 2))]) None)
  /\ frag "A1::lurd?" = Ok (Parsed None (Some (Edge (Cell (CStr (lit "1")) (CStr (lit "A"))) None None)) (Some (Edge (Cell (CStr (lit "_")) (CStr (lit "_"))) None None)) (Some (lit "lurd?")) None None)
  /\ frag "A1::lurd?:""func""" = Ok (Parsed None (Some (Edge (Cell (CStr (lit "1")) (CStr (lit "A"))) None None)) (Some (Edge (Cell (CStr (lit "_")) (CStr (lit "_"))) None None)) (Some (lit "lurd?")) None (Some (CallSpec (lit "func") [] [])))
  /\ frag "A1::lurd?:{""opts"": {""1"":2}}" = Ok (Parsed None (Some (Edge (Cell (CStr (lit "1")) (CStr (lit "A"))) None None)) (Some (Edge (Cell (CStr (lit "_")) (CStr (lit "_"))) None None)) (Some (lit "lurd?")) (Some [(lit "1", (JNum 2))]) None)
  /\ frag "0!A1:" = Ok (Parsed (Some (lit "0")) (Some (Edge (Cell (CStr (lit "1")) (CStr (lit "A"))) None None)) (Some (Edge (Cell (CStr (lit "_")) (CStr (lit "_"))) None None)) None None None)
  /\ frag "0!A1::""func""" = Ok (Parsed (Some (lit "0")) (Some (Edge (Cell (CStr (lit "1")) (CStr (lit "A"))) None None)) (Some (Edge (Cell (CStr (lit "_")) (CStr (lit "_"))) None None)) None None (Some (CallSpec (lit "func") [] [])))
  /\ frag "0!A1::{""opts"": {""1"":2}}" = Ok (Parsed (Some (lit "0")) (Some (Edge (Cell (CStr (lit "1")) (CStr (lit "A"))) None None)) (Some (Edge (Cell (CStr (lit "_")) (CStr (lit "_"))) None None)) None (Some [(lit "1", (JNum 2))]) None)
  /\ frag "0!A1::lurd?" = Ok (Parsed (Some (lit "0")) (Some (Edge (Cell (CStr (lit "1")) (CStr (lit "A"))) None None)) (Some (Edge (Cell (CStr (lit "_")) (CStr (lit "_"))) None None)) (Some (lit "lurd?")) None None)
  /\ frag "0!A1::lurd?:""func""" = Ok (Parsed (Some (lit "0")) (Some (Edge (Cell (CStr (lit "1")) (CStr (lit "A"))) None None)) (Some (Edge (Cell (CStr (lit "_")) (CStr (lit "_"))) None None)) (Some (lit "lurd?")) None (Some (CallSpec (lit "func") [] [])))
  /\ frag "0!A1::lurd?:{""opts"": {""1"":2}}" = Ok (Parsed (Some (lit "0")) (Some (Edge (Cell (CStr (lit "1")) (CStr (lit "A"))) None None)) (Some (Edge (Cell (CStr (lit "_")) (CStr (lit "_"))) None None)) (Some (lit "lurd?")) (Some [(lit "1", (JNum 2))]) None)
  /\ frag "sheet1!A1:" = Ok (Parsed (Some (lit "sheet1")) (Some (Edge (Cell (CStr (lit "1")) (CStr (lit "A"))) None None)) (Some (Edge (Cell (CStr (lit "_")) (CStr (lit "_"))) None None)) None None None)
  /\ frag "sheet1!A1::""func""" = Ok (Parsed (Some (lit "sheet1")) (Some (Edge (Cell (CStr (lit "1")) (CStr (lit "A"))) None None)) (Some (Edge (Cell (CStr (lit "_")) (CStr (lit "_"))) None None)) None None (Some (CallSpec (lit "func") [] [])))
  /\ frag "sheet1!A1::{""opts"": {""1"":2}}" = Ok (Parsed (Some (lit "sheet1")) (Some (Edge (Cell (CStr (lit "1")) (CStr (lit "A"))) None None)) (Some (Edge (Cell (CStr (lit "_")) (CStr (lit "_"))) None None)) None (Some [(lit "1", (JNum 2))]) None)
  /\ frag "sheet1!A1::lurd?" = Ok (Parsed (Some (lit "sheet1")) (Some (Edge (Cell (CStr (lit "1")) (CStr (lit "A"))) None None)) (Some (Edge (Cell (CStr (lit "_")) (CStr (lit "_"))) None None)) (Some (lit "lurd?")) None None)
  /\ frag "sheet1!A1::lurd?:""func""" = Ok (Parsed (Some (lit "sheet1")) (Some (Edge (Cell (CStr (lit "1")) (CStr (lit "A"))) None None)) (Some (Edge (Cell (CStr (lit "_")) (CStr (lit "_"))) None None)) (Some (lit "lurd?")) None (Some (CallSpec (lit "func") [] [])))
  /\ frag "sheet1!A1::lurd?:{""opts"": {""1"":2}}" = Ok (Parsed (Some (lit "sheet1")) (Some (Edge (Cell (CStr (lit "1")) (CStr (lit "A"))) None None)) (Some (Edge (Cell (CStr (lit "_")) (CStr (lit "_"))) None None)) (Some (lit "lurd?")) (Some [(lit "1", (JNum 2))]) None)
  /\ frag "  !A1:" = Ok (Parsed None (Some (Edge (Cell (CStr (lit "1")) (CStr (lit "A"))) None None)) (Some (Edge (Cell (CStr (lit "_")) (CStr (lit "_"))) None None)) None None None)
  /\ frag "  !A1::""func""" = Ok (Parsed None (Some (Edge (Cell (CStr (lit "1")) (CStr (lit "A"))) None None)) (Some (Edge (Cell (CStr (lit "_")) (CStr (lit "_"))) None None)) None None (Some (CallSpec (lit "func") [] [])))
  /\ frag "  !A1::{""opts"": {""1"":2}}" = Ok (Parsed None (Some (Edge (Cell (CStr (lit "1")) (CStr (lit "A"))) None None)) (Some (Edge (Cell (CStr (lit "_")) (CStr (lit "_"))) None None)) None (Some [(lit "1", (JNum 2))]) None)
  /\ frag "  !A1::lurd?" = Ok (Parsed None (Some (Edge (Cell (CStr (lit "1")) (CStr (lit "A"))) None None)) (Some (Edge (Cell (CStr (lit "_")) (CStr (lit "_"))) None None)) (Some (lit "lurd?")) None None)
  /\ frag "  !A1::lurd?:""func""" = Ok (Parsed None (Some (Edge (Cell (CStr (lit "1")) (CStr (lit "A"))) None None)) (Some (Edge (Cell (CStr (lit "_")) (CStr (lit "_"))) None None)) (Some (lit "lurd?")) None (Some (CallSpec (lit "func") [] [])))
  /\ frag "  !A1::lurd?:{""opts"": {""1"":2}}" = Ok (Parsed None (Some (Edge (Cell (CStr (lit "1")) (CStr (lit "A"))) None None)) (Some (Edge (Cell (CStr (lit "_")) (CStr (lit "_"))) None None)) (Some (lit "lurd?")) (Some [(lit "1", (JNum 2))]) None)
  /\ frag "R1C1:" = Ok (Parsed None (Some (Edge (Cell (CStr (lit "1")) (CStr (lit "1"))) None None)) (Some (Edge (Cell (CStr (lit "_")) (CStr (lit "_"))) None None)) None None None)
  /\ frag "R1C1::""func""" = Ok (Parsed None (Some (Edge (Cell (CStr (lit "1")) (CStr (lit "1"))) None None)) (Some (Edge (Cell (CStr (lit "_")) (CStr (lit "_"))) None None)) None None (Some (CallSpec (lit "func") [] [])))
  /\ frag "R1C1::{""opts"": {""1"":2}}" = Ok (Parsed None (Some (Edge (Cell (CStr (lit "1")) (CStr (lit "1"))) None None)) (Some (Edge (Cell (CStr (lit "_")) (CStr (lit "_"))) None None)) None (Some [(lit "1", (JNum 2))]) None)
  /\ frag "R1C1::lurd?" = Ok (Parsed None (Some (Edge (Cell (CStr (lit "1")) (CStr (lit "1"))) None None)) (Some (Edge (Cell (CStr (lit "_")) (CStr (lit "_"))) None None)) (Some (lit "lurd?")) None None)
  /\ frag "R1C1::lurd?:""func""" = Ok (Parsed None (Some (Edge (Cell (CStr (lit "1")) (CStr (lit "1"))) None None)) (Some (Edge (Cell (CStr (lit "_")) (CStr (lit "_"))) None None)) (Some (lit "lurd?")) None (Some (CallSpec (lit "func") [] [])))
  /\ frag "R1C1::lurd?:{""opts"": {""1"":2}}" = Ok (Parsed None (Some (Edge (Cell (CStr (lit "1")) (CStr (lit "1"))) None None)) (Some (Edge (Cell (CStr (lit "_")) (CStr (lit "_"))) None None)) (Some (lit "lurd?")) (Some [(lit "1", (JNum 2))]) None)
  /\ frag "0!R1C1:" = Ok (Parsed (Some (lit "0")) (Some (Edge (Cell (CStr (lit "1")) (CStr (lit "1"))) None None)) (Some (Edge (Cell (CStr (lit "_")) (CStr (lit "_"))) None None)) None None None)
  /\ frag "0!R1C1::""func""" = Ok (Parsed (Some (lit "0")) (Some (Edge (Cell (CStr (lit "1")) (CStr (lit "1"))) None None)) (Some (Edge (Cell (CStr (lit "_")) (CStr (lit "_"))) None None)) None None (Some (CallSpec (lit "func") [] [])))
  /\ frag "0!R1C1::{""opts"": {""1"":2}}" = Ok (Parsed (Some (lit "0")) (Some (Edge (Cell (CStr (lit "1")) (CStr (lit "1"))) None None)) (Some (Edge (Cell (CStr (lit "_")) (CStr (lit "_"))) None None)) None (Some [(lit "1", (JNum 2))]) None)
  /\ frag "0!R1C1::lurd?" = Ok (Parsed (Some (lit "0")) (Some (Edge (Cell (CStr (lit "1")) (CStr (lit "1"))) None None)) (Some (Edge (Cell (CStr (lit "_")) (CStr (lit "_"))) None None)) (Some (lit "lurd?")) None None)
  /\ frag "0!R1C1::lurd?:""func""" = Ok (Parsed (Some (lit "0")) (Some (Edge (Cell (CStr (lit "1")) (CStr (lit "1"))) None None)) (Some (Edge (Cell (CStr (lit "_")) (CStr (lit "_"))) None None)) (Some (lit "lurd?")) None (Some (CallSpec (lit "func") [] [])))
  /\ frag "0!R1C1::lurd?:{""opts"": {""1"":2}}" = Ok (Parsed (Some (lit "0")) (Some (Edge (Cell (CStr (lit "1")) (CStr (lit "1"))) None None)) (Some (Edge (Cell (CStr (lit "_")) (CStr (lit "_"))) None None)) (Some (lit "lurd?")) (Some [(lit "1", (JNum 2))]) None)
  /\ frag "sheet1!R1C1:" = Ok (Parsed (Some (lit "sheet1")) (Some (Edge (Cell (CStr (lit "1")) (CStr (lit "1"))) None None)) (Some (Edge (Cell (CStr (lit "_")) (CStr (lit "_"))) None None)) None None None)
  /\ frag "sheet1!R1C1::""func""" = Ok (Parsed (Some (lit "sheet1")) (Some (Edge (Cell (CStr (lit "1")) (CStr (lit "1"))) None None)) (Some (Edge (Cell (CStr (lit "_")) (CStr (lit "_"))) None None)) None None (Some (CallSpec (lit "func") [] [])))
  /\ frag "sheet1!R1C1::{""opts"": {""1"":2}}" = Ok (Parsed (Some (lit "sheet1")) (Some (Edge (Cell (CStr (lit "1")) (CStr (lit "1"))) None None)) (Some (Edge (Cell (CStr (lit "_")) (CStr (lit "_"))) None None)) None (Some [(lit "1", (JNum 2))]) None)
  /\ frag "sheet1!R1C1::lurd?" = Ok (Parsed (Some (lit "sheet1")) (Some (Edge (Cell (CStr (lit "1")) (CStr (lit "1"))) None None)) (Some (Edge (Cell (CStr (lit "_")) (CStr (lit "_"))) None None)) (Some (lit "lurd?")) None None)
  /\ frag "sheet1!R1C1::lurd?:""func""" = Ok (Parsed (Some (lit "sheet1")) (Some (Edge (Cell (CStr (lit "1")) (CStr (lit "1"))) None None)) (Some (Edge (Cell (CStr (lit "_")) (CStr (lit "_"))) None None)) (Some (lit "lurd?")) None (Some (CallSpec (lit "func") [] [])))
  /\ frag "sheet1!R1C1::lurd?:{""opts"": {""1"":2}}" = Ok (Parsed (Some (lit "sheet1")) (Some (Edge (Cell (CStr (lit "1")) (CStr (lit "1"))) None None)) (Some (Edge (Cell (CStr (lit "_")) (CStr (lit "_"))) None None)) (Some (lit "lurd?")) (Some [(lit "1", (JNum 2))]) None)
  /\ frag "  !R1C1:" = Ok (Parsed None (Some (Edge (Cell (CStr (lit "1")) (CStr (lit "1"))) None None)) (Some (Edge (Cell (CStr (lit "_")) (CStr (lit "_"))) None None)) None None None)
  /\ frag "  !R1C1::""func""" = Ok (Parsed None (Some (Edge (Cell (CStr (lit "1")) (CStr (lit "1"))) None None)) (Some (Edge (Cell (CStr (lit "_")) (CStr (lit "_"))) None None)) None None (Some (CallSpec (lit "func") [] [])))
  /\ frag "  !R1C1::{""opts"": {""1"":2}}" = Ok (Parsed None (Some (Edge (Cell (CStr (lit "1")) (CStr (lit "1"))) None None)) (Some (Edge (Cell (CStr (lit "_")) (CStr (lit "_"))) None None)) None (Some [(lit "1", (JNum 2))]) None)
  /\ frag "  !R1C1::lurd?" = Ok (Parsed None (Some (Edge (Cell (CStr (lit "1")) (CStr (lit "1"))) None None)) (Some (Edge (Cell (CStr (lit "_")) (CStr (lit "_"))) None None)) (Some (lit "lurd?")) None None)
  /\ frag "  !R1C1::lurd?:""func""" = Ok (Parsed None (Some (Edge (Cell (CStr (lit "1")) (CStr (lit "1"))) None None)) (Some (Edge (Cell (CStr (lit "_")) (CStr (lit "_"))) None None)) (Some (lit "lurd?")) None (Some (CallSpec (lit "func") [] [])))
  /\ frag "  !R1C1::lurd?:{""opts"": {""1"":2}}" = Ok (Parsed None (Some (Edge (Cell (CStr (lit "1")) (CStr (lit "1"))) None None)) (Some (Edge (Cell (CStr (lit "_")) (CStr (lit "_"))) None None)) (Some (lit "lurd?")) (Some [(lit "1", (JNum 2))]) None)
  /\ frag ":a33(DL)" = Ok (Parsed None (Some (Edge (Cell (CStr (lit "^")) (CStr (lit "^"))) None None)) (Some (Edge (Cell (CStr (lit "33")) (CStr (lit "A"))) (Some (lit "DL")) None)) None None None)
  /\ frag ":a33(DL):""func""" = Ok (Parsed None (Some (Edge (Cell (CStr (lit "^")) (CStr (lit "^"))) None None)) (Some (Edge (Cell (CStr (lit "33")) (CStr (lit "A"))) (Some (lit "DL")) None)) None None (Some (CallSpec (lit "func") [] [])))
  /\ frag ":a33(DL):{""opts"": {""1"":2}}" = Ok (Parsed None (Some (Edge (Cell (CStr (lit "^")) (CStr (lit "^"))) None None)) (Some (Edge (Cell (CStr (lit "33")) (CStr (lit "A"))) (Some (lit "DL")) None)) None (Some [(lit "1", (JNum 2))]) None)
  /\ frag ":a33(DL):lurd?" = Ok (Parsed None (Some (Edge (Cell (CStr (lit "^")) (CStr (lit "^"))) None None)) (Some (Edge (Cell (CStr (lit "33")) (CStr (lit "A"))) (Some (lit "DL")) None)) (Some (lit "lurd?")) None None)
  /\ frag ":a33(DL):lurd?:""func""" = Ok (Parsed None (Some (Edge (Cell (CStr (lit "^")) (CStr (lit "^"))) None None)) (Some (Edge (Cell (CStr (lit "33")) (CStr (lit "A"))) (Some (lit "DL")) None)) (Some (lit "lurd?")) None (Some (CallSpec (lit "func") [] [])))
  /\ frag ":a33(DL):lurd?:{""opts"": {""1"":2}}" = Ok (Parsed None (Some (Edge (Cell (CStr (lit "^")) (CStr (lit "^"))) None None)) (Some (Edge (Cell (CStr (lit "33")) (CStr (lit "A"))) (Some (lit "DL")) None)) (Some (lit "lurd?")) (Some [(lit "1", (JNum 2))]) None)
  /\ frag "0!:a33(DL)" = Ok (Parsed (Some (lit "0")) (Some (Edge (Cell (CStr (lit "^")) (CStr (lit "^"))) None None)) (Some (Edge (Cell (CStr (lit "33")) (CStr (lit "A"))) (Some (lit "DL")) None)) None None None)
  /\ frag "0!:a33(DL):""func""" = Ok (Parsed (Some (lit "0")) (Some (Edge (Cell (CStr (lit "^")) (CStr (lit "^"))) None None)) (Some (Edge (Cell (CStr (lit "33")) (CStr (lit "A"))) (Some (lit "DL")) None)) None None (Some (CallSpec (lit "func") [] [])))
  /\ frag "0!:a33(DL):{""opts"": {""1"":2}}" = Ok (Parsed (Some (lit "0")) (Some (Edge (Cell (CStr (lit "^")) (CStr (lit "^"))) None None)) (Some (Edge (Cell (CStr (lit "33")) (CStr (lit "A"))) (Some (lit "DL")) None)) None (Some [(lit "1", (JNum 2))]) None)
  /\ frag "0!:a33(DL):lurd?" = Ok (Parsed (Some (lit "0")) (Some (Edge (Cell (CStr (lit "^")) (CStr (lit "^"))) None None)) (Some (Edge (Cell (CStr (lit "33")) (CStr (lit "A"))) (Some (lit "DL")) None)) (Some (lit "lurd?")) None None)
  /\ frag "0!:a33(DL):lurd?:""func""" = Ok (Parsed (Some (lit "0")) (Some (Edge (Cell (CStr (lit "^")) (CStr (lit "^"))) None None)) (Some (Edge (Cell (CStr (lit "33")) (CStr (lit "A"))) (Some (lit "DL")) None)) (Some (lit "lurd?")) None (Some (CallSpec (lit "func") [] [])))
  /\ frag "0!:a33(DL):lurd?:{""opts"": {""1"":2}}" = Ok (Parsed (Some (lit "0")) (Some (Edge (Cell (CStr (lit "^")) (CStr (lit "^"))) None None)) (Some (Edge (Cell (CStr (lit "33")) (CStr (lit "A"))) (Some (lit "DL")) None)) (Some (lit "lurd?")) (Some [(lit "1", (JNum 2))]) None)
  /\ frag "sheet1!:a33(DL)" = Ok (Parsed (Some (lit "sheet1")) (Some (Edge (Cell (CStr (lit "^")) (CStr (lit "^"))) None None)) (Some (Edge (Cell (CStr (lit "33")) (CStr (lit "A"))) (Some (lit "DL")) None)) None None None)
  /\ frag "sheet1!:a33(DL):""func""" = Ok (Parsed (Some (lit "sheet1")) (Some (Edge (Cell (CStr (lit "^")) (CStr (lit "^"))) None None)) (Some (Edge (Cell (CStr (lit "33")) (CStr (lit "A"))) (Some (lit "DL")) None)) None None (Some (CallSpec (lit "func") [] [])))
  /\ frag "sheet1!:a33(DL):{""opts"": {""1"":2}}" = Ok (Parsed (Some (lit "sheet1")) (Some (Edge (Cell (CStr (lit "^")) (CStr (lit "^"))) None None)) (Some (Edge (Cell (CStr (lit "33")) (CStr (lit "A"))) (Some (lit "DL")) None)) None (Some [(lit "1", (JNum 2))]) None)
  /\ frag "sheet1!:a33(DL):lurd?" = Ok (Parsed (Some (lit "sheet1")) (Some (Edge (Cell (CStr (lit "^")) (CStr (lit "^"))) None None)) (Some (Edge (Cell (CStr (lit "33")) (CStr (lit "A"))) (Some (lit "DL")) None)) (Some (lit "lurd?")) None None)
  /\ frag "sheet1!:a33(DL):lurd?:""func""" = Ok (Parsed (Some (lit "sheet1")) (Some (Edge (Cell (CStr (lit "^")) (CStr (lit "^"))) None None)) (Some (Edge (Cell (CStr (lit "33")) (CStr (lit "A"))) (Some (lit "DL")) None)) (Some (lit "lurd?")) None (Some (CallSpec (lit "func") [] [])))
  /\ frag "sheet1!:a33(DL):lurd?:{""opts"": {""1"":2}}" = Ok (Parsed (Some (lit "sheet1")) (Some (Edge (Cell (CStr (lit "^")) (CStr (lit "^"))) None None)) (Some (Edge (Cell (CStr (lit "33")) (CStr (lit "A"))) (Some (lit "DL")) None)) (Some (lit "lurd?")) (Some [(lit "1", (JNum 2))]) None)
  /\ frag "  !:a33(DL)" = Ok (Parsed None (Some (Edge (Cell (CStr (lit "^")) (CStr (lit "^"))) None None)) (Some (Edge (Cell (CStr (lit "33")) (CStr (lit "A"))) (Some (lit "DL")) None)) None None None)
  /\ frag "  !:a33(DL):""func""" = Ok (Parsed None (Some (Edge (Cell (CStr (lit "^")) (CStr (lit "^"))) None None)) (Some (Edge (Cell (CStr (lit "33")) (CStr (lit "A"))) (Some (lit "DL")) None)) None None (Some (CallSpec (lit "func") [] [])))
  /\ frag "  !:a33(DL):{""opts"": {""1"":2}}" = Ok (Parsed None (Some (Edge (Cell (CStr (lit "^")) (CStr (lit "^"))) None None)) (Some (Edge (Cell (CStr (lit "33")) (CStr (lit "A"))) (Some (lit "DL")) None)) None (Some [(lit "1", (JNum 2))]) None)
  /\ frag "  !:a33(DL):lurd?" = Ok (Parsed None (Some (Edge (Cell (CStr (lit "^")) (CStr (lit "^"))) None None)) (Some (Edge (Cell (CStr (lit "33")) (CStr (lit "A"))) (Some (lit "DL")) None)) (Some (lit "lurd?")) None None)
  /\ frag "  !:a33(DL):lurd?:""func""" = Ok (Parsed None (Some (Edge (Cell (CStr (lit "^")) (CStr (lit "^"))) None None)) (Some (Edge (Cell (CStr (lit "33")) (CStr (lit "A"))) (Some (lit "DL")) None)) (Some (lit "lurd?")) None (Some (CallSpec (lit "func") [] [])))
  /\ frag "  !:a33(DL):lurd?:{""opts"": {""1"":2}}" = Ok (Parsed None (Some (Edge (Cell (CStr (lit "^")) (CStr (lit "^"))) None None)) (Some (Edge (Cell (CStr (lit "33")) (CStr (lit "A"))) (Some (lit "DL")) None)) (Some (lit "lurd?")) (Some [(lit "1", (JNum 2))]) None)
  /\ frag ":" = Ok (Parsed None (Some (Edge (Cell (CStr (lit "^")) (CStr (lit "^"))) None None)) (Some (Edge (Cell (CStr (lit "_")) (CStr (lit "_"))) None None)) None None None)
  /\ frag "::""func""" = Ok (Parsed None (Some (Edge (Cell (CStr (lit "^")) (CStr (lit "^"))) None None)) (Some (Edge (Cell (CStr (lit "_")) (CStr (lit "_"))) None None)) None None (Some (CallSpec (lit "func") [] [])))
  /\ frag "::{""opts"": {""1"":2}}" = Ok (Parsed None (Some (Edge (Cell (CStr (lit "^")) (CStr (lit "^"))) None None)) (Some (Edge (Cell (CStr (lit "_")) (CStr (lit "_"))) None None)) None (Some [(lit "1", (JNum 2))]) None)
  /\ frag "::lurd?" = Ok (Parsed None (Some (Edge (Cell (CStr (lit "^")) (CStr (lit "^"))) None None)) (Some (Edge (Cell (CStr (lit "_")) (CStr (lit "_"))) None None)) (Some (lit "lurd?")) None None)
  /\ frag "::lurd?:""func""" = Ok (Parsed None (Some (Edge (Cell (CStr (lit "^")) (CStr (lit "^"))) None None)) (Some (Edge (Cell (CStr (lit "_")) (CStr (lit "_"))) None None)) (Some (lit "lurd?")) None (Some (CallSpec (lit "func") [] [])))
  /\ frag "::lurd?:{""opts"": {""1"":2}}" = Ok (Parsed None (Some (Edge (Cell (CStr (lit "^")) (CStr (lit "^"))) None None)) (Some (Edge (Cell (CStr (lit "_")) (CStr (lit "_"))) None None)) (Some (lit "lurd?")) (Some [(lit "1", (JNum 2))]) None)
  /\ frag "0!:" = Ok (Parsed (Some (lit "0")) (Some (Edge (Cell (CStr (lit "^")) (CStr (lit "^"))) None None)) (Some (Edge (Cell (CStr (lit "_")) (CStr (lit "_"))) None None)) None None None)
  /\ frag "0!::""func""" = Ok (Parsed (Some (lit "0")) (Some (Edge (Cell (CStr (lit "^")) (CStr (lit "^"))) None None)) (Some (Edge (Cell (CStr (lit "_")) (CStr (lit "_"))) None None)) None None (Some (CallSpec (lit "func") [] [])))
  /\ frag "0!::{""opts"": {""1"":2}}" = Ok (Parsed (Some (lit "0")) (Some (Edge (Cell (CStr (lit "^")) (CStr (lit "^"))) None None)) (Some (Edge (Cell (CStr (lit "_")) (CStr (lit "_"))) None None)) None (Some [(lit "1", (JNum 2))]) None)
  /\ frag "0!::lurd?" = Ok (Parsed (Some (lit "0")) (Some (Edge (Cell (CStr (lit "^")) (CStr (lit "^"))) None None)) (Some (Edge (Cell (CStr (lit "_")) (CStr (lit "_"))) None None)) (Some (lit "lurd?")) None None)
  /\ frag "0!::lurd?:""func""" = Ok (Parsed (Some (lit "0")) (Some (Edge (Cell (CStr (lit "^")) (CStr (lit "^"))) None None)) (Some (Edge (Cell (CStr (lit "_")) (CStr (lit "_"))) None None)) (Some (lit "lurd?")) None (Some (CallSpec (lit "func") [] [])))
  /\ frag "0!::lurd?:{""opts"": {""1"":2}}" = Ok (Parsed (Some (lit "0")) (Some (Edge (Cell (CStr (lit "^")) (CStr (lit "^"))) None None)) (Some (Edge (Cell (CStr (lit "_")) (CStr (lit "_"))) None None)) (Some (lit "lurd?")) (Some [(lit "1", (JNum 2))]) None)
  /\ frag "sheet1!:" = Ok (Parsed (Some (lit "sheet1")) (Some (Edge (Cell (CStr (lit "^")) (CStr (lit "^"))) None None)) (Some (Edge (Cell (CStr (lit "_")) (CStr (lit "_"))) None None)) None None None)
  /\ frag "sheet1!::""func""" = Ok (Parsed (Some (lit "sheet1")) (Some (Edge (Cell (CStr (lit "^")) (CStr (lit "^"))) None None)) (Some (Edge (Cell (CStr (lit "_")) (CStr (lit "_"))) None None)) None None (Some (CallSpec (lit "func") [] [])))
  /\ frag "sheet1!::{""opts"": {""1"":2}}" = Ok (Parsed (Some (lit "sheet1")) (Some (Edge (Cell (CStr (lit "^")) (CStr (lit "^"))) None None)) (Some (Edge (Cell (CStr (lit "_")) (CStr (lit "_"))) None None)) None (Some [(lit "1", (JNum 2))]) None)
  /\ frag "sheet1!::lurd?" = Ok (Parsed (Some (lit "sheet1")) (Some (Edge (Cell (CStr (lit "^")) (CStr (lit "^"))) None None)) (Some (Edge (Cell (CStr (lit "_")) (CStr (lit "_"))) None None)) (Some (lit "lurd?")) None None)
  /\ frag "sheet1!::lurd?:""func""" = Ok (Parsed (Some (lit "sheet1")) (Some (Edge (Cell (CStr (lit "^")) (CStr (lit "^"))) None None)) (Some (Edge (Cell (CStr (lit "_")) (CStr (lit "_"))) None None)) (Some (lit "lurd?")) None (Some (CallSpec (lit "func") [] [])))
  /\ frag "sheet1!::lurd?:{""opts"": {""1"":2}}" = Ok (Parsed (Some (lit "sheet1")) (Some (Edge (Cell (CStr (lit "^")) (CStr (lit "^"))) None None)) (Some (Edge (Cell (CStr (lit "_")) (CStr (lit "_"))) None None)) (Some (lit "lurd?")) (Some [(lit "1", (JNum 2))]) None)
  /\ frag "  !:" = Ok (Parsed None (Some (Edge (Cell (CStr (lit "^")) (CStr (lit "^"))) None None)) (Some (Edge (Cell (CStr (lit "_")) (CStr (lit "_"))) None None)) None None None)
  /\ frag "  !::""func""" = Ok (Parsed None (Some (Edge (Cell (CStr (lit "^")) (CStr (lit "^"))) None None)) (Some (Edge (Cell (CStr (lit "_")) (CStr (lit "_"))) None None)) None None (Some (CallSpec (lit "func") [] [])))
  /\ frag "  !::{""opts"": {""1"":2}}" = Ok (Parsed None (Some (Edge (Cell (CStr (lit "^")) (CStr (lit "^"))) None None)) (Some (Edge (Cell (CStr (lit "_")) (CStr (lit "_"))) None None)) None (Some [(lit "1", (JNum 2))]) None)
  /\ frag "  !::lurd?" = Ok (Parsed None (Some (Edge (Cell (CStr (lit "^")) (CStr (lit "^"))) None None)) (Some (Edge (Cell (CStr (lit "_")) (CStr (lit "_"))) None None)) (Some (lit "lurd?")) None None)
  /\ frag "  !::lurd?:""func""" = Ok (Parsed None (Some (Edge (Cell (CStr (lit "^")) (CStr (lit "^"))) None None)) (Some (Edge (Cell (CStr (lit "_")) (CStr (lit "_"))) None None)) (Some (lit "lurd?")) None (Some (CallSpec (lit "func") [] [])))
  /\ frag "  !::lurd?:{""opts"": {""1"":2}}" = Ok (Parsed None (Some (Edge (Cell (CStr (lit "^")) (CStr (lit "^"))) None None)) (Some (Edge (Cell (CStr (lit "_")) (CStr (lit "_"))) None None)) (Some (lit "lurd?")) (Some [(lit "1", (JNum 2))]) None).
Proof. repeat split; vm_compute; reflexivity. Qed.
(** :377-399 *)
Example test_shortcuts_strange :
  frag "" = Ok (Parsed None (Some (Edge (Cell (CStr (lit "^")) (CStr (lit "^"))) None None)) (Some (Edge (Cell (CStr (lit "_")) (CStr (lit "_"))) None None)) None None None)
  /\ frag "a33(DL)" = Ok (Parsed None (Some (Edge (Cell (CStr (lit "33")) (CStr (lit "A"))) (Some (lit "DL")) None)) None None None None)
  /\ frag "a33(DL):""func""" = Ok (Parsed None (Some (Edge (Cell (CStr (lit "33")) (CStr (lit "A"))) (Some (lit "DL")) None)) None None None (Some (CallSpec (lit "func") [] [])))
  /\ frag "a33(DL)::{""func"": ""func"", ""opts"": {""a"": 1}}" = Ok (Parsed None (Some (Edge (Cell (CStr (lit "33")) (CStr (lit "A"))) (Some (lit "DL")) None)) (Some (Edge (Cell (CStr (lit "_")) (CStr (lit "_"))) None None)) None (Some [(lit "a", (JNum 1))]) (Some (CallSpec (lit "func") [] []))).
Proof. repeat split; vm_compute; reflexivity. Qed.
(** :453-461 *)
Example test_bad_opts :
  forallb (fun x => is_value_error (frag x))
  [":{""opts"": ""...""}"; ":{""opts"": [2]}"; "A1:b1:{""opts"": ""...""}"; "A1:B1:{""opts"": [4]}"]%string = true.
Proof. vm_compute; reflexivity. Qed.
(** :463-496 *)
Example test_xl_url :
  fields (whole "file://path/to/file.xlsx#Sheet1!U10(L):D20(D):{""func"":""foo""}") = Ok (Some (lit "file://path/to/file.xlsx"), Some (lit "Sheet1"), Some (CallSpec (lit "foo") [] []), (Some (Edge (Cell (CStr (lit "10")) (CStr (lit "U"))) (Some (lit "L")) None)), (Some (Edge (Cell (CStr (lit "20")) (CStr (lit "D"))) (Some (lit "D")) None)))
  /\ is_value_error (whole "#!:{""json"":""...""") = true
  /\ fields (whole "#sheet_name!UP10:DOWN20") = Ok (None, Some (lit "sheet_name"), None, (Some (Edge (Cell (CStr (lit "10")) (CStr (lit "UP"))) None None)), (Some (Edge (Cell (CStr (lit "20")) (CStr (lit "DOWN"))) None None)))
  /\ fields (whole "$#sheet_name!UP10:DOWN20$") = Ok (None, Some (lit "sheet_name"), None, (Some (Edge (Cell (CStr (lit "10")) (CStr (lit "UP"))) None None)), (Some (Edge (Cell (CStr (lit "20")) (CStr (lit "DOWN"))) None None)))
  /\ is_syntax_error (whole "A1:B1") = true /\ is_syntax_error (whole "$A1:B1$") = true
  /\ fields (whole "file://path/to/file.xlsx#  !A1") = Ok (Some (lit "file://path/to/file.xlsx"), None, None, (Some (Edge (Cell (CStr (lit "1")) (CStr (lit "A"))) None None)), None).
Proof. repeat split; vm_compute; reflexivity. Qed.
(** _parse.py:500-543 *)
Example doc_parse_xlref :
  whole "workbook.xlsx#Sheet1!A1(DR+):Z20(UL):L1U2R1D1:{""opts"":{}, ""func"": ""foo""}" = Ok (ParsedXl (Parsed (Some (lit "Sheet1")) (Some (Edge (Cell (CStr (lit "1")) (CStr (lit "A"))) (Some (lit "DR")) (Some (lit "+")))) (Some (Edge (Cell (CStr (lit "20")) (CStr (lit "Z"))) (Some (lit "UL")) None)) (Some (lit "L1U2R1D1")) (Some []) (Some (CallSpec (lit "foo") [] []))) (Some (lit "workbook.xlsx")) (lit "workbook.xlsx#Sheet1!A1(DR+):Z20(UL):L1U2R1D1:{""opts"":{}, ""func"": ""foo""}") None)
  /\ whole "#:" = Ok (ParsedXl (Parsed None (Some (Edge (Cell (CStr (lit "^")) (CStr (lit "^"))) None None)) (Some (Edge (Cell (CStr (lit "_")) (CStr (lit "_"))) None None)) None None None) None (lit "#:") None)
  /\ is_syntax_error (whole "A1(DR)Z20(UL)") = true /\ is_syntax_error (whole "#A1(DR)Z20(UL)") = true
  /\ is_value_error (whole "#A1:B1:{'Bad_JSON_str'}") = true.
Proof. repeat split; vm_compute; reflexivity. Qed.
(** :1474-1498; keys which are numbers are written as texts *)
Example test_call_spec :
  parse_call_spec (JStr (lit "func")) = Ok (CallSpec (lit "func") [] [])
  /\ parse_call_spec (JStr (lit "")) = Ok (CallSpec (lit "") [] [])
  /\ parse_call_spec (JList [(JStr (lit "f")); (JList []); (JDict [])]) = Ok (CallSpec (lit "f") [] [])
  /\ parse_call_spec (JList [(JStr (lit "f")); JNull; JNull]) = Ok (CallSpec (lit "f") [] [])
  /\ parse_call_spec (JList [(JStr (lit "f")); (JList [(JNum 1)]); (JDict [(lit "2", (JNum 2))])]) = Ok (CallSpec (lit "f") [(JNum 1)] [(lit "2", (JNum 2))])
  /\ parse_call_spec (JList [(JStr (lit "f")); (JList [(JNum 2)]); (JDict [(lit "3", (JNum 3))])]) = Ok (CallSpec (lit "f") [(JNum 2)] [(lit "3", (JNum 3))])
  /\ parse_call_spec (JList [(JStr (lit "f")); (JDict []); (JList [])]) = Ok (CallSpec (lit "f") [] [])
  /\ parse_call_spec (JList [(JStr (lit "f")); (JDict [(lit "2", (JNum 3))]); (JList [(JNum 1)])]) = Ok (CallSpec (lit "f") [(JNum 1)] [(lit "2", (JNum 3))])
  /\ parse_call_spec (JList [(JStr (lit "f")); (JList [])]) = Ok (CallSpec (lit "f") [] [])
  /\ parse_call_spec (JList [(JStr (lit "f")); (JList [(JNum 1); (JNum 2)])]) = Ok (CallSpec (lit "f") [(JNum 1); (JNum 2)] [])
  /\ parse_call_spec (JList [(JStr (lit "f")); (JDict [])]) = Ok (CallSpec (lit "f") [] [])
  /\ parse_call_spec (JList [(JStr (lit "f")); (JDict [(lit "1", (JNum 1)); (lit "2", (JNum 2))])]) = Ok (CallSpec (lit "f") [] [(lit "1", (JNum 1)); (lit "2", (JNum 2))])
  /\ parse_call_spec (JDict [(lit "func", (JStr (lit "f"))); (lit "args", (JList [])); (lit "kwds", (JDict []))]) = Ok (CallSpec (lit "f") [] [])
  /\ parse_call_spec (JDict [(lit "func", (JStr (lit "f"))); (lit "args", JNull); (lit "kwds", JNull)]) = Ok (CallSpec (lit "f") [] [])
  /\ parse_call_spec (JDict [(lit "func", (JStr (lit "f"))); (lit "args", (JList [(JNum 1)])); (lit "kwds", (JDict [(lit "1", (JNum 2))]))]) = Ok (CallSpec (lit "f") [(JNum 1)] [(lit "1", (JNum 2))])
  /\ parse_call_spec (JDict [(lit "func", (JStr (lit "f"))); (lit "args", (JList []))]) = Ok (CallSpec (lit "f") [] [])
  /\ parse_call_spec (JDict [(lit "func", (JStr (lit "f"))); (lit "args", (JList [(JNum 1); (JNum 2)]))]) = Ok (CallSpec (lit "f") [(JNum 1); (JNum 2)] [])
  /\ parse_call_spec (JDict [(lit "func", (JStr (lit "f"))); (lit "kwds", (JDict []))]) = Ok (CallSpec (lit "f") [] [])
  /\ parse_call_spec (JDict [(lit "func", (JStr (lit "f"))); (lit "kwds", (JDict [(lit "2", (JNum 3)); (lit "3", (JNum 4))]))]) = Ok (CallSpec (lit "f") [] [(lit "2", (JNum 3)); (lit "3", (JNum 4))]).
Proof. repeat split; vm_compute; reflexivity. Qed.
(** :1509-1556 *)
Example test_call_spec_fails :
  forallb (fun x => is_value_error (parse_call_spec x))
  [(JNum 1);
   (JBool true);
   JNull;
   (JList []);
   (JList [(JNum 1); (JList []); (JDict [])]);
   (JList [(JList []); (JStr (lit "f")); (JDict [])]);
   (JList [(JList []); (JDict []); (JStr (lit "f"))]);
   (JList [(JStr (lit "f")); (JList []); (JList [])]);
   (JList [(JStr (lit "f")); (JList []); (JDict []); (JList [])]);
   (JList [(JStr (lit "f")); (JDict []); (JDict [])]);
   (JList [(JStr (lit "f")); (JList []); (JDict []); (JDict [])]);
   (JList [(JStr (lit "f")); (JDict []); (JNum 33)]);
   (JList [(JStr (lit "f")); (JList []); (JNum 33)]);
   (JList [(JStr (lit "f")); (JList []); (JDict []); (JNum 33)]);
   (JList [(JStr (lit "f")); (JList []); (JDict []); (JNum 33)]);
   (JDict [(lit "args", (JList [])); (lit "kwds", (JDict []))]);
   (JDict [(lit "args", (JList []))]);
   (JDict [(lit "kwds", (JDict []))]);
   (JDict [(lit "gg", (JNum 1)); (lit "args", (JList [])); (lit "kwds", (JDict []))]);
   (JDict [(lit "func", (JStr (lit "f"))); (lit "args", (JList [])); (lit "y", (JNum 5))]);
   (JDict [(lit "func", (JStr (lit "f"))); (lit "kwds", (JDict [])); (lit "y", (JNum 5))]);
   (JDict [(lit "func", JNull); (lit "args", (JList [])); (lit "kwds", (JDict []))]);
   (JDict [(lit "func", (JNum 1)); (lit "args", (JList [])); (lit "kwds", (JDict []))]);
   (JDict [(lit "func", (JBool true)); (lit "args", (JList [(JNum 1)])); (lit "kwds", (JDict []))]);
   (JDict [(lit "func", (JList [])); (lit "args", (JList [(JNum 1)])); (lit "kwds", (JDict []))]);
   (JDict [(lit "func", (JStr (lit "f"))); (lit "args", (JNum 1)); (lit "kwds", (JDict []))]);
   (JDict [(lit "func", (JStr (lit "f"))); (lit "args", (JBool true)); (lit "kwds", (JDict []))]);
   (JDict [(lit "func", (JStr (lit "f"))); (lit "args", (JDict [])); (lit "kwds", (JDict []))]);
   (JDict [(lit "func", (JStr (lit "f"))); (lit "args", (JList [])); (lit "kwds", (JNum 1))]);
   (JDict [(lit "func", (JStr (lit "f"))); (lit "args", (JList [])); (lit "kwds", (JBool true))]);
   (JDict [(lit "func", (JStr (lit "f"))); (lit "args", (JList [])); (lit "kwds", (JList []))])] = true.
Proof. vm_compute; reflexivity. Qed.
