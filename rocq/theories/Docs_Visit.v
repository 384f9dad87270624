(** * The project's examples of errors of schemas: /repo/tests/test_pandata_schema.py, pandata.py:384-447 *)
From Coq Require Import String.
From Verif Require Import PyBase Json Pandel_Model Visit_Model.
Local Open Scope string_scope. Local Open Scope list_scope.

Definition S' (s : string) : json := JStr (lit s).
Definition obj (l : list (string * json)) : json := JDict (map (fun kv => (lit (fst kv), snd kv)) l).
Definition named (l : list (string * vschema)) : list (pystr * vschema) := map (fun kv => (lit (fst kv), snd kv)) l.
(** The default parameters *)
Definition errors (defs : list (pystr * vschema)) (s : vschema) (v : json) : res (list verror) :=
  do (_, es) <- iter_errors true false false defs 30 false s v; Ok es.
Definition path_of (e : verror) := match e with VErr p _ _ _ _ => p end.
Definition spath_of (e : verror) := match e with VErr _ sp _ _ _ => sp end.
Definition rule_of (e : verror) := match e with VErr _ _ r _ _ => r end.
Definition context_of (e : verror) := match e with VErr _ _ _ _ c => c end.
Definition K (s : string) : part := PKey (lit s).
Definition sumup (e : verror) := (path_of e, rule_of e).
Definition places (e : verror) := (path_of e, spath_of e, rule_of e).

(** 261-317 [test_anyOf] *)
Example doc_anyOf :
  errors [] (SObj [VAnyOf [SObj [VMinimum 20]; SObj [VType [TString]]]]) (JNum 5) =
  Ok [VErr [] [K "anyOf"] (Some (lit "anyOf")) (JNum 5)
        [VErr [] [PIdx 0; K "minimum"] (Some (lit "minimum")) (JNum 5) [];
         VErr [] [PIdx 1; K "type"] (Some (lit "type")) (JNum 5) []]].
Proof. reflexivity. Qed.

(** 409-449 [test_single_nesting] *)
Example doc_single_nesting :
  (do es <- errors []
     (SObj [VProps (named [("foo", SObj [VType [TString]]); ("bar", SObj [VMinItems 2]);
                           ("baz", SObj [VMaximum 10; VEnum [JNum 2; JNum 4; JNum 6; JNum 8]])])])
     (obj [("foo", JNum 2); ("bar", JList [JNum 1]); ("baz", JNum 15); ("quux", S' "spam")]);
   Ok (map sumup es)) =
  Ok [([K "foo"], Some (lit "type")); ([K "bar"], Some (lit "minItems"));
      ([K "baz"], Some (lit "maximum")); ([K "baz"], Some (lit "enum"))].
Proof. reflexivity. Qed.

(** 451-505 [test_multiple_nesting], without the required property, which is told otherwise in draft 3 *)
Example doc_multiple_nesting :
  (do es <- errors []
     (SObj [VType [TString];
            VItems (SObj [VType [TString; TObject];
                          VProps (named [("foo", SObj [VEnum [JNum 1; JNum 3]]);
                                         ("bar", SObj [VType [TArray]; VProps (named [("baz", SObj [VMinItems 2])])])])])])
     (JList [JNum 1; obj [("foo", JNum 2); ("bar", obj [("baz", JList [JNum 1])])]; S' "quux"]);
   Ok (map places es)) =
  Ok [([], [K "type"], Some (lit "type"));
      ([PIdx 0], [K "items"; K "type"], Some (lit "type"));
      ([PIdx 1; K "foo"], [K "items"; K "properties"; K "foo"; K "enum"], Some (lit "enum"));
      ([PIdx 1; K "bar"], [K "items"; K "properties"; K "bar"; K "type"], Some (lit "type"));
      ([PIdx 1; K "bar"; K "baz"], [K "items"; K "properties"; K "bar"; K "properties"; K "baz"; K "minItems"], Some (lit "minItems"))].
Proof. reflexivity. Qed.

(** 507-588 [test_recursive] *)
Definition node : vschema :=
  SObj [VAnyOf [SObj [VType [TObject]; VRequired [lit "name"; lit "children"];
                      VProps (named [("name", SObj [VType [TString]]);
                                     ("children", SObj [VType [TObject]; VPatterns (named [("^.*$", SObj [VRef (lit "node")])])])])]]].
Definition tree : vschema :=
  SObj [VType [TObject]; VRequired [lit "root"]; VProps (named [("root", SObj [VRef (lit "node")])])].
Definition grandchild : json :=
  obj [("root", obj [("name", S' "root");
                     ("children", obj [("a", obj [("name", S' "a"); ("children", obj [("ab", obj [("name", S' "ab")])])])])])].
Definition node_path : list part := [PIdx 0; K "properties"; K "children"; K "patternProperties"; K "^.*$"; K "anyOf"].
Example doc_recursive :
  match errors (named [("node", node)]) tree grandchild with
  | Ok [e] =>
      places e = ([K "root"], [K "properties"; K "root"; K "anyOf"], Some (lit "anyOf")) /\
      match context_of e with
      | [e1] =>
          places e1 = ([K "children"; K "a"], node_path, Some (lit "anyOf")) /\
          match context_of e1 with
          | [e2] => places e2 = ([K "children"; K "ab"], node_path, Some (lit "anyOf"))
          | _ => False
          end
      | _ => False
      end
  | _ => False
  end.
Proof. vm_compute. auto. Qed.

(** 590-606 [test_additionalProperties] *)
Example doc_additionalProperties :
  (do es <- errors [] (SObj [VAddProps (SObj [VType [TInteger]; VMinimum 5])]) (obj [("bar", S' "bar"); ("foo", JNum 2)]);
   Ok (map sumup es)) = Ok [([K "bar"], Some (lit "type")); ([K "foo"], Some (lit "minimum"))].
Proof. reflexivity. Qed.

(** 608-631 [test_patternProperties] *)
Example doc_patternProperties :
  (do es <- errors [] (SObj [VPatterns (named [("bar", SObj [VType [TString]]); ("foo", SObj [VMinimum 5])])]) (obj [("bar", JNum 1); ("foo", JNum 2)]);
   Ok (map sumup es)) = Ok [([K "bar"], Some (lit "type")); ([K "foo"], Some (lit "minimum"))].
Proof. reflexivity. Qed.

(** 633-656 [test_additionalItems], 658-679 [test_additionalItems_with_items] *)
Example doc_additionalItems :
  (do es <- errors [] (SObj [VItemsEach []; VAddItems (SObj [VType [TInteger]; VMinimum 5])]) (JList [S' "foo"; JNum 1]);
   Ok (map sumup es)) = Ok [([PIdx 0], Some (lit "type")); ([PIdx 1], Some (lit "minimum"))] /\
  (do es <- errors [] (SObj [VItemsEach [SObj []]; VAddItems (SObj [VType [TInteger]; VMinimum 5])]) (JList [S' "foo"; S' "bar"; JNum 1]);
   Ok (map sumup es)) = Ok [([PIdx 1], Some (lit "type")); ([PIdx 2], Some (lit "minimum"))].
Proof. split; reflexivity. Qed.

(** 164-173, 205-211, 222-262: which keywords fail *)
Example doc_messages :
  (do es <- errors [] (SObj [VType [TString]]) (JNum 1); Ok (map rule_of es)) = Ok [Some (lit "type")] /\
  (do es <- errors [] (SObj [VType [TString; TObject]]) (JNum 1); Ok (map rule_of es)) = Ok [Some (lit "type")] /\
  (do es <- errors [] (SObj [VMinimum 2]) (JNum 1); Ok (map rule_of es)) = Ok [Some (lit "minimum")] /\
  (do es <- errors [] (SObj [VMaximum 0]) (JNum 1); Ok (map rule_of es)) = Ok [Some (lit "maximum")] /\
  (do es <- errors [] (SObj [VItemsEach []; VAddItems (SBool false)]) (JList [JNum 2]); Ok (map rule_of es)) = Ok [Some (lit "additionalItems")] /\
  (do es <- errors [] (SObj [VAddProps (SBool false)]) (obj [("foo", JNum 2)]); Ok (map rule_of es)) = Ok [Some (lit "additionalProperties")].
Proof. repeat split. Qed.

(** pandata.py:384-447: with required and without additional properties *)
Definition demanding : vschema :=
  SObj [VType [TObject]; VProps (named [("foo", SObj [])]); VRequired [lit "foo"]; VAddProps (SBool false)].
Example doc_demanding :
  (do es <- errors [] (SObj [VType [TObject]]) (obj [("foo", S' "bar")]); Ok (map rule_of es)) = Ok [] /\
  (do es <- errors [] (SObj [VType [TObject]]) (JList [JNum 1; JNum 2]); Ok (map rule_of es)) = Ok [Some (lit "type")] /\
  (do es <- errors [] demanding (obj [("foo", JNum 1)]); Ok (map rule_of es)) = Ok [] /\
  (do es <- errors [] demanding (obj [("foo", JNum 1); ("bar", JNum 2)]); Ok (map rule_of es)) = Ok [Some (lit "additionalProperties")] /\
  (do es <- errors [] demanding (obj []); Ok (map rule_of es)) = Ok [Some (lit "required")].
Proof. repeat split. Qed.
