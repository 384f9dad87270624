(** * The project's own examples, run on the model: validating and building models

    They are of [/repo/pandalone/pandata.py], [/repo/tests/test_pandata_schema.py] and [test_jsonschema.py]. *)
From Coq Require Import String.
From Verif Require Import PyBase Json JsonPointer_Model Pandel_Model.
From Verif Require Tables_Model.
Local Open Scope string_scope.
Local Open Scope list_scope.

(** The property [prop] of an object after validating it, and the errors *)
Definition checked (ad adn arn : bool) (s : schema) (v : json) : option json * list verr :=
  match visit ad adn arn (fun _ _ => []) [KType [TObject]; KProps [(lit "prop", s)]] (JDict [(lit "prop", v)]) with
  | (JDict d, es) => (sget (lit "prop") d, es)
  | (_, es) => (None, es)
  end.
(** test_pandata_schema.py:91-124 *)
Example test_auto_default_no_auto_remove :
  checked true true false [] (JNull) = (Some (JNull), [])
  /\ checked true true false [] (JStr (lit "abc")) = (Some (JStr (lit "abc")), [])
  /\ checked true true false [KType [TNull]] (JNull) = (Some (JNull), [])
  /\ checked true true false [KType [TNull]] (JStr (lit "abc")) = (Some (JStr (lit "abc")), [WrongType])
  /\ checked true true false [KType [TNull; TNumber]] (JNull) = (Some (JNull), [])
  /\ checked true true false [KType [TNull; TNumber]] (JNum 1) = (Some (JNum 1), [])
  /\ checked true true false [KType [TNull; TNumber]; KDefault (JNum 2)] (JNull) = (Some (JNull), [])
  /\ checked true true false [KType [TNull; TNumber]; KDefault (JNum 2)] (JNum 1) = (Some (JNum 1), [])
  /\ checked true true false [KType [TNumber]; KDefault (JNum 2)] (JNum 1) = (Some (JNum 1), [])
  /\ checked true true false [KType [TNumber]; KDefault (JNum 2)] (JNull) = (Some (JNum 2), [])
  /\ checked true true false [KType [TNumber]] (JNum 1) = (Some (JNum 1), [])
  /\ checked true true false [KType [TNumber]] (JNull) = (Some (JNull), [WrongType]).
Proof. repeat split; vm_compute; reflexivity. Qed.
(** test_pandata_schema.py:127-163 *)
Example test_auto_default_auto_remove :
  checked true true true [] (JNull) = (None, [])
  /\ checked true true true [] (JStr (lit "abc")) = (Some (JStr (lit "abc")), [])
  /\ checked true true true [KType [TNull]] (JNull) = (Some (JNull), [])
  /\ checked true true true [KType [TNull]] (JStr (lit "abc")) = (Some (JStr (lit "abc")), [WrongType])
  /\ checked true true true [KType [TNull; TNumber]] (JNull) = (Some (JNull), [])
  /\ checked true true true [KType [TNull; TNumber]] (JNum 1) = (Some (JNum 1), [])
  /\ checked true true true [KType [TNull; TNumber]; KDefault (JNum 2)] (JNull) = (Some (JNull), [])
  /\ checked true true true [KType [TNull; TNumber]; KDefault (JNum 2)] (JNum 1) = (Some (JNum 1), [])
  /\ checked true true true [KType [TNumber]; KDefault (JNum 2)] (JNum 1) = (Some (JNum 1), [])
  /\ checked true true true [KType [TNumber]; KDefault (JNum 2)] (JNull) = (Some (JNum 2), [])
  /\ checked true true true [KType [TNumber]] (JNum 1) = (Some (JNum 1), [])
  /\ checked true true true [KType [TNumber]] (JNull) = (None, [])
  /\ checked true true true [KAutoDefaultNull (JNull); KAutoRemoveNull (JNull)] (JNull) = (None, [])
  /\ checked true true true [KAutoDefaultNull (JNull); KAutoRemoveNull (JNull)] (JStr (lit "abc")) = (Some (JStr (lit "abc")), [])
  /\ checked true true true [KType [TNull]; KAutoDefaultNull (JNull); KAutoRemoveNull (JNull)] (JNull) = (Some (JNull), [])
  /\ checked true true true [KType [TNull]; KAutoDefaultNull (JNull); KAutoRemoveNull (JNull)] (JStr (lit "abc")) = (Some (JStr (lit "abc")), [WrongType])
  /\ checked true true true [KType [TNull; TNumber]; KAutoDefaultNull (JNull); KAutoRemoveNull (JNull)] (JNull) = (Some (JNull), [])
  /\ checked true true true [KType [TNull; TNumber]; KAutoDefaultNull (JNull); KAutoRemoveNull (JNull)] (JNum 1) = (Some (JNum 1), [])
  /\ checked true true true [KType [TNull; TNumber]; KDefault (JNum 2); KAutoDefaultNull (JNull); KAutoRemoveNull (JNull)] (JNull) = (Some (JNull), [])
  /\ checked true true true [KType [TNull; TNumber]; KDefault (JNum 2); KAutoDefaultNull (JNull); KAutoRemoveNull (JNull)] (JNum 1) = (Some (JNum 1), [])
  /\ checked true true true [KType [TNumber]; KDefault (JNum 2); KAutoDefaultNull (JNull); KAutoRemoveNull (JNull)] (JNum 1) = (Some (JNum 1), [])
  /\ checked true true true [KType [TNumber]; KDefault (JNum 2); KAutoDefaultNull (JNull); KAutoRemoveNull (JNull)] (JNull) = (Some (JNum 2), [])
  /\ checked true true true [KType [TNumber]; KAutoDefaultNull (JNull); KAutoRemoveNull (JNull)] (JNum 1) = (Some (JNum 1), [])
  /\ checked true true true [KType [TNumber]; KAutoDefaultNull (JNull); KAutoRemoveNull (JNull)] (JNull) = (None, [])
  /\ checked true false false [KAutoDefaultNull (JBool true); KAutoRemoveNull (JBool true)] (JNull) = (None, [])
  /\ checked true false false [KAutoDefaultNull (JBool true); KAutoRemoveNull (JBool true)] (JStr (lit "abc")) = (Some (JStr (lit "abc")), [])
  /\ checked true false false [KType [TNull]; KAutoDefaultNull (JBool true); KAutoRemoveNull (JBool true)] (JNull) = (Some (JNull), [])
  /\ checked true false false [KType [TNull]; KAutoDefaultNull (JBool true); KAutoRemoveNull (JBool true)] (JStr (lit "abc")) = (Some (JStr (lit "abc")), [WrongType])
  /\ checked true false false [KType [TNull; TNumber]; KAutoDefaultNull (JBool true); KAutoRemoveNull (JBool true)] (JNull) = (Some (JNull), [])
  /\ checked true false false [KType [TNull; TNumber]; KAutoDefaultNull (JBool true); KAutoRemoveNull (JBool true)] (JNum 1) = (Some (JNum 1), [])
  /\ checked true false false [KType [TNull; TNumber]; KDefault (JNum 2); KAutoDefaultNull (JBool true); KAutoRemoveNull (JBool true)] (JNull) = (Some (JNull), [])
  /\ checked true false false [KType [TNull; TNumber]; KDefault (JNum 2); KAutoDefaultNull (JBool true); KAutoRemoveNull (JBool true)] (JNum 1) = (Some (JNum 1), [])
  /\ checked true false false [KType [TNumber]; KDefault (JNum 2); KAutoDefaultNull (JBool true); KAutoRemoveNull (JBool true)] (JNum 1) = (Some (JNum 1), [])
  /\ checked true false false [KType [TNumber]; KDefault (JNum 2); KAutoDefaultNull (JBool true); KAutoRemoveNull (JBool true)] (JNull) = (Some (JNum 2), [])
  /\ checked true false false [KType [TNumber]; KAutoDefaultNull (JBool true); KAutoRemoveNull (JBool true)] (JNum 1) = (Some (JNum 1), [])
  /\ checked true false false [KType [TNumber]; KAutoDefaultNull (JBool true); KAutoRemoveNull (JBool true)] (JNull) = (None, []).
Proof. repeat split; vm_compute; reflexivity. Qed.

(** pandata.py:381-391 and 404-432, with dictionaries in place of series *)
Definition errors (s : schema) (v : json) : list verr := snd (visit true false false (fun _ _ => []) s v).
Example doc_visitor :
  errors [KType [TObject]] (JDict [(lit "foo", JStr (lit "bar"))]) = [] /\ errors [KType [TObject]] (JList [JNum 1; JNum 2]) = [WrongType]
  /\ errors [KType [TObject]; KProps [(lit "foo", [])]; KRequired [lit "foo"]] (JDict [(lit "foo", JNum 1)]) = []
  /\ errors [KType [TObject]; KProps [(lit "foo", [])]; KRequired [lit "foo"]] (JDict []) = [Missing (lit "foo")].
Proof. repeat split; vm_compute; reflexivity. Qed.

(** pandata.py:702-762 and test_jsonschema.py:99-128 *)
Definition my_props : kw := KProps [(lit "a", [KType [TString]]); (lit "b", [KType [TNumber]]); (lit "c", [KType [TNumber]])].
Definition my_build := build_iter (fun _ _ => []) [KRequired []; my_props] [KRequired [lit "a"; lit "b"]; my_props] [].
Definition sub (l : list (string * json)) : json := JDict (map (fun kv => (lit (fst kv), snd kv)) l).
Example doc_build :
  (b_model (my_build [sub [("a", JStr (lit "foo")); ("b", JNum 1)]; sub [("a", JStr (lit "bar")); ("c", JNum 2)]])
   = sub [("a", JStr (lit "bar")); ("b", JNum 1); ("c", JNum 2)])
  /\ b_errors (my_build [sub [("a", JStr (lit "foo")); ("b", JNum 1)]; sub [("a", JStr (lit "bar")); ("c", JNum 2)]]) = []
  /\ b_errors (my_build [sub [("a", JNum 1)]; sub [("b", JStr (lit "string"))]]) = [WrongType; WrongType; GaveUp 1]
  /\ b_model (my_build [sub [("a", JNum 1)]; sub [("b", JStr (lit "string"))]]) = JNull
  /\ b_errors (my_build [sub [("a", JStr (lit "a str"))]; sub [("c", JNum 1)]]) = [Missing (lit "b"); GaveUp 3]
  /\ b_errors (my_build [sub [("a", JStr (lit "foo")); ("b", JStr (lit "string"))]]) = [WrongType; GaveUp 1].
Proof. repeat split; vm_compute; reflexivity. Qed.

(** test_jsonschema.py:36-41, 62-97: merging without pandas *)
Definition nums (l : list Z) : json := JList (map JNum l).
Example test_merge :
  merge (sub [("a", JNum 1)]) (sub [("a", JNum 2)]) = Ok (sub [("a", JNum 2)])
  /\ merge (sub [("a", JNum 1); ("b", JNum 2)]) (sub [("a", JNum 11); ("c", JNum 3)]) = Ok (sub [("a", JNum 11); ("b", JNum 2); ("c", JNum 3)])
  /\ merge (nums [1; 2; 3]%Z) (nums [4; 5]%Z) = Ok (nums [4; 5]%Z)
  /\ merge (JList [JNum 1; JNum 2; sub [("a", JNum 1); ("b", JNum 2)]]) (JList [JNum 4; JNum 5; sub [("a", JNum 11); ("c", JNum 33)]])
     = Ok (JList [JNum 4; JNum 5; sub [("a", JNum 11); ("c", JNum 33)]])
  /\ merge (sub [("a", JNum 1); ("b", nums [1; 2]%Z)]) (sub [("b", JList [JNum 4; JNum 5; sub [("a", JNum 11); ("c", JNum 3)]]); ("c", JNum 3)])
     = Ok (sub [("a", JNum 1); ("b", JList [JNum 4; JNum 5; sub [("a", JNum 11); ("c", JNum 3)]]); ("c", JNum 3)])
  /\ merge (sub [("a", JNum 1); ("b", sub [("aa", JNum (-1)); ("bb", JNum (-2))]); ("c", JNum 3)])
           (sub [("a", JNum 11); ("b", sub [("aa", JNum (-11)); ("cc", JNum (-33))]); ("d", JNum 44)])
     = Ok (sub [("a", JNum 11); ("b", sub [("aa", JNum (-11)); ("bb", JNum (-2)); ("cc", JNum (-33))]); ("c", JNum 3); ("d", JNum 44)]).
Proof. repeat split; vm_compute; reflexivity. Qed.

(** test_jsonschema.py:43-60: a table and a series, with dictionaries over them *)
Definition cells (v : Tables_Model.value) : list (option Z) := match v with Tables_Model.VList l => map (fun x => match x with Tables_Model.VNum z => Some z | _ => None end) l | _ => [] end.
Definition frame_of (v : Tables_Model.value) : res Tables_Model.table :=
  match v with Tables_Model.VDict d => Ok (Tables_Model.Table [0; 1]%Z (map (fun kv => (fst kv, cells (snd kv))) d)) | _ => Raise ValueError end.
Definition series_of (v : Tables_Model.value) : res Tables_Model.series :=
  match v with Tables_Model.VDict d => Ok (map (fun kv => (fst kv, match snd kv with Tables_Model.VNum z => Some z | _ => None end)) d) | _ => Raise ValueError end.
Definition both (a b : list pystr) : list pystr := a ++ List.filter (fun k => negb (existsb (str_eqb k) a)) b.
Definition merge_tables := Tables_Model.merge frame_of series_of (fun l => l) both.
Definition vnums (l : list Z) : Tables_Model.value := Tables_Model.VList (map Tables_Model.VNum l).
Definition column (k : string) (hv : Tables_Model.heap * res Tables_Model.value) : option (list (option Z)) :=
  match hv with
  | (h, Ok (Tables_Model.VFrame m)) => sget (lit k) (Tables_Model.t_cols (Tables_Model.load h m))
  | (_, Ok (Tables_Model.VSeries s)) => option_map (fun x => [x]) (sget (lit k) s)
  | _ => None
  end.
Example test_merge_pandas :
  let t := merge_tables [Tables_Model.Table [0; 1]%Z [(lit "a", [Some 1; Some 2]%Z); (lit "b", [Some 3; Some 4]%Z)]] (Tables_Model.VFrame 0)
             (Tables_Model.VDict [(lit "a", vnums [11; 22]%Z); (lit "c", vnums [5; 6]%Z)]) in
  let s := merge_tables [] (Tables_Model.VSeries [(lit "a", Some 1%Z); (lit "b", Some 3%Z)]) (Tables_Model.VDict [(lit "a", Tables_Model.VNum 11); (lit "c", Tables_Model.VNum 5)]) in
  column "a" t = Some [Some 11; Some 22]%Z /\ column "b" t = Some [Some 3; Some 4]%Z /\ column "c" t = Some [Some 5; Some 6]%Z
  /\ column "a" s = Some [Some 11%Z] /\ column "b" s = Some [Some 3%Z] /\ column "c" s = Some [Some 5%Z].
Proof. cbv zeta. repeat split; vm_compute; reflexivity. Qed.
