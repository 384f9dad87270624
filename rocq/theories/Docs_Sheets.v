(** * The project's own examples, run on the model: sheets of [/repo/pandalone/xleash/io/backend.py] *)
From Coq Require Import String.
From Verif Require Import PyBase Sheets_Model.
Open Scope Z_scope.

Definition key_eqb (a b : key) : bool := str_eqb (fst a) (fst b) && sid_eqb (snd a) (snd b).
Definition nodup_keys (l : list key) : list key :=
  fold_right (fun k acc => if existsb (key_eqb k) acc then acc else k :: acc) [] l.
Definition keys_are (r : res (list key)) (l : list key) : bool :=
  match r with
  | Ok ks => Nat.eqb (length ks) (length l) && forallb (fun k => existsb (key_eqb k) l) ks && forallb (fun k => existsb (key_eqb k) ks) l
  | Raise _ => false
  end.

(** /repo/tests/test_xleash.py:1223-1265 *)
Example test_derive_keys :
  keys_are (derive_keys nodup_keys (fun _ => ((Some (lit "wb1")), [SStr (lit "sh1"); SInt 0])) 0 (One None) (One (SNone)))
    [(lit "wb1", SStr (lit "sh1")); (lit "wb1", SInt 0); (lit "wb1", SNone)] = true
  /\ keys_are (derive_keys nodup_keys (fun _ => ((Some (lit "wb1")), [SNone; SInt 0])) 0 (One None) (One (SNone)))
    [(lit "wb1", SNone); (lit "wb1", SInt 0)] = true
  /\ keys_are (derive_keys nodup_keys (fun _ => ((Some (lit "wb1")), [SStr (lit "sh1"); SInt 0])) 0 (One (Some (lit "wb2"))) (One (SNone)))
    [(lit "wb1", SStr (lit "sh1")); (lit "wb1", SInt 0); (lit "wb1", SNone); (lit "wb2", SStr (lit "sh1")); (lit "wb2", SInt 0); (lit "wb2", SNone)] = true
  /\ keys_are (derive_keys nodup_keys (fun _ => ((Some (lit "wb1")), [SStr (lit "sh1"); SInt 0])) 0 (One (Some (lit "wb2"))) (One (SStr (lit "sh2"))))
    [(lit "wb1", SStr (lit "sh1")); (lit "wb1", SInt 0); (lit "wb1", SStr (lit "sh2")); (lit "wb2", SStr (lit "sh1")); (lit "wb2", SStr (lit "sh2")); (lit "wb2", SInt 0)] = true
  /\ keys_are (derive_keys nodup_keys (fun _ => ((Some (lit "wb1")), [SStr (lit "sh1"); SInt 0])) 0 (One None) (One (SStr (lit "sh2"))))
    [(lit "wb1", SStr (lit "sh1")); (lit "wb1", SInt 0); (lit "wb1", SStr (lit "sh2"))] = true.
Proof. repeat split; vm_compute; reflexivity. Qed.
(** :1267-1274: extra ids of one sheet whose own are (wb, [sh; 0]), and how many sheets are opened *)
Definition cache_keys : list (list (pystr * sid) * nat) :=
  [([(lit "w1", SStr (lit "s1"))], 1%nat);
   ([(lit "w1", SStr (lit "s1")); (lit "w1", SNone)], 2%nat);
   ([(lit "w1", SStr (lit "s1")); (lit "w1", SInt 0); (lit "w1", SInt 1)], 2%nat);
   ([(lit "w1", SStr (lit "s1")); (lit "w1", SInt 0); (lit "w1", SInt 1); (lit "w1", SNone)], 3%nat);
   ([(lit "wb", SStr (lit "s1")); (lit "w1", SInt 0)], 2%nat);
   ([(lit "w1", SStr (lit "s1")); (lit "w1", SInt 0); (lit "w1", SNone); (lit "w2", SStr (lit "s1")); (lit "w2", SInt 0); (lit "w2", SNone)], 4%nat)].
Definition own_keys : list (pystr * sid) := [(lit "wb", SStr (lit "sh")); (lit "wb", SInt 0)].
Definition test_ids (_ : nat) : option pystr * list sid := (Some (lit "wb"), [SStr (lit "sh"); SInt 0]).
Definition add (s : nat) (k : pystr * sid) (f : factory) : factory :=
  fst (add_sheet nodup_keys test_ids s (One (Some (fst k))) (One (snd k)) f).
Definition populate (ks : list (pystr * sid)) : factory := fold_left (fun f k => add 0 k f) ks new_factory.
Definition holds (f : factory) (k : key) (x : option nat) : bool :=
  match cache_get f k, x with Some a, Some b => Nat.eqb a b | None, None => true | _, _ => false end.

(** :1277-1293 *)
Example test_cache_sheet :
  forallb (fun '(ks, _) => let f := populate ks in
    forallb (fun k => holds f k (Some 0%nat)) (own_keys ++ ks) && holds f (lit "no", SStr (lit "key")) None) cache_keys = true.
Proof. vm_compute; reflexivity. Qed.

(** :1296-1324: closing by any key closes once, and leaves no key *)
Example test_close_sheet :
  forallb (fun '(ks, _) => let ks := ks ++ own_keys in
    forallb (fun k => let f := close_sheet k (populate ks) in
      Nat.eqb (length (filter (fun e => match e with Closed 0 => true | _ => false end) (events f))) 1
      && forallb (fun k => holds f k None) ks) ks) cache_keys = true.
Proof. vm_compute; reflexivity. Qed.

(** :1326-1341: the sheets 1 and 2 have the same ids, and 3 is added with those *)
Definition old_ids (s : nat) : option pystr * list sid :=
  match s with 3%nat => (Some (lit "foo"), [SStr (lit "bar")]) | _ => (Some (lit "wb"), [SStr (lit "sh"); SInt 0]) end.
Definition closings (s : nat) (f : factory) : nat :=
  length (filter (fun e => match e with Closed t => Nat.eqb t s | _ => false end) (events f)).
Example test_close_old_sheet :
  let put s w h f := fst (add_sheet nodup_keys old_ids s (One w) (One h) f) in
  let f2 := put 2%nat None SNone (put 1%nat None SNone new_factory) in
  let f3 := put 3%nat (Some (lit "wb")) (SStr (lit "sh")) f2 in
  closings 1 f2 = 1%nat /\ closings 2 f3 = 1%nat /\ closings 1 f3 = 1%nat.
Proof. repeat split; vm_compute; reflexivity. Qed.

(** :1344-1364 and 1367-1387: the fetches give the sheet, and how many times one is opened *)
Definition fetches (opening : res nat) (ks : list (pystr * sid)) (f : factory) : factory * bool :=
  let fetch w h b f := fetch_sheet nodup_keys test_ids (fun w => w) (fun _ _ _ => opening) (fun _ _ _ => Raise AssertionError) w h b f in
  let step (fb : factory * bool) (x : option pystr * sid * option nat) :=
    let '(w, h, b) := x in
    match fetch w h b (fst fb) with
    | (f, Ok O) => (f, snd fb)
    | (f, _) => (f, false)
    end in
  fold_left step (flat_map (fun k => [(Some (fst k), snd k, None); (None, SNone, Some 0%nat); (None, snd k, Some 0%nat)]
    ++ map (fun k => (Some (fst k), snd k, None)) own_keys) ks) (f, true).
Example test_fetch_sheet_prepopulated :
  forallb (fun '(ks, _) => let fb := fetches (Raise AssertionError) (ks ++ own_keys) (populate ks) in snd fb && Nat.eqb (opens (fst fb)) 0) cache_keys = true.
Proof. vm_compute; reflexivity. Qed.
Example test_fetch_sheet_and_open :
  forallb (fun '(ks, n) => let fb := fetches (Ok 0%nat) (ks ++ own_keys) new_factory in snd fb && Nat.eqb (opens (fst fb)) n) cache_keys = true.
Proof. vm_compute; reflexivity. Qed.
