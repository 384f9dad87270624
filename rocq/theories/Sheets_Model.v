(** * Factories of sheets: model of [/repo/pandalone/xleash/io/backend.py] lines 55-251

    Sheets and backends are objects, told apart by numbers; they are truthy.
    Closing a sheet does not fail. *)
From Coq Require Import String.
From Verif Require Import PyBase.

(** Sheet ids: names, indices, or None. *)
Inductive sid := SNone | SInt (z : Z) | SStr (s : pystr).
Definition sid_eqb (a b : sid) : bool :=
  match a, b with
  | SNone, SNone => true
  | SInt x, SInt y => (x =? y)%Z
  | SStr x, SStr y => str_eqb x y
  | _, _ => false
  end.

(** utils.py:91-96 [as_list]: a single id, or a sequence of them *)
Inductive ids (A : Type) := One (a : A) | Many (l : list A).
Arguments One {A}.
Arguments Many {A}.
Definition as_list {A} (i : ids A) : list A := match i with One a => [a] | Many l => l end.

Definition key : Type := pystr * sid.

(** What was done to sheets, for the properties: [_close()], [_close_all()], and
    the calls of [add_sheet]. *)
Inductive event := Added (s : nat) | Closed (s : nat) | Released (s : nat).

(** backend.py:134-143 [SheetsFactory]; [opens] counts what was opened so far. *)
Record factory := Factory { cached : list (pystr * list (sid * nat)); events : list event; opens : nat }.
Definition new_factory : factory := Factory [] [] 0.

Section Factory.
  (** [list(set(...))] has any order. *)
  Variable set_list : list key -> list key.
  (** [sheet.get_sheet_ids()] *)
  Variable sheet_ids : nat -> option pystr * list sid.
  (** [utils.path2url] *)
  Variable path2url : pystr -> pystr.
  (** [_open_sheet], see below, and [sheet.open_sibling_sheet()]; their result
      may be another one each time. *)
  Variable open_sheet : nat -> option pystr -> sid -> res nat.
  Variable open_sibling : nat -> nat -> sid -> res nat.

  (** backend.py:145-149 *)
  Definition cache_get (f : factory) (k : key) : option nat :=
    match dget str_eqb (fst k) (cached f) with Some d => dget sid_eqb (snd k) d | None => None end.
  (** backend.py:151-157 *)
  Definition cache_put (k : key) (s : nat) (f : factory) : factory :=
    Factory (dset str_eqb (fst k) (dset sid_eqb (snd k) s (match dget str_eqb (fst k) (cached f) with Some d => d | None => [] end)) (cached f))
            (events f) (opens f).
  Definition logged (e : event) (f : factory) : factory := Factory (cached f) (events f ++ [e]) (opens f).

  (** backend.py:163-181 [_derive_sheet_keys], with 159-161 [_build_sheet_key] *)
  Definition derive_keys (s : nat) (wb_ids : ids (option pystr)) (sh_ids : ids sid) : res (list key) :=
    match sheet_ids s with
    | (None, _) => Raise AssertionError
    | (Some wb, shs) =>
        match set_list (flat_map (fun w => match w with
                                           | None | Some [] => []
                                           | Some w => map (fun sh => (w, sh)) (shs ++ as_list sh_ids)
                                           end) (Some wb :: as_list wb_ids)) with
        | [] => Raise AssertionError
        | keys => Ok keys
        end
    end.

  (** backend.py:183-190 [_close_sheet] *)
  Definition close_sheet (k : key) (f : factory) : factory :=
    match cache_get f k with
    | None => f
    | Some s =>
        let f := logged (Closed s) f in
        Factory (map (fun wd => (fst wd, filter (fun x => negb (Nat.eqb (snd x) s)) (snd wd))) (cached f)) (events f) (opens f)
    end.

  (** backend.py:192-197 [close] *)
  Definition close (f : factory) : factory :=
    Factory [] (events f ++ flat_map (fun wd => map (fun x => Released (snd x)) (snd wd)) (cached f)) (opens f).

  (** backend.py:199-214 [add_sheet] *)
  Definition add_key (s : nat) (f : factory) (k : key) : factory :=
    let f := match cache_get f k with
             | Some old => if Nat.eqb old s then f else close_sheet k f
             | None => f
             end in
    cache_put k s f.
  Definition add_sheet (s : nat) (wb_ids : ids (option pystr)) (sh_ids : ids sid) (f : factory) : factory * res unit :=
    match derive_keys s wb_ids sh_ids with
    | Raise e => (f, Raise e)
    | Ok keys => (fold_left (add_key s) keys (logged (Added s) f), Ok tt)
    end.

  Definition opened (f : factory) : factory := Factory (cached f) (events f) (S (opens f)).
  (** Opening a sheet and adding it *)
  Definition open_and_add (r : res nat) (wb : pystr) (sh : sid) (f : factory) : factory * res nat :=
    match r with
    | Raise e => (opened f, Raise e)
    | Ok s =>
        match add_sheet s (One (Some wb)) (One sh) (opened f) with
        | (f, Ok _) => (f, Ok s)
        | (f, Raise e) => (f, Raise e)
        end
    end.

  (** backend.py:216-245 [fetch_sheet] *)
  Definition fetch_sheet (wb : option pystr) (sh : sid) (base : option nat) (f : factory) : factory * res nat :=
    match wb, base with
    | None, Some b =>
        match sh with
        | SNone => (f, Ok b)
        | _ =>
            match fst (sheet_ids b) with
            | None => (f, Raise AssertionError)
            | Some wb =>
                match cache_get f (wb, sh) with
                | Some s => (f, Ok s)
                | None => open_and_add (open_sibling (opens f) b sh) wb sh f
                end
            end
        end
    | None, None => (opened f, open_sheet (opens f) None sh)
    | Some wb, _ =>
        match cache_get f (wb, sh) with
        | Some s => (f, Ok s)
        | None => open_and_add (open_sheet (opens f) (Some (path2url wb)) sh) wb sh f
        end
    end.

  (** backend.py:72-87 [SimpleSheetsFactory.fetch_sheet], of a factory without
      cache: the sibling that is opened is not assigned. *)
  Definition simple_fetch_sheet (wb : option pystr) (sh : sid) (base : option nat) (t : nat) : res nat :=
    match wb, base with
    | None, Some b =>
        match sh with
        | SNone => Ok b
        | _ => do _ <- open_sibling t b sh; Raise UnboundLocalError
        end
    | _, _ => open_sheet t (option_map path2url wb) sh
    end.

  (** Histories *)
  Inductive op := Add (s : nat) (wb_ids : ids (option pystr)) (sh_ids : ids sid) | Fetch (wb : option pystr) (sh : sid) (base : option nat) | Close.
  Definition run_op (f : factory) (o : op) : factory :=
    match o with
    | Add s w h => fst (add_sheet s w h f)
    | Fetch w h b => fst (fetch_sheet w h b f)
    | Close => close f
    end.
End Factory.

(** ** Bids *)

(** [sorted(l, key=...)] of Python is stable. *)
Fixpoint insert_by {A} (k : A -> Z) (x : A) (l : list A) : list A :=
  match l with
  | [] => [x]
  | y :: l' => if (k x <=? k y)%Z then x :: y :: l' else y :: insert_by k x l'
  end.
Fixpoint sorted_by {A} (k : A -> Z) (l : list A) : list A :=
  match l with [] => [] | x :: l' => insert_by k x (sorted_by k l') end.

(** backend.py:89-103 [decide_backend] *)
Definition decide_backend {B} (bid : B -> option Z) (backends : list B) : res B :=
  let bids := flat_map (fun b => match bid b with Some z => [(b, z)] | None => [] end) backends in
  match rev (sorted_by snd bids) with
  | [] => Raise ValueError
  | w :: _ => Ok (fst w)
  end.
(** backend.py:110-115 [_open_sheet] *)
Definition open_by_bid {B} (bid : B -> option pystr -> option Z) (be_open : B -> option pystr -> sid -> res (option nat))
    (backends : list B) (url : option pystr) (sh : sid) : res nat :=
  do b <- decide_backend (fun b => bid b url) backends;
  do s <- be_open b url sh;
  match s with Some s => Ok s | None => Raise ValueError end.
