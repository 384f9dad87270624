(** * Factories of sheets: what the properties mean *)
From Verif Require Import PyBase Sheets_Model.

(** The dicts of a cache have distinct keys, as all dicts of Python do. *)
Definition proper_dicts (f : factory) : Prop :=
  NoDup (map fst (cached f)) /\ forall wb d, In (wb, d) (cached f) -> NoDup (map fst d).

(** The sheet is in the cache, under that key. *)
Definition cached_at (f : factory) (k : key) (s : nat) : Prop :=
  exists d, In (fst k, d) (cached f) /\ In (snd k, s) d.
Definition in_cache (f : factory) (s : nat) : Prop := exists k, cached_at f k s.

(** The factory closed or released that sheet, and it was not added since. *)
Definition closed_now (ev : list event) (s : nat) : Prop :=
  exists a e b, ev = a ++ e :: b /\ (e = Closed s \/ e = Released s) /\ ~ In (Added s) b.

Definition among {A} (x : A) (i : ids A) : Prop := match i with One a => x = a | Many l => In x l end.

(** [k] combines an own or given workbook-id with an own or given sheet-id. *)
Definition id_of (sheet_ids : nat -> option pystr * list sid) (s : nat) (wb_ids : ids (option pystr)) (sh_ids : ids sid) (k : key) : Prop :=
  exists wb shs, sheet_ids s = (Some wb, shs)
    /\ (fst k = wb \/ among (Some (fst k)) wb_ids)
    /\ fst k <> []
    /\ (In (snd k) shs \/ among (snd k) sh_ids).

(** [list(set(l))] *)
Definition distinct_members (set_list : list key -> list key) : Prop :=
  forall l, NoDup (set_list l) /\ forall k, In k (set_list l) <-> In k l.

(** The position [i] wins: nobody bids more, and nobody after it the same. *)
Definition wins {B} (bid : B -> option Z) (backends : list B) (i : nat) (b : B) : Prop :=
  exists z, nth_error backends i = Some b /\ bid b = Some z
    /\ forall j b' z', nth_error backends j = Some b' -> bid b' = Some z' -> (z' < z)%Z \/ (z' = z /\ j <= i).
