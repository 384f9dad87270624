(** * Lassoing the cells of files that change: what is meant *)
From Coq Require Import String.
From Verif Require Import PyBase Parse_Spec OsPath_Spec FileUrl_Model FileUrl_Spec Dates_Model Whole_Spec Meaning_Spec.

(** Sheets of a book have different names. *)
Definition unique_names (disk : source -> option xbook) : Prop := forall s b, disk s = Some b -> NoDup (xb_names b).

(** The xl-ref, of some path and sheet, has no filters. *)
Definition refers_to (x p : pystr) (sheet : option pystr) : Prop :=
  exists t f, x = p ++ lit "#" ++ t /\ local_path p /\ no_quotes p /\ no_semicolon_end p /\
    frag_text t f /\ readable t f /\ f_filt f = None /\ url_text t /\ f_sheet f = sheet.

(** Paths of files that lead to the same place, whatever the folder *)
Definition same_way (p q : pystr) : Prop := ~ of_folder p /\ ~ of_folder q /\ forall folder, leads_to folder p = leads_to folder q.

(** The results [rs] are as seen at the moments [ms], none of which is later than the result:
    each is what is [seen] then. *)
Definition seen_at {D A} (seen : D -> pystr -> A) (plain : pystr -> Prop) (h : list (D * pystr)) (rs : list A) (ms : list nat) : Prop :=
  length rs = length h /\ length ms = length h /\
  forall i d x m, nth_error h i = Some (d, x) -> nth_error ms i = Some m ->
    (m <= i)%nat /\ (plain x -> exists d' y, nth_error h m = Some (d', y) /\ nth_error rs i = Some (seen d' x)).

(** After a result, those [related] to it are not of earlier moments. *)
Definition forward {D A} (related : pystr -> pystr -> Prop) (h : list (D * pystr)) (rs : list (res A)) (ms : list nat) : Prop :=
  forall i j di dj xi xj mi mj v, (i <= j)%nat ->
    nth_error h i = Some (di, xi) -> nth_error h j = Some (dj, xj) -> related xi xj ->
    nth_error rs i = Some (Ok v) ->
    nth_error ms i = Some mi -> nth_error ms j = Some mj -> (mi <= mj)%nat.
