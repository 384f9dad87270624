(** * What trees of steps are, independently of the code *)
From Coq Require Import String.
From Verif Require Import PyBase Json JsonPointer_Model JsonPointer_Spec Paths_Spec Pmod_Model Pmod_Spec Pstep_Model.

Definition step_at (h : heap) (i : nat) (s : pstep) : Prop := nth_error (h_steps h) i = Some s.

(** [c] is the child of [i] under the name [a]. *)
Definition child_at (h : heap) (i : nat) (a : pystr) (c : nat) : Prop :=
  exists s d ds, step_at h i s /\ s_csteps s = Some d /\ nth_error (h_dicts h) d = Some ds /\ In (a, c) ds.

Definition leaf_at (h : heap) (i : nat) : Prop := forall a c, ~ child_at h i a c.

(** A way from a step downwards, both ends included. *)
Inductive walk (h : heap) : nat -> list nat -> Prop :=
| Walk_here : forall i, walk h i [i]
| Walk_down : forall i a c p, child_at h i a c -> walk h c p -> walk h i (i :: p).

Definition reaches (h : heap) (i j : nat) : Prop := exists p q, walk h i (p ++ j :: q).

(** Below the step all ways end. *)
Inductive ends (h : heap) : nat -> Prop :=
| Ends : forall i, (forall a c, child_at h i a c -> ends h c) -> ends h i.

(** The steps have their dicts for themselves, but for empty ones. *)
Definition unshared (h : heap) : Prop :=
  forall i j si sj d ds e, step_at h i si -> step_at h j sj ->
    s_csteps si = Some d -> s_csteps sj = Some d -> nth_error (h_dicts h) d = Some ds -> In e ds -> i = j.

(** Nothing dangles, and the keys of a dict are unique. *)
Definition sound (h : heap) : Prop :=
  (forall i s d, step_at h i s -> s_csteps s = Some d -> (d < length (h_dicts h))%nat)
  /\ (forall d ds a c, nth_error (h_dicts h) d = Some ds -> In (a, c) ds -> (c < length (h_steps h))%nat)
  /\ (forall d ds, nth_error (h_dicts h) d = Some ds -> NoDup (map fst ds)).

(** Names in the order of their characters. *)
Inductive str_lt : pystr -> pystr -> Prop :=
| Lt_nil : forall y b, str_lt [] (y :: b)
| Lt_head : forall x y a b, (x < y)%N -> str_lt (x :: a) (y :: b)
| Lt_tail : forall x a b, str_lt a b -> str_lt (x :: a) (x :: b).
Inductive ascending : list pystr -> Prop :=
| Asc_nil : ascending []
| Asc_cons : forall x l, (forall y, In y l -> str_lt x y) -> ascending l -> ascending (x :: l).

(** The cells of a mapping object. *)
Inductive has_label : lpmod -> nat -> Prop :=
| Hl_here : forall l s r, has_label (LP l s r) l
| Hl_step : forall l s r k p x, In (k, p) s -> has_label p x -> has_label (LP l s r) x
| Hl_regx : forall l s r k p x, In (k, p) r -> has_label p x -> has_label (LP l s r) x.
Definition allocated (c : cells) (p : lpmod) : Prop := forall x, has_label p x -> (x < length c)%nat.

(** An existing mapping object, with unique keys. *)
Definition exists_in (c : cells) (p : lpmod) : Prop := allocated c p /\ wf (erase c p).

(** The heap's steps have existing mappings. *)
Definition pmods_exist (h : heap) : Prop :=
  forall i s p, step_at h i s -> s_pmod s = Some p -> exists_in (h_cells h) p.

(** What a lock demands from a text. *)
Definition lock_allows (locked : Z) (orig text : pystr) : Prop :=
  text = orig \/ (1 <= locked)%Z /\ ((3 <= locked)%Z \/ ~ In 47%N text).
Definition locks_kept (h : heap) : Prop :=
  forall i s, step_at h i s -> lock_allows (s_locked s) (s_orig s) (s_text s).

(** ** Histories *)
Section Hist.
  Variable ex : heap -> op -> heap.

  (** Every operation is applied where it respects [ok]. *)
  Inductive always (ok : heap -> op -> Prop) : heap -> list op -> Prop :=
  | Al_nil : forall h, always ok h []
  | Al_cons : forall h o os, ok h o -> always ok (ex h o) os -> always ok h (o :: os).
End Hist.

(** No assignment of a step below itself. *)
Definition no_loop (h : heap) (o : op) : Prop :=
  forall i a j, o = OSet i a (AStep j) -> text_of h j = [] \/ ~ reaches h j i.

(** Programs have no mappings but existing ones. *)
Definition existing (h : heap) (o : op) : Prop :=
  forall n p a ts, o = ONew n (MPmod p) a ts -> exists_in (h_cells h) p.

(** No assignment to the attribute [a] of the step [i]. *)
Definition unassigned (i : nat) (a : pystr) (h : heap) (o : op) : Prop :=
  forall v, o <> OSet i a v.

(** The step whose attributes an operation copies, and the text of the copy. *)
Inductive clones (h : heap) : op -> nat -> pystr -> Prop :=
| Cl_step : forall i a j, clones h (OSet i a (AStep j)) j a
| Cl_str : forall i a x j, child_at h i a j -> clones h (OSet i a (AStr x)) j x
| Cl_new : forall n j ts, clones h (ONew (Some n) (MStep j) None ts) j n
| Cl_new_blank : forall j ts, clones h (ONew None (MStep j) None ts) j []
| Cl_new_alias : forall n j x ts, clones h (ONew n (MStep j) (Some x) ts) j x.

(** No copy gets a name that the lock forbids. *)
Definition lock_respected (h : heap) (o : op) : Prop :=
  forall j x s, clones h o j x -> step_at h j s -> s_text s <> [] -> lock_allows (s_locked s) (s_orig s) x.

(** No string is assigned to an attribute of a step with children whose mappings
    are a node of [p]. *)
Definition spares (p : lpmod) (h : heap) (o : op) : Prop :=
  forall i a x s q, o = OSet i a (AStr x) -> step_at h i s -> s_pmod s = Some q ->
    has_label p (l_label q) -> leaf_at h i.

(** The text of a step whose mapping gives the alias [al]: a blank alias is none. *)
Inductive text_for (name : pystr) : option pystr -> pystr -> Prop :=
| Tf_none : text_for name None name
| Tf_blank : text_for name (Some []) name
| Tf_alias : forall a t, a <> [] -> unescapes a t -> text_for name (Some a) t.

(** Plain names, and an alias made of such, with no dot in front. *)
Definition plain_name (n : pystr) : Prop := plain n /\ ~ In 47%N n /\ unescapes n n.
Definition plain_alias (x : pystr) : Prop :=
  (forall y, x <> 46%N :: y) /\ exists parts, parts <> [] /\ Forall plain_name parts /\ x = join [47%N] parts.

(** The names along a way. *)
Inductive shown (h : heap) (with_orig : bool) (i : nat) : pystr -> Prop :=
| Sh_text : with_orig = false \/ text_of h i = orig_of h i -> shown h with_orig i (text_of h i)
| Sh_both : with_orig = true -> text_of h i <> orig_of h i ->
    shown h with_orig i ([40%N] ++ orig_of h i ++ [45%N; 45%N; 62%N] ++ text_of h i ++ [41%N]).

(** The texts are in order. *)
Definition nondecreasing (l : list pystr) : Prop :=
  forall l1 x l2 y l3, l = l1 ++ x :: l2 ++ y :: l3 -> x = y \/ str_lt x y.

Section Plain.
  Variable M : Type.
  Variable fullmatch : pystr -> pystr -> option M.
  Variable expand : M -> pystr -> res pystr.

  (** All aliases met along the names are plain. *)
  Inductive plainly : option pmod -> list pystr -> Prop :=
  | Pl_nil : forall pm, plainly pm []
  | Pl_none : forall names, plainly None names
  | Pl_some : forall p a names,
      (forall x, aliased M fullmatch expand p a (Ok (Some x)) -> plain_alias x) ->
      (forall pm', below M fullmatch p a pm' -> plainly pm' names) -> plainly (Some p) (a :: names).
End Plain.

(** References one below the other: [i.a.b.c]. *)
Section Refs.
  Variable getat : heap -> nat -> pystr -> heap * res value.
  Inductive refs : heap -> nat -> list pystr -> list nat -> heap -> Prop :=
  | Rf_nil : forall h i, refs h i [] [] h
  | Rf_cons : forall h i a c h1 names ids h2, getat h i a = (h1, Ok (VStep c)) ->
      refs h1 c names ids h2 -> refs h i (a :: names) (c :: ids) h2.
End Refs.
