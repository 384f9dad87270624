(** * Steps from a table: model of [pstep_from_df], mappings.py:1312-1338, and of [_schema], 1294-1309

    A data-frame is the columns besides the one with the names, and for each row its path (the
    index), its name and its values in those columns.  Simplification: paths and names are texts,
    the columns besides the names' are plain texts, and values are of any type [V].
    The private attributes of steps are kept beside the heap of [Pstep_Model]. *)
From Coq Require Import String.
From Verif Require Import PyBase Json JsonPointer_Model Pmod_Model Pstep_Model.

Section Table.
  Variable M : Type.
  Variable fullmatch : pystr -> pystr -> option M.
  Variable expand : M -> pystr -> res pystr.
  Variable compiles : pystr -> bool.
  Variable class_attr : pystr -> bool.
  Variable V : Type.

  (** Private attributes: of which step, and which *)
  Definition akey : Type := nat * pystr.
  Definition akey_eqb (a b : akey) : bool := Nat.eqb (fst a) (fst b) && str_eqb (snd a) (snd b).
  Definition attrs := list (akey * V).
  Definition private (h : attrs) (i : nat) (attr : pystr) : option V := dget akey_eqb (i, attr) h.

  Definition row : Type := pystr * pystr * list V.
  Definition r_path (r : row) : pystr := fst (fst r).
  Definition r_name (r : row) : pystr := snd (fst r).
  Definition r_values (r : row) : list V := snd r.

  (** Properties without setter (mappings.py:1159-1175, 1294) *)
  Definition read_only (attr : pystr) : bool :=
    existsb (str_eqb attr) [lit "_fix"; lit "_lock"; lit "_schema"].
  (** The state of the step itself: not modelled *)
  Definition internal (attr : pystr) : bool :=
    existsb (str_eqb attr) [lit "_locked"; lit "_orig"; lit "_pmod"; lit "_csteps"; lit "_tags"]
    || starts_with (lit "__") attr.

  (** [setattr(cstep, attr, aval)] of a private [attr] (mappings.py:1113-1115).  What is an
      attribute of the class is a method or a number, and has no attributes to set. *)
  Definition set_private (a : attrs) (v : value) (attr : pystr) (x : V) : res attrs :=
    match v with
    | VClass => Raise AttributeError
    | VStep c =>
        if read_only attr then Raise AttributeError
        else if internal attr then Raise (OtherError 1)
        else Ok (dset akey_eqb (c, attr) x a)
    end.

  (** mappings.py:1335-1336 *)
  Fixpoint set_values (a : attrs) (v : value) (cols : list pystr) (vals : list V) : res attrs :=
    match cols, vals with
    | c :: cols', x :: vals' => do a <- set_private a v (lit "_" ++ c) x; set_values a v cols' vals'
    | _, _ => Ok a
    end.

  (** mappings.py:1332-1336 *)
  Fixpoint set_rows (h : heap) (a : attrs) (p : nat) (cols : list pystr) (rows : list row)
    : heap * res attrs :=
    match rows with
    | [] => (h, Ok a)
    | r :: rows' =>
        match getattr M fullmatch expand compiles class_attr h p (skipn 1 (r_path r)) with
        | (h, Raise e) => (h, Raise e)
        | (h, Ok cstep) =>
            match set_values a cstep cols (r_values r) with
            | Raise e => (h, Raise e)
            | Ok a => set_rows h a p cols rows'
            end
        end
    end.

  (** mappings.py:1329-1338: the heap, the step, and what attributes it and its children got *)
  Definition pstep_from_df (h : heap) (cols : list pystr) (rows : list row) : heap * res (nat * attrs) :=
    match pmods_from_tuples compiles (map (fun r => (Some (r_path r), Some (r_name r))) rows) with
    | Raise e => (h, Raise e)
    | Ok pmods =>
        let (lp, c) := alloc_pmod pmods (h_cells h) in
        match new_step M fullmatch expand compiles (set_cells h c) (Some []) (MPmod lp) None [] with
        | (h, Raise e) => (h, Raise e)
        | (h, Ok p) =>
            match set_rows h [] p cols rows with
            | (h, Raise e) => (h, Raise e)
            | (h, Ok a) => (h, Ok (p, a))
            end
        end
    end.
End Table.
Arguments private {V}.
Arguments r_path {V}.
Arguments r_name {V}.
Arguments r_values {V}.
