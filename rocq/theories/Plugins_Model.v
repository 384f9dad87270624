(** * Plugins of xleash: xleash/__init__.py:882-967 and what the plugins of the project install *)
From Coq Require Import String.
From Verif Require Import PyBase.

(** pkg_resources [EntryPoint]: its name, and its text with the distribution
    ([stringify_EntryPoint], xleash/__init__.py:929-930) *)
Record entry_point := { ep_id : nat; ep_name : pystr; ep_text : pystr }.

(** What happened so far; plugins may depend on it in any way. *)
Inductive event := Loaded (id : nat) | Installed (id : nat) | LoadFailed (id : nat) | InstallFailed (id : nat).
Definition history := list event.

(** [a <= b] of texts *)
Fixpoint text_leb (a b : pystr) : bool :=
  match a, b with
  | [], _ => true
  | _ :: _, [] => false
  | x :: a', y :: b' => if (x =? y)%N then text_leb a' b' else (x <? y)%N
  end.

(** [sorted(…, key=lambda ep: ep.name)], which is stable *)
Fixpoint insert_ep (e : entry_point) (l : list entry_point) : list entry_point :=
  match l with
  | [] => [e]
  | x :: l' => if text_leb (ep_name e) (ep_name x) then e :: l else x :: insert_ep e l'
  end.
Definition sorted_eps (l : list entry_point) : list entry_point := fold_right insert_ep [] l.

Section Oracles.
  (** [ep.load()]: is what it gives callable? *)
  Variable load : entry_point -> history -> res bool.
  (** [plugin_loader()] *)
  Variable install : entry_point -> history -> res unit.

  (** [_plugins_installed]: the stages by text *)
  Definition stages := list (pystr * nat).
  Definition set_stage (e : entry_point) (n : nat) (st : stages) : stages := dset str_eqb (ep_text e) n st.

  Definition state := (stages * history)%type.

  (** xleash/__init__.py:944-954, the plugins to install last first *)
  Definition load_one (x : state * list entry_point) (e : entry_point) : state * list entry_point :=
    let '((st, h), loaders) := x in
    let st0 := set_stage e 0 st in
    match load e h with
    | Raise _ => ((st0, h ++ [LoadFailed (ep_id e)]), loaders)
    | Ok callable =>
        ((set_stage e 1 st0, h ++ [Loaded (ep_id e)]), if callable : bool then e :: loaders else loaders)
    end.

  (** xleash/__init__.py:956-967 *)
  Definition install_one (x : state) (e : entry_point) : state :=
    let '(st, h) := x in
    match install e h with
    | Raise _ => (st, h ++ [InstallFailed (ep_id e)])
    | Ok _ => (set_stage e 2 st, h ++ [Installed (ep_id e)])
    end.

  (** xleash/__init__.py:882-967 *)
  Definition init_plugins (eps : list entry_point) (x : state) : res state :=
    let eps := sorted_eps eps in
    match eps with
    | [] => Raise ValueError
    | _ =>
        let '(x1, loaders) := fold_left load_one eps (x, []) in
        Ok (fold_left install_one (rev loaders) x1)
    end.
End Oracles.

(** ** The plugins of the project *)

(** Backends: those of xlrd, and others *)
Inductive backend := Xlrd | OtherBackend (id : nat).
Definition is_xlrd (b : backend) : bool := match b with Xlrd => true | _ => false end.

(** io/_xlrd.py:256-259 *)
Definition load_xlrd (io_backends : list backend) : list backend :=
  match filter is_xlrd io_backends with
  | [] => Xlrd :: io_backends
  | _ => io_backends
  end.

(** Functions of the filters: those of the project by name, and others *)
Inductive ffunc := Own (name : string) | OtherFunc (id : nat).
Definition filters := list (pystr * ffunc).

(** [d.update(new)] *)
Definition dict_update (d new : filters) : filters :=
  fold_left (fun d kv => dset str_eqb (fst kv) (snd kv) d) new d.

Definition own (l : list string) : filters := map (fun n => (lit n, Own n)) l.

(** _filter.py:540-579 *)
Definition install_default_filters (d : filters) : filters :=
  dict_update d (own ["pipe"; "pyeval"; "py"; "recurse"; "redim"; "numpy"; "dict"; "odict"; "sorted"]%string).

(** _pandas_filters.py:234-252 *)
Definition install_filters (d : filters) : filters := dict_update d (own ["df"; "sr"]%string).
