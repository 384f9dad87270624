(** * Components: model of [/repo/pandalone/components.py] *)
From Coq Require Import String.
From Verif Require Import PyBase Json JsonPointer_Model Paths_Model Pmod_Model Pstep_Model.

(** components.py:180-187 [FuncComponent.__init__]: the name of a component *)
Definition component_name (cfunc : pystr) (name : option pystr) : pystr :=
  match name with
  | Some n => n
  | None => if starts_with (lit "cfunc_") cfunc then skipn 6 cfunc else cfunc
  end.

(** ** Component functions

    A cfunc is any terminating program that gets its steps from [pinp] and [pout],
    works with them and their descendants, and decides by the texts and the lists of
    paths it gets to see.  Steps are named by the order in which they were got.
    Simplifications: the values tree is a mock while building (components.py:218), so
    that nothing comes from it; steps are not compared by identity; the program does not
    use steps of elsewhere. *)
Inductive cvalue := CStep (v : nat) | CStr (s : pystr) | COther.
Inductive cmaps := CNoMaps | CMaps (v : nat) | CTuples (l : list (option pystr * option pystr)) | CBad.

Inductive cmd :=
| CPinp (path : option pystr)
| CPout (path : option pystr)
| CGet (v : nat) (attr : pystr)
| CSet (v : nat) (attr : pystr) (x : cvalue)
| CNew (pname : option pystr) (m : cmaps) (alias : option pystr) (tags : list pystr)
| CLocked (v : nat) (state : Z)
| CTag (v : nat) (ts : list pystr)
| CUntag (v : nat) (t : pystr)
| CPaths (v : nat) (with_orig : bool) (tag : pystr)
| CInp (path : pystr)
| COut (path : pystr).

(** What the program sees of the outcome. *)
Inductive obs := Seen (text : pystr) | SeenClass | Listed (l : list pystr) | Done | Failed (e : exn).

Inductive cprog := CEnd (r : res unit) | CDo (c : cmd) (k : obs -> cprog).

(** The attributes of the component while the program runs, and its variables. *)
Record cstate := mkC {
  c_heap : heap;
  c_pinp : option nat;
  c_pout : option nat;
  c_inp : list pystr;
  c_out : list pystr;
  c_vars : list nat }.

Definition upd (h : heap) (st : cstate) : cstate :=
  mkC h (c_pinp st) (c_pout st) (c_inp st) (c_out st) (c_vars st).
Definition push (h : heap) (i : nat) (st : cstate) : cstate :=
  mkC h (c_pinp st) (c_pout st) (c_inp st) (c_out st) (c_vars st ++ [i]).
Definition with_pinp (i : nat) (st : cstate) : cstate :=
  mkC (c_heap st) (Some i) (c_pout st) (c_inp st) (c_out st) (c_vars st).
Definition with_pout (i : nat) (st : cstate) : cstate :=
  mkC (c_heap st) (c_pinp st) (Some i) (c_inp st) (c_out st) (c_vars st).
Definition add_inp (ps : list pystr) (st : cstate) : cstate :=
  mkC (c_heap st) (c_pinp st) (c_pout st) (c_inp st ++ ps) (c_out st) (c_vars st).
Definition add_out (ps : list pystr) (st : cstate) : cstate :=
  mkC (c_heap st) (c_pinp st) (c_pout st) (c_inp st) (c_out st ++ ps) (c_vars st).

Section Regex.
  Variable M : Type.
  Variable fullmatch : pystr -> pystr -> option M.
  Variable expand : M -> pystr -> res pystr.
  Variable compiles : pystr -> bool.
  Variable class_attr : pystr -> bool.
  (** Python's limit of recursion *)
  Variable depth : nat.
  Notation new := (new_step M fullmatch expand compiles).

  Section Component.
    Variable name : pystr.     (* [self._name] *)
    Variable pmod : maps.      (* [self._pmod] *)

    (** A step as outcome *)
    Definition got (h : heap) (r : res nat) (st : cstate) : cstate * obs :=
      match r with
      | Ok i => (push h i st, Seen (text_of h i))
      | Raise e => (upd h st, Failed e)
      end.

    (** The step a variable holds; an outcome without step *)
    Definition on (st : cstate) (v : nat) (f : nat -> cstate * obs) : cstate * obs :=
      match nth_error (c_vars st) v with Some i => f i | None => (st, Failed NameError) end.
    Definition did (st : cstate) (hr : heap * res unit) : cstate * obs :=
      let (h, r) := hr in (upd h st, match r with Ok _ => Done | Raise e => Failed e end).

    (** components.py:202-214 [pinp], [pout]: [path or self._name] *)
    Definition root_path (path : option pystr) : pystr :=
      match path with Some (x :: p) => x :: p | _ => name end.

    Definition run_pinp (st : cstate) (path : option pystr) : cstate * obs :=
      match c_pinp st with
      | Some i => got (c_heap st) (Ok i) st
      | None =>
          let (h, r) := new (c_heap st) (Some (root_path path)) pmod None [] in
          got h r (match r with Ok i => with_pinp i st | Raise _ => st end)
      end.

    Definition run_pout (st : cstate) (path : option pystr) : cstate * obs :=
      match c_pout st with
      | Some i => got (c_heap st) (Ok i) st
      | None =>
          let (h, r) := new (c_heap st) (Some (root_path path)) pmod None [] in
          got h r (match r with Ok i => with_pout i st | Raise _ => st end)
      end.

    Definition run_cmd (st : cstate) (c : cmd) : cstate * obs :=
      let h := c_heap st in
      match c with
      | CPinp path => run_pinp st path
      | CPout path => run_pout st path
      | CGet v attr =>
          on st v (fun i =>
            match getattr M fullmatch expand compiles class_attr h i attr with
            | (h, Ok (VStep c)) => got h (Ok c) st
            | (h, Ok VClass) => (upd h st, SeenClass)
            | (h, Raise e) => (upd h st, Failed e)
            end)
      | CSet v attr x =>
          on st v (fun i =>
            match x with
            | CStep w => on st w (fun j => did st (setattr M fullmatch expand compiles h i attr (AStep j)))
            | CStr s => did st (setattr M fullmatch expand compiles h i attr (AStr s))
            | COther => did st (setattr M fullmatch expand compiles h i attr AOther)
            end)
      | CNew pname m alias tags =>
          let make m := let (h, r) := new h pname m alias tags in got h r st in
          match m with
          | CNoMaps => make NoMaps
          | CMaps v => on st v (fun i => make (MStep i))
          | CTuples l => make (MTuples l)
          | CBad => make MBad
          end
      | CLocked v state => on st v (fun i => did st (set_locked h i state))
      | CTag v ts => on st v (fun i => did st (tag h i ts, Ok tt))
      | CUntag v t => on st v (fun i => did st (tag_remove h i t, Ok tt))
      | CPaths v with_orig tag =>
          on st v (fun i => (st, match paths depth h i with_orig tag with
                              | Ok l => Listed l
                              | Raise e => Failed e
                              end))
      | CInp p => (add_inp [p] st, Done)
      | COut p => (add_out [p] st, Done)
      end.

    Fixpoint run_prog (st : cstate) (p : cprog) : cstate * res unit :=
      match p with
      | CEnd r => (st, r)
      | CDo c k => let (st, o) := run_cmd st c in run_prog st (k o)
      end.

    (** components.py:199-200 [_fetch_all_paths]: the blank text is false. *)
    Definition fetch_all_paths (h : heap) (pstep : option nat) : res (list pystr) :=
      match pstep with
      | Some i => if texted h i then paths depth h i false [] else Ok []
      | None => Ok []
      end.

    (** components.py:216-228 [_build]: what becomes of [_inp] and [_out] *)
    Definition build (h : heap) (cfunc : cprog) : heap * res (list pystr * list pystr) :=
      let (st, r) := run_prog (mkC h None None [] [] []) cfunc in
      let h := c_heap st in
      (h, do _ <- r;
          do i <- fetch_all_paths h (c_pinp st);
          do o <- fetch_all_paths h (c_pout st);
          Ok (c_inp st ++ i, c_out st ++ o)).

    (** components.py:196-197 [__call__]: the program again, on the component as it is.
        Simplification: it decides by the steps, not by the values. *)
    Definition call (st : cstate) (cfunc : cprog) : cstate * res unit :=
      run_prog (mkC (c_heap st) (c_pinp st) (c_pout st) (c_inp st) (c_out st) []) cfunc.
  End Component.

  (** A component, or an assembly of such (components.py:261-263) *)
  Inductive component := Func (name : pystr) (cfunc : cprog) | Assembly (comps : list component).

  (** components.py:216-228, 268-276 [_build]: sets are lists of their elements. *)
  Fixpoint build_component (pmod : maps) (c : component) (h : heap)
    : heap * res (list pystr * list pystr) :=
    match c with
    | Func name cfunc => build name pmod h cfunc
    | Assembly comps =>
        let (h, r) :=
          (fix go (cs : list component) (h : heap) (inp out : list pystr) :=
             match cs with
             | [] => (h, Ok (inp, out))
             | c :: cs =>
                 match build_component pmod c h with
                 | (h, Ok (i, o)) => go cs h (add_tags inp i) (add_tags out o)
                 | (h, Raise e) => (h, Raise e)
                 end
             end) comps h [] [] in
        (h, do io <- r; Ok (sort_str (fun x => x) (fst io), sort_str (fun x => x) (snd io)))
    end.
End Regex.
