(** * Path steps: model of [Pstep], [/repo/pandalone/mappings.py] lines 871-1309

    Steps, their dicts of children and the aliases of the mappings are objects
    that are shared and modified, hence the heap.  *)
From Coq Require Import String.
From Verif Require Import PyBase Json JsonPointer_Model Paths_Model Pmod_Model.

(** ** Mappings with identity

    After their construction only [_alias] of mappings is ever assigned
    (mappings.py:1096), their dicts never are, so that a [Pmod] object is the
    address of the cell with its alias, and the immutable rest. *)
Inductive lpmod := LP (label : nat) (steps : list (pystr * lpmod)) (regxs : list (pystr * lpmod)).

Definition l_label (p : lpmod) := match p with LP l _ _ => l end.
Definition l_steps (p : lpmod) := match p with LP _ s _ => s end.
Definition l_regxs (p : lpmod) := match p with LP _ _ r => r end.

Definition cells := list (option pystr).
Definition l_alias (c : cells) (p : lpmod) : option pystr := nth (l_label p) c None.

(** What the mappings are, at this moment. *)
Fixpoint erase (c : cells) (p : lpmod) : pmod :=
  match p with
  | LP l s r => Pmod (nth l c None) (map (fun kp => (fst kp, erase c (snd kp))) s)
                                    (map (fun kp => (fst kp, erase c (snd kp))) r)
  end.

(** Creating the objects of some mappings. *)
Fixpoint alloc_pmod (p : pmod) (c : cells) : lpmod * cells :=
  match p with
  | Pmod a s r =>
      let l := length c in
      let go := fold_left
                  (fun dc kp => let (d, c) := dc : list (pystr * lpmod) * cells in
                                let (x, c) := alloc_pmod (snd kp) c in
                                (d ++ [(fst kp, x)], c)) in
      let (s, c) := go s ([], c ++ [a]) in
      let (r, c) := go r ([], c) in
      (LP l s r, c)
  end.

(** mappings.py:213-335 [_merge], [_override_steps], [_override_regxs]: as
    [Pmod_Model.merge], the merged mappings being new objects ([copy(self)]) that
    share what they have not merged. *)
Fixpoint lmerge (self other : lpmod) (c : cells) : lpmod * cells :=
  match other with
  | LP ol osteps oregxs =>
      let l := length c in
      let c := c ++ [match nth ol c None with Some a => Some a | None => l_alias c self end] in
      let spmods := l_steps self in
      let (steps, c) :=
        match osteps with
        | [] => (spmods, c)
        | _ =>
            match spmods with
            | [] => (osteps, c)
            | _ =>
                fold_left
                  (fun dc no =>
                     let (d, c) := dc : list (pystr * lpmod) * cells in
                     match dget str_eqb (fst no) d with
                     | Some spmod => let (m, c) := lmerge spmod (snd no) c in
                                     (dset str_eqb (fst no) m d, c)
                     | None => (dset str_eqb (fst no) (snd no) d, c)
                     end)
                  osteps (spmods, c)
            end
        end in
      let srpmods := l_regxs self in
      let (regxs, c) :=
        match oregxs with
        | [] => (srpmods, c)
        | _ =>
            match srpmods with
            | [] => (oregxs, c)
            | _ =>
                let (opairs, c) :=
                  fold_left
                    (fun dc no =>
                       let (d, c) := dc : list (pystr * lpmod) * cells in
                       match dget str_eqb (fst no) srpmods with
                       | Some spmod => let (m, c) := lmerge spmod (snd no) c in
                                       (d ++ [(fst no, m)], c)
                       | None => (d ++ [no], c)
                       end)
                    oregxs ([], c) in
                (filter (fun ns => negb (dmem str_eqb (fst ns) oregxs)) srpmods ++ opairs, c)
            end
        end in
      (LP l steps regxs, c)
  end.

(** ** The heap *)

(** mappings.py:1074-1080: the text of the step and its [__dict__].  Simplification:
    no [_schema] and no private attributes of the user, which nothing here reads.
    [_tags] is a set or an empty tuple: the list of its elements. *)
Record pstep := mkStep {
  s_text : pystr;                 (* the [str] itself, immutable *)
  s_orig : pystr;
  s_pmod : option lpmod;
  s_csteps : option nat;          (* address of the dict *)
  s_locked : Z;
  s_tags : list pystr }.

Record heap := mkHeap {
  h_steps : list pstep;
  h_dicts : list (list (pystr * nat));
  h_cells : cells }.

Definition empty_heap : heap := mkHeap [] [] [].

Definition set_steps (h : heap) (ss : list pstep) := mkHeap ss (h_dicts h) (h_cells h).
Definition set_dicts (h : heap) (ds : list (list (pystr * nat))) := mkHeap (h_steps h) ds (h_cells h).
Definition set_cells (h : heap) (c : cells) := mkHeap (h_steps h) (h_dicts h) c.

Definition with_csteps (s : pstep) (d : option nat) :=
  mkStep (s_text s) (s_orig s) (s_pmod s) d (s_locked s) (s_tags s).
Definition with_pmod (s : pstep) (p : option lpmod) :=
  mkStep (s_text s) (s_orig s) p (s_csteps s) (s_locked s) (s_tags s).
Definition with_locked (s : pstep) (z : Z) :=
  mkStep (s_text s) (s_orig s) (s_pmod s) (s_csteps s) z (s_tags s).
Definition with_tags (s : pstep) (ts : list pystr) :=
  mkStep (s_text s) (s_orig s) (s_pmod s) (s_csteps s) (s_locked s) ts.

(** [_csteps], both [None] and [{}] being false. *)
Definition dict_of (h : heap) (d : option nat) : list (pystr * nat) :=
  match d with Some a => nth a (h_dicts h) [] | None => [] end.

Definition CAN_RELOCATE : Z := 3.
Definition CAN_RENAME : Z := 1.
Definition LOCKED : Z := 0.

(** [set(tags)], [set.update] *)
Definition add_tags (ts new : list pystr) : list pystr :=
  fold_left (fun ts t => if existsb (str_eqb t) ts then ts else ts ++ [t]) new ts.

(** The argument [maps]; [NoMaps] stands for whatever is false. *)
Inductive maps := NoMaps | MPmod (p : lpmod) | MStep (i : nat)
| MTuples (l : list (option pystr * option pystr)) | MBad.

(** An attribute of a step: another step, or something of the class. *)
Inductive value := VStep (i : nat) | VClass.

Section Regex.
  Variable M : Type.
  Variable fullmatch : pystr -> pystr -> option M.
  Variable expand : M -> pystr -> res pystr.
  Variable compiles : pystr -> bool.
  (** Whether a name is an attribute of the class: of [str], or a constant. *)
  Variable class_attr : pystr -> bool.

  (** mappings.py:337-347 [_match_regxs] *)
  Definition lmatch_regxs (self : lpmod) (cstep : pystr) : list (lpmod * M) :=
    flat_map (fun rp => match fullmatch (fst rp) cstep with
                        | Some m => [(snd rp, m)]
                        | None => []
                        end) (l_regxs self).

  (** mappings.py:414-418 *)
  Fixpoint lfirst_alias (c : cells) (pmods : list (lpmod * M)) : res (option pystr) :=
    match pmods with
    | [] => Ok None
    | (rpmod, m) :: pmods' =>
        match l_alias c rpmod with
        | Some a => do x <- expand m a; Ok (Some x)
        | None => lfirst_alias c pmods'
        end
    end.

  (** mappings.py:349-429 [descend]: a single match is returned itself. *)
  Definition ldescend (self : lpmod) (cstep : pystr) (c : cells)
    : cells * res (option lpmod * option pystr) :=
    let cpmod := dget str_eqb cstep (l_steps self) in
    let pmods := lmatch_regxs self cstep in
    match match match cpmod with Some q => l_alias c q | None => None end with
          | Some a => Ok (Some a)
          | None => lfirst_alias c (rev pmods)
          end with
    | Raise e => (c, Raise e)
    | Ok alias =>
        match map fst pmods ++ match cpmod with Some q => [q] | None => [] end with
        | [] => (c, Ok (None, None))
        | p :: ps =>
            let (m, c) := fold_left (fun mc q => lmerge (fst mc) q (snd mc)) ps (p, c) in
            (c, Ok (Some m, alias))
        end
    end.

  Definition alloc_step (h : heap) (s : pstep) : heap * res nat :=
    (set_steps h (h_steps h ++ [s]), Ok (length (h_steps h))).

  (** mappings.py:1071-1080 with fresh attributes *)
  Definition fresh_step (h : heap) (pname : pystr) (pm : option lpmod) (alias : option pystr)
      (tags : list pystr) : heap * res nat :=
    alloc_step h (mkStep (match alias with Some a => a | None => pname end)
                         pname pm None CAN_RELOCATE (add_tags [] tags)).

  (** mappings.py:877-886 [_clone_attrs]: a dict with children is copied, the
      children are not; an empty one is shared. *)
  Definition clone_csteps (h : heap) (d : option nat) : heap * option nat :=
    match dict_of h d with
    | [] => (h, d)
    | cs => (set_dicts h (h_dicts h ++ [cs]), Some (length (h_dicts h)))
    end.

  (** mappings.py:1063-1066 *)
  Definition step_by_pmod (h : heap) (pname : pystr) (p : lpmod) (alias : option pystr)
      (tags : list pystr) : heap * res nat :=
    let (c, r) := ldescend p pname (h_cells h) in
    let h := set_cells h c in
    match r with
    | Raise e => (h, Raise e)
    | Ok (pm, m_alias) =>
        let alias :=
          match alias, m_alias with
          | None, Some (x :: a) => Some (unescape_part (x :: a))
          | _, _ => alias
          end in
        fresh_step h pname pm alias tags
    end.

  (** mappings.py:1016-1082 [__new__] *)
  Definition new_step (h : heap) (pname : option pystr) (m : maps) (alias : option pystr)
      (tags : list pystr) : heap * res nat :=
    let pname := match pname with Some n => n | None => [] end in
    match m with
    | NoMaps => fresh_step h pname None alias tags
    | MPmod p => step_by_pmod h pname p alias tags
    | MTuples [] => fresh_step h pname None alias tags
    | MTuples l =>
        match pmods_from_tuples compiles l with
        | Raise e => (h, Raise e)
        | Ok p => let (p, c) := alloc_pmod p (h_cells h) in
                  step_by_pmod (set_cells h c) pname p alias tags
        end
    | MBad => (h, Raise ValueError)
    | MStep i =>
        match nth_error (h_steps h) i with
        | None => (h, Raise NameError)
        | Some s =>
            match s_text s with
            | [] => fresh_step h pname None alias tags      (* [if maps] *)
            | _ =>
                let (h, d) := clone_csteps h (s_csteps s) in
                alloc_step h (mkStep (match alias with Some a => a | None => pname end)
                                     (s_orig s) (s_pmod s) d (s_locked s) (s_tags s))
            end
        end
    end.

  (** mappings.py:1091-1098: the mappings of the step itself get the alias. *)
  Definition update_pmod (h : heap) (self : nat) (s : pstep) (alias : option pystr) : heap :=
    match alias with
    | None => h
    | Some a =>
        match s_pmod s with
        | Some p => set_cells h (list_update (h_cells h) (l_label p) (Some a))
        | None =>
            let p := LP (length (h_cells h)) [] [] in
            set_steps (set_cells h (h_cells h ++ [Some a]))
                      (list_update (h_steps h) self (with_pmod s (Some p)))
        end
    end.

  (** mappings.py:1085-1098: the dict of the children, and the child to clone *)
  Definition prepare (h : heap) (self : nat) (s : pstep) (ckey : pystr) (alias : option pystr)
      (existing : option nat) : heap * nat * option nat :=
    match dict_of h (s_csteps s), s_csteps s with
    | (_ :: _) as csteps, Some d =>
        match existing with
        | Some e => (h, d, Some e)
        | None => (update_pmod h self s alias, d, dget str_eqb ckey csteps)
        end
    | _, _ =>
        let d := length (h_dicts h) in
        (set_steps (set_dicts h (h_dicts h ++ [[]]))
                   (list_update (h_steps h) self (with_csteps s (Some d))), d, existing)
    end.

  Definition texted (h : heap) (i : nat) : bool :=
    match nth_error (h_steps h) i with
    | Some s => match s_text s with [] => false | _ => true end
    | None => false
    end.

  Definition own_maps (h : heap) (self : nat) : maps :=
    match nth_error (h_steps h) self with
    | Some s => match s_pmod s with Some p => MPmod p | None => NoMaps end
    | None => NoMaps
    end.

  (** mappings.py:1084-1101 [__make_cstep] *)
  Definition make_cstep (h : heap) (self : nat) (ckey : pystr) (alias : option pystr)
      (existing : option nat) : heap * res nat :=
    match nth_error (h_steps h) self with
    | None => (h, Raise NameError)
    | Some s =>
        let '(h, d, existing) := prepare h self s ckey alias existing in
        let m := match existing with
                 | Some e => if texted h e then MStep e else own_maps h self
                 | None => own_maps h self
                 end in
        match new_step h (Some ckey) m alias [] with
        | (h, Raise e) => (h, Raise e)
        | (h, Ok i) =>
            (set_dicts h (list_update (h_dicts h) d (dset str_eqb ckey i (dict_of h (Some d)))), Ok i)
        end
    end.

  (** mappings.py:871 *)
  Definition forbidden (attr : pystr) : bool :=
    str_eqb attr (lit "get_values") || str_eqb attr (lit "Series").

  (** mappings.py:1103-1111 [__getattr__], called for what the class lacks;
      [str] has no [__getattr__], hence line 1105 always raises.  Private names
      are those that do not exist. *)
  Definition getattr (h : heap) (self : nat) (attr : pystr) : heap * res value :=
    if class_attr attr then (h, Ok VClass)
    else if starts_with (lit "_") attr || forbidden attr then (h, Raise AttributeError)
    else
      match nth_error (h_steps h) self with
      | None => (h, Raise NameError)
      | Some s =>
          let make := let (h, r) := make_cstep h self attr None None in
                      (h, match r with Ok i => Ok (VStep i) | Raise e => Raise e end) in
          match dget str_eqb attr (dict_of h (s_csteps s)) with
          | Some c => if texted h c then (h, Ok (VStep c)) else make
          | None => make
          end
      end.

  Inductive assigned := AStep (i : nat) | AStr (s : pystr) | AOther.

  (** mappings.py:1113-1121 [__setattr__]; private names but [_locked] do not
      matter here, those of the code's own attributes excepted. *)
  Definition setattr (h : heap) (self : nat) (attr : pystr) (v : assigned) : heap * res unit :=
    if starts_with (lit "_") attr then (h, Ok tt)
    else
      match v with
      | AOther => (h, Raise AssertionError)
      | AStep i =>
          let (h, r) := make_cstep h self attr None (Some i) in (h, do _ <- r; Ok tt)
      | AStr a =>
          let (h, r) := make_cstep h self attr (Some a) None in (h, do _ <- r; Ok tt)
      end.

  (** mappings.py:1149-1157 the setter of [_locked] *)
  Definition set_locked (h : heap) (self : nat) (state : Z) : heap * res unit :=
    match nth_error (h_steps h) self with
    | None => (h, Raise NameError)
    | Some s =>
        if negb (str_eqb (s_text s) (s_orig s))
           && ((state <? CAN_RENAME)%Z
               || (state <? CAN_RELOCATE)%Z && existsb (N.eqb slash) (s_text s))
        then (h, Raise ValueError)
        else (set_steps h (list_update (h_steps h) self (with_locked s state)), Ok tt)
    end.

  (** mappings.py:1159-1175 [_fix], [_lock] *)
  Definition fix_ (h : heap) (self : nat) := set_locked h self CAN_RENAME.
  Definition lock (h : heap) (self : nat) := set_locked h self LOCKED.

  (** mappings.py:1177-1188 [_tag] *)
  Definition tag (h : heap) (self : nat) (ts : list pystr) : heap :=
    match nth_error (h_steps h) self with
    | None => h
    | Some s => set_steps h (list_update (h_steps h) self (with_tags s (add_tags (s_tags s) ts)))
    end.

  (** mappings.py:1190-1199 [_tag_remove] *)
  Definition tag_remove (h : heap) (self : nat) (t : pystr) : heap :=
    match nth_error (h_steps h) self with
    | None => h
    | Some s =>
        set_steps h (list_update (h_steps h) self
                       (with_tags s (filter (fun t' => negb (str_eqb t t')) (s_tags s))))
    end.

  (** ** Histories: everything a program can do, with any step it holds *)
  Inductive op :=
  | ONew (pname : option pystr) (m : maps) (alias : option pystr) (tags : list pystr)
  | OGet (self : nat) (attr : pystr)
  | OSet (self : nat) (attr : pystr) (v : assigned)
  | OLocked (self : nat) (state : Z)
  | OTag (self : nat) (ts : list pystr)
  | OUntag (self : nat) (t : pystr)
  | OPmods (l : list (option pystr * option pystr)).

  (** Whether it raises or not, the program may go on. *)
  Definition exec (h : heap) (o : op) : heap :=
    match o with
    | ONew n m a ts => fst (new_step h n m a ts)
    | OGet i a => fst (getattr h i a)
    | OSet i a v => fst (setattr h i a v)
    | OLocked i z => fst (set_locked h i z)
    | OTag i ts => tag h i ts
    | OUntag i t => tag_remove h i t
    | OPmods l => match pmods_from_tuples compiles l with
                  | Ok p => set_cells h (snd (alloc_pmod p (h_cells h)))
                  | Raise _ => h
                  end
    end.

  Definition run (h : heap) (os : list op) : heap := fold_left exec os h.
End Regex.

(** ** Listing the paths *)

Definition children (h : heap) (i : nat) : list (pystr * nat) :=
  match nth_error (h_steps h) i with Some s => dict_of h (s_csteps s) | None => [] end.

(** mappings.py:1276-1291 [_iter_hierarchy]; running out of fuel whatever the fuel
    is Python's [RecursionError]. *)
Fixpoint iter_hierarchy (fuel : nat) (h : heap) (prefix : list nat) (i : nat)
  : res (list (list nat)) :=
  match fuel with
  | O => Raise OutOfFuel
  | S fuel =>
      let prefix := prefix ++ [i] in
      do more <- rmap (iter_hierarchy fuel h prefix) (map snd (children h i));
      Ok (prefix :: concat more)
  end.

(** The order of [str]: by code points. *)
Fixpoint str_leb (a b : pystr) : bool :=
  match a, b with
  | [], _ => true
  | _ :: _, [] => false
  | x :: a', y :: b' => if (x <? y)%N then true else if (y <? x)%N then false else str_leb a' b'
  end.

(** [sorted(l, key=...)] is stable. *)
Fixpoint insert_str {A} (k : A -> pystr) (x : A) (l : list A) : list A :=
  match l with
  | [] => [x]
  | y :: l' => if str_leb (k x) (k y) then x :: l else y :: insert_str k x l'
  end.
Fixpoint sort_str {A} (k : A -> pystr) (l : list A) : list A :=
  match l with [] => [] | x :: l' => insert_str k x (sort_str k l') end.

Definition text_of (h : heap) (i : nat) : pystr :=
  match nth_error (h_steps h) i with Some s => s_text s | None => [] end.
Definition orig_of (h : heap) (i : nat) : pystr :=
  match nth_error (h_steps h) i with Some s => s_orig s | None => [] end.
Definition tags_of (h : heap) (i : nat) : list pystr :=
  match nth_error (h_steps h) i with Some s => s_tags s | None => [] end.

(** mappings.py:1245-1247 [append_orig] *)
Definition append_orig (h : heap) (i : nat) : pystr :=
  if str_eqb (text_of h i) (orig_of h i) then text_of h i
  else lit "(" ++ orig_of h i ++ lit "-->" ++ text_of h i ++ lit ")".

(** mappings.py:1252 *)
Definition listed (h : heap) (tag : pystr) (i : nat) : bool :=
  match tag with
  | [] => match children h i with [] => true | _ => false end
  | _ => existsb (str_eqb tag) (tags_of h i)
  end.

(** mappings.py:1209-1257 [_paths]; the tags [None] and [""] are both false. *)
Definition paths (fuel : nat) (h : heap) (i : nat) (with_orig : bool) (tag : pystr)
  : res (list pystr) :=
  do hier <- iter_hierarchy fuel h [] i;
  let hier := filter (fun p => listed h tag (last p 0%nat)) hier in
  let ps := map (fun p => join_paths (map (if with_orig then append_orig h else text_of h) p)) hier in
  Ok (sort_str (fun x => x) (add_tags [] ps)).

(** mappings.py:1259-1274 [_derrive_map_tuples] *)
Definition derive_map_tuples (fuel : nat) (h : heap) (i : nat) : res (list (pystr * pystr)) :=
  do hier <- iter_hierarchy fuel h [] i;
  Ok (sort_str fst (map (fun p => (join_paths (map (orig_of h) p), text_of h (last p 0%nat))) hier)).
