(** * Mappings in memory: model of the objects behind [Pmod], [/repo/pandalone/mappings.py]
    lines 138-429 and 668-684.  [Pmod_Model.v] models them as values; here they are objects
    that refer to dictionaries, which refer to objects, and may be shared. *)
From Coq Require Import String.
From Verif Require Import PyBase Json JsonPointer_Model Paths_Model Pmod_Model.

(** mappings.py:138-145: [_alias], and the addresses of the dictionaries [_steps] and [_regxs] *)
Record obj := mkObj { o_alias : option pystr; o_steps : nat; o_regxs : nat }.
(** The objects and the dictionaries; the latter refer to objects. *)
Record mem := mkMem { m_objs : list obj; m_dicts : list (list (pystr * nat)) }.

(** mappings.py:148: the two dictionaries that are the default arguments of [__init__],
    made once with the class *)
Definition no_steps : nat := 0.
Definition no_regxs : nat := 1.
Definition start : mem := mkMem [] [[]; []].

Definition obj_at (h : mem) (i : nat) : obj := nth i (m_objs h) (mkObj None no_steps no_regxs).
Definition dict_at (h : mem) (d : nat) : list (pystr * nat) := nth d (m_dicts h) [].
Definition add_obj (h : mem) (o : obj) : mem * nat := (mkMem (m_objs h ++ [o]) (m_dicts h), length (m_objs h)).
Definition add_dict (h : mem) (l : list (pystr * nat)) : mem * nat := (mkMem (m_objs h) (m_dicts h ++ [l]), length (m_dicts h)).
Definition put_dict (h : mem) (d : nat) (l : list (pystr * nat)) : mem := mkMem (m_objs h) (list_update (m_dicts h) d l).
Definition put_alias (h : mem) (i : nat) (a : option pystr) : mem :=
  mkMem (list_update (m_objs h) i (mkObj a (o_steps (obj_at h i)) (o_regxs (obj_at h i)))) (m_dicts h).
Definition put_steps (h : mem) (i : nat) (d : nat) : mem :=
  mkMem (list_update (m_objs h) i (mkObj (o_alias (obj_at h i)) d (o_regxs (obj_at h i)))) (m_dicts h).
Definition put_regxs (h : mem) (i : nat) (d : nat) : mem :=
  mkMem (list_update (m_objs h) i (mkObj (o_alias (obj_at h i)) (o_steps (obj_at h i)) d)) (m_dicts h).

(** mappings.py:148-161, [Pmod()] *)
Definition new_pmod (h : mem) : mem * nat := add_obj h (mkObj None no_steps no_regxs).

(** mappings.py:173-189 [_append_into_steps] *)
Definition append_into_steps (h : mem) (self : nat) (key : pystr) : mem * nat :=
  let d := o_steps (obj_at h self) in
  let '(h, d, cpmod) :=
    match dict_at h d with
    | [] => let '(h, d) := add_dict h [] in (put_steps h self d, d, None)
    | l => (h, d, sget key l)
    end in
  match cpmod with
  | Some c => (h, c)
  | None => let '(h, c) := new_pmod h in (put_dict h d (sset key c (dict_at h d)), c)
  end.

(** mappings.py:191-211 [_append_into_regxs], after the compilation of the pattern *)
Definition append_into_regxs (h : mem) (self : nat) (key : pystr) : mem * nat :=
  let d := o_regxs (obj_at h self) in
  let '(h, d, cpmod) :=
    match dict_at h d with
    | [] => let '(h, d) := add_dict h [] in (put_regxs h self d, d, None)
    | l =>
        match sget key l with
        | Some c => (put_dict h d (sdel key l), d, Some c)
        | None => (h, d, None)
        end
    end in
  let '(h, c) := match cpmod with Some c => (h, c) | None => new_pmod h end in
  (put_dict h d (sset key c (dict_at h d)), c).

Section Merge.
  (** [_merge] of the children *)
  Variable merge_children : mem -> nat -> nat -> mem * res nat.

  (** mappings.py:226-231: the loop over the items of the other; [d] is the copy. *)
  Fixpoint steps_loop (h : mem) (d : nat) (items : list (pystr * nat)) : mem * res unit :=
    match items with
    | [] => (h, Ok tt)
    | (name, opmod) :: items' =>
        match sget name (dict_at h d) with
        | Some spmod =>
            match merge_children h spmod opmod with
            | (h, Ok opmod) => steps_loop (put_dict h d (sset name opmod (dict_at h d))) d items'
            | (h, Raise e) => (h, Raise e)
            end
        | None => steps_loop (put_dict h d (sset name opmod (dict_at h d))) d items'
        end
    end.

  (** mappings.py:213-236 [_override_steps] *)
  Definition override_steps (h : mem) (self other : nat) : mem * res unit :=
    let opmods := o_steps (obj_at h other) in
    match dict_at h opmods with
    | [] => (h, Ok tt)
    | items =>
        match dict_at h (o_steps (obj_at h self)) with
        | [] => (put_steps h self opmods, Ok tt)
        | l =>
            let '(h, d) := add_dict h l in
            match steps_loop h d items with
            | (h, Ok _) => (put_steps h self d, Ok tt)
            | (h, Raise e) => (h, Raise e)
            end
        end
    end.

  (** mappings.py:261-269: [opairs] *)
  Fixpoint regxs_loop (h : mem) (spmods : list (pystr * nat)) (items : list (pystr * nat)) : mem * res (list (pystr * nat)) :=
    match items with
    | [] => (h, Ok [])
    | (name, opmod) :: items' =>
        let '(h, mpmod) := match sget name spmods with Some spmod => merge_children h spmod opmod | None => (h, Ok opmod) end in
        match mpmod with
        | Ok m =>
            match regxs_loop h spmods items' with
            | (h, Ok opairs) => (h, Ok ((name, m) :: opairs))
            | (h, Raise e) => (h, Raise e)
            end
        | Raise e => (h, Raise e)
        end
    end.

  (** [dict(pairs)] *)
  Definition dict_of_pairs (pairs : list (pystr * nat)) : list (pystr * nat) :=
    fold_left (fun d kv => sset (fst kv) (snd kv) d) pairs [].

  (** mappings.py:238-281 [_override_regxs] *)
  Definition override_regxs (h : mem) (self other : nat) : mem * res unit :=
    let opmods := o_regxs (obj_at h other) in
    match dict_at h opmods with
    | [] => (h, Ok tt)
    | items =>
        match dict_at h (o_regxs (obj_at h self)) with
        | [] => (put_regxs h self opmods, Ok tt)
        | l =>
            match regxs_loop h l items with
            | (h, Ok opairs) =>
                let spairs := filter (fun ns => negb (smem (fst ns) items)) l in
                let '(h, d) := add_dict h (dict_of_pairs (spairs ++ opairs)) in
                (put_regxs h self d, Ok tt)
            | (h, Raise e) => (h, Raise e)
            end
        end
    end.
End Merge.

(** mappings.py:283-335 [_merge]; the fuel bounds the depth, as Python's recursion limit does. *)
Fixpoint merge_in (fuel : nat) (h : mem) (self other : nat) : mem * res nat :=
  match fuel with
  | O => (h, Raise OutOfFuel)
  | S fuel =>
      let '(h, self) := add_obj h (obj_at h self) in
      let h := match o_alias (obj_at h other) with Some a => put_alias h self (Some a) | None => h end in
      match override_steps (merge_in fuel) h self other with
      | (h, Ok _) =>
          match override_regxs (merge_in fuel) h self other with
          | (h, Ok _) => (h, Ok self)
          | (h, Raise e) => (h, Raise e)
          end
      | (h, Raise e) => (h, Raise e)
      end
  end.

(** mappings.py:424-428: [ft.reduce(Pmod._merge, pmods)] *)
Fixpoint reduce_in (fuel : nat) (h : mem) (acc : nat) (pmods : list nat) : mem * res nat :=
  match pmods with
  | [] => (h, Ok acc)
  | p :: pmods' =>
      match merge_in fuel h acc p with
      | (h, Ok m) => reduce_in fuel h m pmods'
      | (h, Raise e) => (h, Raise e)
      end
  end.

Section Regex.
  Variable M : Type.
  Variable fullmatch : pystr -> pystr -> option M.
  Variable expand : M -> pystr -> res pystr.
  Variable compiles : pystr -> bool.

  (** mappings.py:337-347 [_match_regxs] *)
  Definition match_regxs_in (h : mem) (self : nat) (cstep : pystr) : list (nat * M) :=
    flat_map (fun rp => match fullmatch (fst rp) cstep with
                        | Some m => [(snd rp, m)]
                        | None => []
                        end) (dict_at h (o_regxs (obj_at h self))).

  (** mappings.py:414-418 and 443-445 *)
  Fixpoint first_alias_in (h : mem) (pmods : list (nat * M)) : res (option pystr) :=
    match pmods with
    | [] => Ok None
    | (rpmod, m) :: pmods' =>
        match o_alias (obj_at h rpmod) with
        | Some a => do x <- expand m a; Ok (Some x)
        | None => first_alias_in h pmods'
        end
    end.

  (** mappings.py:431-445 [alias] *)
  Definition alias_in (h : mem) (self : nat) (cstep : pystr) : res (option pystr) :=
    match sget cstep (dict_at h (o_steps (obj_at h self))) with
    | Some cpmod =>
        match o_alias (obj_at h cpmod) with
        | Some a => Ok (Some a)
        | None => first_alias_in h (rev (match_regxs_in h self cstep))
        end
    | None => first_alias_in h (rev (match_regxs_in h self cstep))
    end.

  (** mappings.py:349-429 [descend] *)
  Definition descend_in (fuel : nat) (h : mem) (self : nat) (cstep : pystr) : mem * res (option nat * option pystr) :=
    match alias_in h self cstep with
    | Raise e => (h, Raise e)
    | Ok alias =>
        let cpmod := sget cstep (dict_at h (o_steps (obj_at h self))) in
        match map fst (match_regxs_in h self cstep) ++ match cpmod with Some c => [c] | None => [] end with
        | [] => (h, Ok (None, None))
        | p :: ps =>
            match reduce_in fuel h p ps with
            | (h, Ok m) => (h, Ok (Some m, alias))
            | (h, Raise e) => (h, Raise e)
            end
        end
    end.

  (** mappings.py:527-554: the loop over the steps *)
  Fixpoint map_steps_in (fuel : nat) (h : mem) (pm : option nat) (steps : list pystr) : mem * res (list pystr) :=
    match steps with
    | [] => (h, Ok [])
    | [final_step] =>
        (h, do a <- match pm with Some p => alias_in h p final_step | None => Ok None end; Ok (new_steps a final_step))
    | step :: steps' =>
        match match pm with Some p => descend_in fuel h p step | None => (h, Ok (None, None)) end with
        | (h, Ok (pm', a)) =>
            match map_steps_in fuel h pm' steps' with
            | (h, Ok rest) => (h, Ok (new_steps a step ++ rest))
            | (h, Raise e) => (h, Raise e)
            end
        | (h, Raise e) => (h, Raise e)
        end
    end.

  (** mappings.py:447-566 [map_path] *)
  Definition map_path_in (fuel : nat) (h : mem) (self : nat) (path : pystr) : mem * res pystr :=
    let nsteps := match o_alias (obj_at h self) with None => [] | Some a => iter_parts_relaxed a end in
    match map_steps_in fuel h (Some self) (iter_parts_relaxed (chop path)) with
    | (h, Ok more) => (h, Ok (join_paths (nsteps ++ more)))
    | (h, Raise e) => (h, Raise e)
    end.

  (** mappings.py:676-682: the walk along the steps of one tuple *)
  Fixpoint add_path_in (h : mem) (pmod : nat) (srcsteps : list pystr) (t : pystr) : mem * res unit :=
    match srcsteps with
    | [] => (put_alias h pmod (Some t), Ok tt)
    | srcstep :: rest =>
        if starts_with (lit "~") srcstep then
          if compiles (skipn 1 srcstep) then
            let '(h, c) := append_into_regxs h pmod (skipn 1 srcstep) in add_path_in h c rest t
          else (h, Raise ReError)
        else let '(h, c) := append_into_steps h pmod srcstep in add_path_in h c rest t
    end.

  (** mappings.py:668-684: the loop over the tuples *)
  Fixpoint add_tuples_in (h : mem) (root : nat) (tuples : list (option pystr * option pystr)) : mem * res unit :=
    match tuples with
    | [] => (h, Ok tt)
    | (Some f, Some t) :: tuples' =>
        if str_eqb f [] && str_eqb t [] then add_tuples_in h root tuples'
        else match add_path_in h root (iter_parts_relaxed f) t with
             | (h, Ok _) => add_tuples_in h root tuples'
             | (h, Raise e) => (h, Raise e)
             end
    | _ :: tuples' => add_tuples_in h root tuples'
    end.

  (** mappings.py:590-684 [pmods_from_tuples] *)
  Definition pmods_from_tuples_in (h : mem) (tuples : list (option pystr * option pystr)) : mem * res nat :=
    let '(h, root) := new_pmod h in
    match add_tuples_in h root tuples with
    | (h, Ok _) => (h, Ok root)
    | (h, Raise e) => (h, Raise e)
    end.
End Regex.
