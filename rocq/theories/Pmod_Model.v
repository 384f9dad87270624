(** * Path mappings: model of [Pmod] and [pmods_from_tuples],
      [/repo/pandalone/mappings.py] lines 54-684 *)
From Coq Require Import String.
From Verif Require Import PyBase Json JsonPointer_Model Paths_Model.

(** mappings.py:138-164: alias, steps, regxs.  A compiled regular expression is
    identified by its pattern, as [re.compile] objects without flags compare
    equal exactly when their patterns do.
    Simplification: values, not objects.  [Crosslink_Model.v] has the objects, and
    C119 proves that their sharing is not seen. *)
Inductive pmod := Pmod (alias : option pystr) (steps : list (pystr * pmod))
                       (regxs : list (pystr * pmod)).

Definition p_alias (p : pmod) := match p with Pmod a _ _ => a end.
Definition p_steps (p : pmod) := match p with Pmod _ s _ => s end.
Definition p_regxs (p : pmod) := match p with Pmod _ _ r => r end.

(** mappings.py:150-164, [Pmod()] *)
Definition empty_pmod : pmod := Pmod None [] [].

(** mappings.py:283-335 [_merge], with 213-236 [_override_steps] and
    238-281 [_override_regxs] inlined, as they are mutually recursive. *)
Fixpoint merge (self other : pmod) : pmod :=
  match other with
  | Pmod oalias osteps oregxs =>
      let alias := match oalias with Some a => Some a | None => p_alias self end in
      let spmods := p_steps self in
      let steps :=
        match osteps with
        | [] => spmods
        | _ =>
            match spmods with
            | [] => osteps
            | _ =>
                fold_left
                  (fun d no =>
                     let opmod :=
                       match dget str_eqb (fst no) d with
                       | Some spmod => merge spmod (snd no)
                       | None => snd no
                       end in
                     dset str_eqb (fst no) opmod d)
                  osteps spmods
            end
        end in
      let srpmods := p_regxs self in
      let regxs :=
        match oregxs with
        | [] => srpmods
        | _ =>
            match srpmods with
            | [] => oregxs
            | _ =>
                let opairs :=
                  map (fun no =>
                         (fst no, match dget str_eqb (fst no) srpmods with
                                  | Some spmod => merge spmod (snd no)
                                  | None => snd no
                                  end)) oregxs in
                let spairs :=
                  filter (fun ns => negb (dmem str_eqb (fst ns) oregxs)) srpmods in
                spairs ++ opairs
            end
        end in
      Pmod alias steps regxs
  end.

Section Regex.
  (** Python's [re]: the result of a full match, the expansion of a template
      with the groups of a match (which may raise [re.error]), and whether a
      pattern compiles. *)
  Variable M : Type.
  Variable fullmatch : pystr -> pystr -> option M.
  Variable expand : M -> pystr -> res pystr.
  Variable compiles : pystr -> bool.

  (** mappings.py:337-347 [_match_regxs] *)
  Definition match_regxs (self : pmod) (cstep : pystr) : list (pmod * M) :=
    flat_map (fun rp => match fullmatch (fst rp) cstep with
                        | Some m => [(snd rp, m)]
                        | None => []
                        end) (p_regxs self).

  (** mappings.py:414-418 and 443-445: the loop over the reversed matches. *)
  Fixpoint first_alias (pmods : list (pmod * M)) : res (option pystr) :=
    match pmods with
    | [] => Ok None
    | (rpmod, m) :: pmods' =>
        match p_alias rpmod with
        | Some a => do x <- expand m a; Ok (Some x)
        | None => first_alias pmods'
        end
    end.

  (** mappings.py:349-429 [descend] *)
  Definition descend (self : pmod) (cstep : pystr) : res (option pmod * option pystr) :=
    let cpmod := dget str_eqb cstep (p_steps self) in
    let pmods := match_regxs self cstep in
    do alias <- match cpmod with
                | Some (Pmod (Some a) _ _) => Ok (Some a)
                | _ => first_alias (rev pmods)
                end;
    let pmods := map fst pmods ++ match cpmod with Some c => [c] | None => [] end in
    match pmods with
    | [] => Ok (None, None)
    | p :: ps => Ok (Some (fold_left merge ps p), alias)
    end.

  (** mappings.py:431-445 [alias] *)
  Definition alias_ (self : pmod) (cstep : pystr) : res (option pystr) :=
    match dget str_eqb cstep (p_steps self) with
    | Some (Pmod (Some a) _ _) => Ok (Some a)
    | _ => first_alias (rev (match_regxs self cstep))
    end.

  (** mappings.py:539-540, 551-553: a trailing slash is dropped. *)
  Definition chop (s : pystr) : pystr :=
    if (1 <? length s)%nat && ends_with (lit "/") s then removelast s else s.

  (** mappings.py:535-538 and 547-550 *)
  Definition new_steps (alias : option pystr) (step : pystr) : list pystr :=
    match alias with
    | Some a => (if starts_with (lit ".") a then [step] else [])
                ++ iter_parts_relaxed (chop a)
    | None => iter_parts_relaxed (chop step)
    end.

  (** mappings.py:527-554: the loop over the steps; the last one uses [alias]. *)
  Fixpoint map_steps (pm : option pmod) (steps : list pystr) : res (list pystr) :=
    match steps with
    | [] => Ok []
    | [final_step] =>
        do a <- match pm with Some p => alias_ p final_step | None => Ok None end;
        Ok (new_steps a final_step)
    | step :: steps' =>
        do (pm', a) <- match pm with Some p => descend p step | None => Ok (None, None) end;
        do rest <- map_steps pm' steps';
        Ok (new_steps a step ++ rest)
    end.

  (** mappings.py:447-566 [map_path].  (Lines 556-557 change only a dead variable.) *)
  Definition map_path (self : pmod) (path : pystr) : res pystr :=
    let path := chop path in
    let steps := iter_parts_relaxed path in
    let nsteps := match p_alias self with
                  | None => []
                  | Some a => iter_parts_relaxed a
                  end in
    do more <- map_steps (Some self) steps;
    Ok (join_paths (nsteps ++ more)).

  (** mappings.py:568-569 [map_paths] *)
  Definition map_paths (self : pmod) (paths : list pystr) : res (list pystr) :=
    rmap (map_path self) paths.

  (** mappings.py:676-682 with 173-189 [_append_into_steps] and 191-211
      [_append_into_regxs]: the walk along the steps of one tuple, extending the
      tree, and the final assignment of the alias.  [None]: a pattern does not
      compile. *)
  Fixpoint add_path (p : pmod) (srcsteps : list pystr) (t : pystr) : option pmod :=
    match srcsteps with
    | [] => Some (Pmod (Some t) (p_steps p) (p_regxs p))
    | srcstep :: rest =>
        if starts_with (lit "~") srcstep then
            let regex := skipn 1 srcstep in
            if compiles regex then
              let d := p_regxs p in
              let cpmod := match dget str_eqb regex d with
                           | Some c => c
                           | None => empty_pmod
                           end in
              match add_path cpmod rest t with
              | Some c => Some (Pmod (p_alias p) (p_steps p) (ddel str_eqb regex d ++ [(regex, c)]))
              | None => None
              end
            else None
        else
            let d := p_steps p in
            let cpmod := match dget str_eqb srcstep d with
                         | Some c => c
                         | None => empty_pmod
                         end in
            match add_path cpmod rest t with
            | Some c => Some (Pmod (p_alias p) (dset str_eqb srcstep c d) (p_regxs p))
            | None => None
            end
    end.

  (** mappings.py:590-684 [pmods_from_tuples]; [None] elements stand for Python's. *)
  Fixpoint add_tuples (root : pmod) (tuples : list (option pystr * option pystr)) : res pmod :=
    match tuples with
    | [] => Ok root
    | (Some f, Some t) :: tuples' =>
        if str_eqb f [] && str_eqb t [] then add_tuples root tuples'
        else match add_path root (iter_parts_relaxed f) t with
             | Some root' => add_tuples root' tuples'
             | None => Raise ReError
             end
    | _ :: tuples' => add_tuples root tuples'
    end.

  Definition pmods_from_tuples (tuples : list (option pystr * option pystr)) : res pmod :=
    add_tuples empty_pmod tuples.
End Regex.
