(** * Models in memory: model of [/repo/pandalone/pandata.py] lines 262-300, 421-478, 879-1028

    As in [Pandel_Model], but with the sharing of objects: dictionaries and
    lists live in a heap, values refer to them, and validation writes into
    them.  Sub-models, and the defaults of schemas, are such values: no pandas
    or numpy objects, no floats. *)
From Coq Require Import String.
From Verif Require Import PyBase Json Pandel_Model.

Inductive value :=
| VNull
| VBool (b : bool)
| VNum (z : Z)
| VStr (s : pystr)
| VRef (a : nat).
Inductive object :=
| ODict (d : list (pystr * value))
| OList (l : list value).
(** The objects, by address *)
Definition heap := list object.

Definition new (o : object) (h : heap) : heap * value := (h ++ [o], VRef (length h)).
Fixpoint store (a : nat) (o : object) (h : heap) : heap :=
  match h, a with
  | [], _ => []
  | _ :: h', O => o :: h'
  | x :: h', S a' => x :: store a' o h'
  end.

(** What [isinstance] tells of a value *)
Definition as_dict (h : heap) (v : value) : option (list (pystr * value)) :=
  match v with
  | VRef a => match nth_error h a with Some (ODict d) => Some d | _ => None end
  | _ => None
  end.
Definition as_list (h : heap) (v : value) : option (list value) :=
  match v with
  | VRef a => match nth_error h a with Some (OList l) => Some l | _ => None end
  | _ => None
  end.
Definition is_some {A} (o : option A) : bool := match o with Some _ => true | None => false end.

(** ** Merging *)

(** [{} if a is None else {**a}] *)
Definition copied (h : heap) (v : value) : res (list (pystr * value)) :=
  match v with
  | VNull => Ok []
  | _ => match as_dict h v with Some d => Ok d | None => Raise TypeError end
  end.
(** [for item in val] *)
Definition items (h : heap) (v : value) : res (list value) :=
  match v with
  | VStr s => Ok (map (fun c => VStr [c]) s)
  | _ => match as_list h v with Some l => Ok l | None => Raise TypeError end
  end.

(** pandata.py:879-932 [_clone_and_merge_submodels].  The new dictionary or list
    is made when its contents are known: none else sees it before. *)
Fixpoint merge_in (fuel : nat) (h : heap) (a b : value) : heap * res value :=
  match fuel with
  | O => (h, Raise OutOfFuel)
  | S fuel =>
      if is_some (as_dict h a) || is_some (as_dict h b) then
        match copied h a with
        | Raise e => (h, Raise e)
        | Ok da =>
            match copied h b with
            | Raise e => (h, Raise e)
            | Ok db =>
                let '(h, r) :=
                  (fix keys (db : list (pystr * value)) (h : heap) (da : list (pystr * value)) : heap * res (list (pystr * value)) :=
                     match db with
                     | [] => (h, Ok da)
                     | (k, bv) :: db' =>
                         match sget k da with
                         | Some av =>
                             match merge_in fuel h av bv with
                             | (h, Ok v) => keys db' h (sset k v da)
                             | (h, Raise e) => (h, Raise e)
                             end
                         | None => keys db' h (sset k bv da)
                         end
                     end) db h da in
                match r with
                | Ok d => let '(h, v) := new (ODict d) h in (h, Ok v)
                | Raise e => (h, Raise e)
                end
            end
        end
      else if is_some (as_list h a) || is_some (as_list h b) then
        match items h (match b with VNull => a | _ => b end) with
        | Raise e => (h, Raise e)
        | Ok l =>
            let '(h, r) :=
              (fix elems (l : list value) (h : heap) : heap * res (list value) :=
                 match l with
                 | [] => (h, Ok [])
                 | x :: l' =>
                     match merge_in fuel h x VNull with
                     | (h, Ok y) =>
                         match elems l' h with
                         | (h, Ok r) => (h, Ok (y :: r))
                         | (h, Raise e) => (h, Raise e)
                         end
                     | (h, Raise e) => (h, Raise e)
                     end
                 end) l h in
            match r with
            | Ok l => let '(h, v) := new (OList l) h in (h, Ok v)
            | Raise e => (h, Raise e)
            end
        end
      else
        (h, match a, b with
            | VNull, VNull => Raise ValidationError
            | _, VNull => Ok a
            | _, _ => Ok b
            end)
  end.

(** pandata.py:948-952 [_merge] *)
Fixpoint merge_all_in (fuel : nat) (h : heap) (model : value) (mdls : list value) : heap * value * option exn :=
  match mdls with
  | [] => (h, model, None)
  | m :: mdls' =>
      match merge_in fuel h model m with
      | (h, Ok model) => merge_all_in fuel h model mdls'
      | (h, Raise e) => (h, model, Some e)
      end
  end.

(** ** Validating *)

(** Schemas as in [Pandel_Model], but for the defaults *)
Inductive skw :=
| SType (ts : list jtype)
| SRequired (ps : list pystr)
| SProps (ps : list (pystr * list skw))
| SDefault (v : value)
| SAutoDefault (v : json)
| SAutoDefaultNull (v : json)
| SAutoRemoveNull (v : json)
| SOther (n : nat).
Definition sschema := list skw.

Definition is_type_in (h : heap) (v : value) (t : jtype) : bool :=
  match t, v with
  | TNull, VNull => true
  | TBoolean, VBool _ => true
  | TInteger, VNum _ => true
  | TNumber, VNum _ => true
  | TString, VStr _ => true
  | TArray, v => is_some (as_list h v)
  | TObject, v => is_some (as_dict h v)
  | _, _ => false
  end.

Fixpoint skw_get {A} (sel : skw -> option A) (s : sschema) : option A :=
  match s with [] => None | k :: s' => match sel k with Some a => Some a | None => skw_get sel s' end end.
Definition sdefault (s : sschema) := skw_get (fun k => match k with SDefault v => Some v | _ => None end) s.
Definition stype (s : sschema) := skw_get (fun k => match k with SType ts => Some ts | _ => None end) s.
Definition sauto (s : sschema) := skw_get (fun k => match k with SAutoDefault v => Some v | _ => None end) s.
Definition sauto_null (s : sschema) := skw_get (fun k => match k with SAutoDefaultNull v => Some v | _ => None end) s.
Definition sremove_null (s : sschema) := skw_get (fun k => match k with SAutoRemoveNull v => Some v | _ => None end) s.

Section Visitor.
  (** The parameters of [PandelVisitor] *)
  Variables auto_default auto_default_nulls auto_remove_nulls : bool.
  (** The errors of the other keywords *)
  Variable other : nat -> heap -> value -> list nat.

  (** pandata.py:278-300: the default of the schema itself is assigned. *)
  Definition fill_prop_in (p : pystr) (sub : sschema) (d : list (pystr * value)) : list (pystr * value) :=
    let given := sget p d in
    let null_given := match given with Some VNull => true | _ => false end in
    let wants_default :=
      (first_defined (sauto sub) auto_default && match given with None => true | Some _ => false end)
      || (first_defined (sauto_null sub) auto_default_nulls && negb (null_in_type (stype sub)) && null_given) in
    let wants_removal := first_defined (sremove_null sub) auto_remove_nulls && negb (null_in_type (stype sub)) && null_given in
    match sdefault sub, wants_default with
    | Some v, true => sset p v d
    | _, _ => if wants_removal then sdel p d else d
    end.
  Definition fill_in (ps : list (pystr * sschema)) (d : list (pystr * value)) : list (pystr * value) :=
    if auto_default || auto_default_nulls || auto_remove_nulls
    then fold_left (fun d ps => fill_prop_in (fst ps) (snd ps) d) ps d else d.

  (** [validator.iter_errors], which writes into the objects *)
  Fixpoint visit_kw_in (k : skw) (h : heap) (v : value) : heap * list verr :=
    match k with
    | SType ts => (h, if existsb (is_type_in h v) ts then [] else [WrongType])
    | SRequired ps =>
        (h, match as_dict h v with
            | Some d => flat_map (fun p => if smem p d then [] else [Missing p]) ps
            | None => []
            end)
    | SProps ps =>
        match v, as_dict h v with
        | VRef a, Some d =>
            (fix props (ps : list (pystr * sschema)) (h : heap) : heap * list verr :=
               match ps with
               | [] => (h, [])
               | (p, sub) :: ps' =>
                   match as_dict h (VRef a) with
                   | None => (h, [])
                   | Some d =>
                       match sget p d with
                       | None => props ps' h
                       | Some x =>
                           let '(h, es) :=
                             (fix kws (s : sschema) (h : heap) : heap * list verr :=
                                match s with
                                | [] => (h, [])
                                | k :: s' => let '(h, es) := visit_kw_in k h x in let '(h, es') := kws s' h in (h, es ++ es')
                                end) sub h in
                           let '(h, es') := props ps' h in
                           (h, es ++ es')
                       end
                   end
               end) ps (store a (ODict (fill_in ps d)) h)
        | _, _ => (h, [])
        end
    | SOther n => (h, map Other (other n h v))
    | SDefault _ | SAutoDefault _ | SAutoDefaultNull _ | SAutoRemoveNull _ => (h, [])
    end.
  Fixpoint visit_in (s : sschema) (h : heap) (v : value) : heap * list verr :=
    match s with
    | [] => (h, [])
    | k :: s' => let '(h, es) := visit_kw_in k h v in let '(h, es') := visit_in s' h v in (h, es ++ es')
    end.
End Visitor.

(** ** Building *)

(** What a build leaves: the objects, the model, the errors. *)
Record built_in := BuiltIn { i_heap : heap; i_model : value; i_errors : list verr }.

Section Build.
  Variable other : nat -> heap -> value -> list nat.
  Variable fuel : nat.
  (** The schema of the unified model *)
  Variable full : sschema.
  (** Functions curating the model: they may change any object. *)
  Variable curate_funcs : list (heap -> value -> heap * value * option exn).

  Definition check_in (s : sschema) (h : heap) (v : value) : heap * list verr := visit_in true false false other s h v.
  (** pandata.py:939-944 [_prevalidate]: the sub-models with the schema that
      [_get_json_schema] returns each time, perhaps the same one *)
  Fixpoint prevalidate_in (subs : list (sschema * value)) (h : heap) : heap * list verr :=
    match subs with
    | [] => (h, [])
    | (s, m) :: subs' => let '(h, es) := check_in s h m in let '(h, es') := prevalidate_in subs' h in (h, es ++ es')
    end.
  (** pandata.py:959-964 [_curate] *)
  Fixpoint curate_in (fs : list (heap -> value -> heap * value * option exn)) (h : heap) (m : value) : heap * value * option exn :=
    match fs with
    | [] => (h, m, None)
    | f :: fs' => match f h m with (h, m, None) => curate_in fs' h m | (h, m, Some e) => (h, m, Some e) end
    end.
  (** pandata.py:988-1028 [build_iter], exhausted *)
  Definition build_in (subs : list (sschema * value)) (h : heap) : built_in :=
    let '(h, es) := prevalidate_in subs h in
    match es with
    | _ :: _ => BuiltIn h VNull (es ++ [GaveUp 1])
    | [] =>
        match merge_all_in fuel h VNull (map snd subs) with
        | (h, m, Some e) => BuiltIn h m [reported 2 e; GaveUp 2]
        | (h, m, None) =>
            let '(h, es) := check_in full h m in
            match es with
            | _ :: _ => BuiltIn h m (es ++ [GaveUp 3])
            | [] =>
                match curate_in curate_funcs h m with
                | (h, m, Some e) => BuiltIn h m [reported 4 e; GaveUp 4]
                | (h, m, None) => BuiltIn h m []
                end
            end
        end
    end.
End Build.
