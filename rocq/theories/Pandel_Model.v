(** * Models: model of [/repo/pandalone/pandata.py] lines 152-185, 247-315, 421-478, 765-1044

    Sub-models are JSON trees: no pandas or numpy objects, no floats.  Values
    are not shared: what the code aliases (values found in one sub-model only,
    defaults of the schema) are copies here. *)
From Coq Require Import String.
From Verif Require Import PyBase Json JsonPointer_Model.

(** ** Merging *)

(** pandata.py:907-920 on the elements of a list, merged with None: 879-932
    with [b = None]. *)
Fixpoint clone (a : json) : res json :=
  match a with
  | JDict d => Ok (JDict d)
  | JList l => do l' <- (fix elems (l : list json) : res (list json) :=
                           match l with
                           | [] => Ok []
                           | x :: l' => do y <- clone x; do r <- elems l'; Ok (y :: r)
                           end) l; Ok (JList l')
  | JNull => Raise ValidationError
  | a => Ok a
  end.

(** [for item in val] *)
Definition items_of (v : json) : res (list json) :=
  match v with
  | JList l => Ok l
  | JStr s => Ok (map (fun c => JStr [c]) s)
  | _ => Raise TypeError
  end.

(** pandata.py:879-932 [_clone_and_merge_submodels]; the path matters for the
    message only. *)
Fixpoint merge (a b : json) : res json :=
  match b with
  | JDict db =>
      do da <- match a with JNull => Ok [] | JDict da => Ok da | _ => Raise TypeError end;
      do d <- (fix keys (db : list (pystr * json)) (da : list (pystr * json)) : res (list (pystr * json)) :=
                 match db with
                 | [] => Ok da
                 | (k, bv) :: db' =>
                     do v <- match sget k da with Some av => merge av bv | None => Ok bv end;
                     keys db' (sset k v da)
                 end) db da;
      Ok (JDict d)
  | _ =>
      match a with
      | JDict da => match b with JNull => Ok (JDict da) | _ => Raise TypeError end
      | _ =>
          if is_strict_sequence a || is_strict_sequence b then
            do l <- items_of (match b with JNull => a | _ => b end);
            do l' <- rmap clone l;
            Ok (JList l')
          else
            match a, b with
            | JNull, JNull => Raise ValidationError
            | _, JNull => Ok a
            | _, _ => Ok b
            end
      end
  end.

(** pandata.py:948-952 [_merge]: the model reached, also when a merge fails *)
Fixpoint merge_all (model : json) (mdls : list json) : json * option exn :=
  match mdls with
  | [] => (model, None)
  | m :: mdls' =>
      match merge model m with
      | Ok model => merge_all model mdls'
      | Raise e => (model, Some e)
      end
  end.

(** ** Validating *)

Inductive jtype := TNull | TBoolean | TInteger | TNumber | TString | TArray | TObject.
Definition jtype_eqb (a b : jtype) : bool :=
  match a, b with
  | TNull, TNull | TBoolean, TBoolean | TInteger, TInteger | TNumber, TNumber
  | TString, TString | TArray, TArray | TObject, TObject => true
  | _, _ => false
  end.

(** The keywords of a schema, in its order.  [KOther] are keywords that only check. *)
Inductive kw :=
| KType (ts : list jtype)
| KRequired (ps : list pystr)
| KProps (ps : list (pystr * list kw))
| KDefault (v : json)
| KAutoDefault (v : json)
| KAutoDefaultNull (v : json)
| KAutoRemoveNull (v : json)
| KOther (n : nat).
Definition schema := list kw.

(** The errors that are yielded *)
Inductive verr :=
| WrongType
| Missing (p : pystr)
| Other (n : nat)
| Raised
| Failed (step : nat) (e : exn)
| GaveUp (step : nat).

(** pandata.py:152-185: types of instances; JSON values only *)
Definition is_type (v : json) (t : jtype) : bool :=
  match t, v with
  | TNull, JNull => true
  | TBoolean, JBool _ => true
  | TInteger, JNum _ => true
  | TNumber, JNum _ => true
  | TString, JStr _ => true
  | TArray, JList _ => true
  | TObject, JDict _ => true
  | _, _ => false
  end.
Definition is_null (v : json) : bool := is_type v TNull.

(** [subschema.get(...)] *)
Fixpoint kw_get {A} (sel : kw -> option A) (s : schema) : option A :=
  match s with [] => None | k :: s' => match sel k with Some a => Some a | None => kw_get sel s' end end.
Definition get_default (s : schema) := kw_get (fun k => match k with KDefault v => Some v | _ => None end) s.
Definition get_type (s : schema) := kw_get (fun k => match k with KType ts => Some ts | _ => None end) s.
Definition get_auto (s : schema) := kw_get (fun k => match k with KAutoDefault v => Some v | _ => None end) s.
Definition get_auto_null (s : schema) := kw_get (fun k => match k with KAutoDefaultNull v => Some v | _ => None end) s.
Definition get_remove_null (s : schema) := kw_get (fun k => match k with KAutoRemoveNull v => Some v | _ => None end) s.

(** pandata.py:247-252 [_is_null_in_type]; one type is a list of it. *)
Definition null_in_type (ts : option (list jtype)) : bool :=
  match ts with None => false | Some ts => existsb (jtype_eqb TNull) ts end.
(** pandata.py:255-260 [first_defined] of a keyword and a flag, as a condition *)
Definition first_defined (v : option json) (flag : bool) : bool :=
  match v with None | Some JNull => flag | Some v => truthy v end.

Section Visitor.
  (** The parameters of [PandelVisitor] *)
  Variables auto_default auto_default_nulls auto_remove_nulls : bool.
  (** The errors of the other keywords *)
  Variable other : nat -> json -> list nat.

  (** pandata.py:278-300: the loop body of [_rule_auto_defaults_properties] *)
  Definition fill_prop (p : pystr) (sub : schema) (d : list (pystr * json)) : list (pystr * json) :=
    let given := sget p d in
    let null_given := match given with Some v => is_null v | None => false end in
    let wants_default :=
      (first_defined (get_auto sub) auto_default && match given with None => true | Some _ => false end)
      || (first_defined (get_auto_null sub) auto_default_nulls && negb (null_in_type (get_type sub)) && null_given) in
    let wants_removal := first_defined (get_remove_null sub) auto_remove_nulls && negb (null_in_type (get_type sub)) && null_given in
    match get_default sub, wants_default with
    | Some v, true => sset p v d
    | _, _ => if wants_removal then sdel p d else d
    end.
  (** The rule is installed if any of the parameters holds: pandata.py:425-433. *)
  Definition installed : bool := auto_default || auto_default_nulls || auto_remove_nulls.
  Definition fill (ps : list (pystr * schema)) (d : list (pystr * json)) : list (pystr * json) :=
    if installed then fold_left (fun d ps => fill_prop (fst ps) (snd ps) d) ps d else d.

  (** [validator.iter_errors]: every keyword in turn, on the instance as left by
      the previous ones. [type], [required] and [properties] are the rules of jsonschema. *)
  Fixpoint visit_kw (k : kw) (v : json) : json * list verr :=
    match k with
    | KType ts => (v, if existsb (is_type v) ts then [] else [WrongType])
    | KRequired ps =>
        (v, match v with
            | JDict d => flat_map (fun p => if smem p d then [] else [Missing p]) ps
            | _ => []
            end)
    | KProps ps =>
        match v with
        | JDict d =>
            let '(d, es) :=
              (fix props (ps : list (pystr * schema)) (d : list (pystr * json)) : list (pystr * json) * list verr :=
                 match ps with
                 | [] => (d, [])
                 | (p, sub) :: ps' =>
                     match sget p d with
                     | None => props ps' d
                     | Some x =>
                         let '(x, es) :=
                           (fix kws (s : schema) (x : json) : json * list verr :=
                              match s with
                              | [] => (x, [])
                              | k :: s' => let '(x, es) := visit_kw k x in let '(x, es') := kws s' x in (x, es ++ es')
                              end) sub x in
                         let '(d, es') := props ps' (sset p x d) in
                         (d, es ++ es')
                     end
                 end) ps (fill ps d) in
            (JDict d, es)
        | _ => (v, [])
        end
    | KOther n => (v, map Other (other n v))
    | KDefault _ | KAutoDefault _ | KAutoDefaultNull _ | KAutoRemoveNull _ => (v, [])
    end.
  Fixpoint visit (s : schema) (v : json) : json * list verr :=
    match s with
    | [] => (v, [])
    | k :: s' => let '(v, es) := visit_kw k v in let '(v, es') := visit s' v in (v, es ++ es')
    end.
End Visitor.

(** ** Building *)

(** What a build leaves: the sub-models as pre-validation left them, the model, the
    errors.  The model may share objects with the sub-models, so that validating it
    changes them too: see [Share_Model]. *)
Record built := Built { b_submodels : list json; b_model : json; b_errors : list verr }.

Section Pandel.
  Variable other : nat -> json -> list nat.
  (** pandata.py:826-832 [_get_json_schema] *)
  Variables pre_schema full_schema : schema.
  (** Functions curating the model: the model after it, and what was raised *)
  Variable curate_funcs : list (json -> json * option exn).

  (** pandata.py:869-870 [_get_model_validator], with 421-429 the default flags *)
  Definition check (s : schema) (v : json) : json * list verr := visit true false false other s v.

  (** pandata.py:939-944 [_prevalidate] *)
  Definition prevalidate (mdls : list json) : list json * list verr :=
    (map (fun m => fst (check pre_schema m)) mdls, flat_map (fun m => snd (check pre_schema m)) mdls).
  (** pandata.py:959-964 [_curate] *)
  Fixpoint curate (fs : list (json -> json * option exn)) (m : json) : json * option exn :=
    match fs with
    | [] => (m, None)
    | f :: fs' => match f m with (m, None) => curate fs' m | (m, Some e) => (m, Some e) end
    end.
  (** pandata.py:1008-1020: what is yielded for an exception *)
  Definition reported (step : nat) (e : exn) : verr := match e with ValidationError => Raised | _ => Failed step e end.

  (** pandata.py:988-1028 [build_iter], exhausted *)
  Definition build_iter (mdls : list json) : built :=
    let '(mdls, es) := prevalidate mdls in
    match es with
    | _ :: _ => Built mdls JNull (es ++ [GaveUp 1])
    | [] =>
        match merge_all JNull mdls with
        | (m, Some e) => Built mdls m [reported 2 e; GaveUp 2]
        | (m, None) =>
            let '(m, es) := check full_schema m in
            match es with
            | _ :: _ => Built mdls m (es ++ [GaveUp 3])
            | [] =>
                match curate curate_funcs m with
                | (m, Some e) => Built mdls m [reported 4 e; GaveUp 4]
                | (m, None) => Built mdls m []
                end
            end
        end
    end.
  (** pandata.py:1030-1041 [build] *)
  Definition build (mdls : list json) : json + verr :=
    match b_errors (build_iter mdls) with e :: _ => inr e | [] => inl (b_model (build_iter mdls)) end.
End Pandel.

(** pandata.py:1043-1044 [get], returning None *)
Definition pandel_get (model : json) (path : pystr) : res json :=
  do _ <- resolve_jsonpointer model path None; Ok JNull.

(** ** Operations *)

(** pandata.py:103-137 [ModelOperations], its values being opaque *)
Record operations := Operations { o_inp : json; o_out : json; o_conv : json }.
(** pandata.py:765-800: the context before [mod_global_operations] is an empty
    list; [_replace] returns a new tuple, which is dropped. Named tuples are truthy. *)
Definition mod_global_operations (cntxt : option operations) (ops : option operations) (kwargs : list (pystr * json)) : res (option operations) :=
  let cntxt := match ops with Some o => Some o | None => cntxt end in
  match cntxt with
  | None => Raise AttributeError
  | Some c =>
      if forallb (fun kv => existsb (str_eqb (fst kv)) [lit "inp"; lit "out"; lit "conv"]) kwargs
      then Ok (Some c) else Raise ValueError
  end.

(** ** Enumerations *)

(** [x == y] of Python, of atoms: booleans are numbers *)
Definition py_eq (x y : json) : bool :=
  match x, y with
  | JBool b, JNum z | JNum z, JBool b => (z =? (if b then 1 else 0))%Z
  | _, _ => json_eqb x y
  end.
(** pandata.py:306-315 [rule_enum], for atoms, with [unbool] of jsonschema 3.0.2 *)
Definition rule_enum (enums : list json) (v : json) : bool :=
  match v with
  | JNum 0 | JNum 1 => existsb (fun e => match e with JBool _ => false | _ => py_eq v e end) enums
  | _ => existsb (py_eq v) enums
  end.

(** pandata.py:1334-1356 [build_all_jsonpaths]; the schema has its alternatives
    (oneOf, anyOf, allOf in this order) and its properties. *)
Inductive pschema := PSchema (forks : list pschema) (props : list (pystr * pschema)).
Fixpoint all_jsonpaths (s : pschema) (path : pystr) : list pystr :=
  match s with
  | PSchema forks props =>
      flat_map (fun s => all_jsonpaths s path) forks
      ++ match props with
         | [] => [path]
         | _ => flat_map (fun ps => all_jsonpaths (snd ps) (path ++ lit "/" ++ fst ps)) props
         end
  end.
