(** * Visiting schemas: model of [PandelVisitor], [/repo/pandalone/pandata.py] lines 188-315 and 317-478,
      with the rules that apply sub-schemas and the places errors tell

    [Pandel_Model] has the visitor of objects with named properties; this one has the sub-schemas of
    draft 7 of JSON Schema as well, with boolean schemas.  The rules that are not of pandata.py are
    jsonschema's (version 3), as its documentation and that of JSON Schema tell them: they are trusted.
    Instances are JSON values, and trees: no two parts are the same object.  Texts of errors are left
    out (see [AddProps_Model]). *)
From Coq Require Import String.
From Verif Require Import PyBase Json Pandel_Model.
From Verif Require AddProps_Model Enum_Model.

(** Steps of paths into instances and schemas *)
Inductive part := PKey (k : pystr) | PIdx (i : nat).

(** The keywords of a schema are in its order. [VRef] has the name of a definition.  The dependencies
    of a schema are either all names ([VNeeds]) or all schemas ([VDepends]).  [VIf] has the schemas of
    [then] and [else] as well, which are [SBool true] if there are none. *)
Inductive vschema := SBool (b : bool) | SObj (kws : list keyword)
with keyword :=
| VType (ts : list jtype)
| VEnum (l : list json)
| VMinimum (z : Z)
| VMaximum (z : Z)
| VMinItems (n : nat)
| VMaxItems (n : nat)
| VConst (c : json)
| VExclMin (z : Z)
| VExclMax (z : Z)
| VMultiple (p : positive)
| VMinLength (n : nat)
| VMaxLength (n : nat)
| VMinProps (n : nat)
| VMaxProps (n : nat)
| VUnique (b : bool)
| VPattern (p : pystr)
| VRequired (ps : list pystr)
| VNeeds (ps : list (pystr * list pystr))
| VProps (ps : list (pystr * vschema))
| VPatterns (ps : list (pystr * vschema))
| VAddProps (s : vschema)
| VNames (s : vschema)
| VItems (s : vschema)
| VItemsEach (ss : list vschema)
| VAddItems (s : vschema)
| VAnyOf (ss : list vschema)
| VAllOf (ss : list vschema)
| VOneOf (ss : list vschema)
| VNot (s : vschema)
| VContains (s : vschema)
| VDepends (ps : list (pystr * vschema))
| VIf (c t e : vschema)
| VRef (name : pystr)
| VDefault (v : json)
| VAutoDefault (v : json)
| VAutoDefaultNull (v : json)
| VAutoRemoveNull (v : json)
| VUnknown (name : pystr).

Definition name_of (k : keyword) : pystr :=
  match k with
  | VType _ => lit "type"
  | VEnum _ => lit "enum"
  | VMinimum _ => lit "minimum"
  | VMaximum _ => lit "maximum"
  | VMinItems _ => lit "minItems"
  | VMaxItems _ => lit "maxItems"
  | VConst _ => lit "const"
  | VExclMin _ => lit "exclusiveMinimum"
  | VExclMax _ => lit "exclusiveMaximum"
  | VMultiple _ => lit "multipleOf"
  | VMinLength _ => lit "minLength"
  | VMaxLength _ => lit "maxLength"
  | VMinProps _ => lit "minProperties"
  | VMaxProps _ => lit "maxProperties"
  | VUnique _ => lit "uniqueItems"
  | VPattern _ => lit "pattern"
  | VRequired _ => lit "required"
  | VNeeds _ | VDepends _ => lit "dependencies"
  | VProps _ => lit "properties"
  | VPatterns _ => lit "patternProperties"
  | VAddProps _ => lit "additionalProperties"
  | VNames _ => lit "propertyNames"
  | VItems _ | VItemsEach _ => lit "items"
  | VAddItems _ => lit "additionalItems"
  | VAnyOf _ => lit "anyOf"
  | VAllOf _ => lit "allOf"
  | VOneOf _ => lit "oneOf"
  | VNot _ => lit "not"
  | VContains _ => lit "contains"
  | VIf _ _ _ => lit "if"
  | VRef _ => lit "$ref"
  | VDefault _ => lit "default"
  | VAutoDefault _ => lit "autoDefault"
  | VAutoDefaultNull _ => lit "autoDefaultNull"
  | VAutoRemoveNull _ => lit "autoRemoveNull"
  | VUnknown n => n
  end.

(** [schema.get(...)] *)
Fixpoint find_kw {A} (sel : keyword -> option A) (kws : list keyword) : option A :=
  match kws with [] => None | k :: kws' => match sel k with Some a => Some a | None => find_kw sel kws' end end.
Definition the_ref := find_kw (fun k => match k with VRef r => Some r | _ => None end).
Definition the_type := find_kw (fun k => match k with VType ts => Some ts | _ => None end).
Definition the_default := find_kw (fun k => match k with VDefault v => Some v | _ => None end).
Definition the_auto := find_kw (fun k => match k with VAutoDefault v => Some v | _ => None end).
Definition the_auto_null := find_kw (fun k => match k with VAutoDefaultNull v => Some v | _ => None end).
Definition the_remove_null := find_kw (fun k => match k with VAutoRemoveNull v => Some v | _ => None end).
(** The names of [schema.get("properties", {})], and of [schema.get("patternProperties", {})] *)
Definition the_props (kws : list keyword) : list pystr :=
  match find_kw (fun k => match k with VProps ps => Some (map fst ps) | _ => None end) kws with Some ps => ps | None => [] end.
Definition the_patterns (kws : list keyword) : list pystr :=
  match find_kw (fun k => match k with VPatterns ps => Some (map fst ps) | _ => None end) kws with Some ps => ps | None => [] end.
(** How many items have schemas of their own, if they do *)
Definition the_items (kws : list keyword) : option nat :=
  match find_kw (fun k => match k with VItems _ => Some None | VItemsEach ss => Some (Some (length ss)) | _ => None end) kws with
  | Some n => n
  | None => None
  end.

(** [jsonschema.ValidationError]: its [relative_path], [relative_schema_path], [validator], [instance]
    and [context].  The instance is the value it has when the error is yielded. *)
Inductive verror := VErr (path spath : list part) (rule : option pystr) (inst : json) (ctx : list verror).
(** [error.path.appendleft] and [error.schema_path.appendleft] *)
Definition located (path spath : list part) (e : verror) : verror :=
  match e with VErr p sp r i c => VErr (path ++ p) (spath ++ sp) r i c end.
Definition none {A} (l : list A) : bool := match l with [] => true | _ => false end.

(** A part of a value, and the value with it replaced *)
Definition child (at_ : option part) (v : json) : option json :=
  match at_, v with
  | None, _ => Some v
  | Some (PKey k), JDict d => sget k d
  | Some (PIdx i), JList l => nth_error l i
  | _, _ => None
  end.
Fixpoint replace_nth {A} (i : nat) (x : A) (l : list A) : list A :=
  match l, i with
  | [], _ => []
  | _ :: l', O => x :: l'
  | y :: l', S i' => y :: replace_nth i' x l'
  end.
Definition put (at_ : option part) (x v : json) : json :=
  match at_, v with
  | None, _ => x
  | Some (PKey k), JDict d => JDict (sset k x d)
  | Some (PIdx i), JList l => JList (replace_nth i x l)
  | _, _ => v
  end.
Definition step (at_ : option part) : list part := match at_ with None => [] | Some p => [p] end.

Fixpoint numbered {A} (i : nat) (l : list A) : list (nat * A) :=
  match l with [] => [] | x :: l' => (i, x) :: numbered (S i) l' end.

Definition out := res (json * list verror).

Section Visitor.
  (** The parameters of [PandelVisitor], 317-324 *)
  Variables auto_default auto_default_nulls auto_remove_nulls : bool.
  (** What [$ref] may refer to *)
  Variable definitions : list (pystr * vschema).

  (** pandata.py:278-300, for one property.  The operator [in] does not work on boolean sub-schemas. *)
  Definition fill_property (p : pystr) (sub : vschema) (d : list (pystr * json)) : res (list (pystr * json)) :=
    match sub with
    | SBool _ => Raise TypeError
    | SObj sub =>
        let given := sget p d in
        let null_given := match given with Some v => is_null v | None => false end in
        let wants_default :=
          (first_defined (the_auto sub) auto_default && match given with None => true | Some _ => false end)
          || (first_defined (the_auto_null sub) auto_default_nulls && negb (null_in_type (the_type sub)) && null_given) in
        let wants_removal := first_defined (the_remove_null sub) auto_remove_nulls && negb (null_in_type (the_type sub)) && null_given in
        Ok match the_default sub, wants_default with
           | Some v, true => sset p v d
           | _, _ => if wants_removal then sdel p d else d
           end
    end.
  Fixpoint fill_properties (ps : list (pystr * vschema)) (d : list (pystr * json)) : res (list (pystr * json)) :=
    match ps with
    | [] => Ok d
    | (p, sub) :: ps' => do d <- fill_property p sub d; fill_properties ps' d
    end.
  (** pandata.py:453-461: the rule is installed if any of the parameters holds. *)
  Definition filling : bool := auto_default || auto_default_nulls || auto_remove_nulls.

  Section Rules.
    (** [validator.descend]; if it is to [stop], just until the first error *)
    Variable descend : bool -> vschema -> json -> out.
    Variable stop : bool.

    (** Sub-schemas, each with the part of the instance it is for and its own place in the schema.
        Parts that are missing are skipped. *)
    Fixpoint visits (vs : list (option part * list part * vschema)) (v : json) : out :=
      match vs with
      | [] => Ok (v, [])
      | (at_, sp, s) :: vs' =>
          match child at_ v with
          | None => visits vs' v
          | Some x =>
              do (x, es) <- descend stop s x;
              let v := put at_ x v in
              let es := map (located (step at_) sp) es in
              if stop && negb (none es) then Ok (v, es)
              else do (v, es') <- visits vs' v; Ok (v, es ++ es')
          end
      end.

    (** pandata.py:238-244 [_rule_propertyNames], of names: nothing is added to the path. *)
    Fixpoint visit_names (s : vschema) (ks : list pystr) : res (list verror) :=
      match ks with
      | [] => Ok []
      | k :: ks' =>
          do (_, es) <- descend stop s (JStr k);
          if stop && negb (none es) then Ok es else do es' <- visit_names s ks'; Ok (es ++ es')
      end.

    (** The alternatives of [anyOf] and [oneOf], until one holds: then those that are left, else the
        errors of all *)
    Fixpoint alternatives (i : nat) (ss : list vschema) (v : json) : res (json * (list verror + list vschema)) :=
      match ss with
      | [] => Ok (v, inl [])
      | s :: ss' =>
          do (v, es) <- descend false s v;
          if none es then Ok (v, inr ss')
          else
            do (v, r) <- alternatives (S i) ss' v;
            Ok (v, match r with inl es' => inl (map (located [] [PIdx i]) es ++ es') | inr left_ => inr left_ end)
      end.
    (** Whether some hold, with [is_valid] that stops at the first error *)
    Fixpoint some_valid (ss : list vschema) (v : json) : res (json * bool) :=
      match ss with
      | [] => Ok (v, false)
      | s :: ss' => do (v, es) <- descend true s v; do (v, b) <- some_valid ss' v; Ok (v, none es || b)
      end.

    (** Whether an item holds, up to the first one *)
    Fixpoint some_item (s : vschema) (is : list nat) (v : json) : res (json * bool) :=
      match is with
      | [] => Ok (v, false)
      | i :: is' =>
          match child (Some (PIdx i)) v with
          | None => some_item s is' v
          | Some x =>
              do (x, es) <- descend true s x;
              let v := put (Some (PIdx i)) x v in
              if none es then Ok (v, true) else some_item s is' v
          end
      end.
    (** The schemas that are for the instance if it has a property, after what the ones before did *)
    Fixpoint depends (ps : list (pystr * vschema)) (v : json) : out :=
      match ps with
      | [] => Ok (v, [])
      | (p, s) :: ps' =>
          if match v with JDict d => smem p d | _ => false end then
            do (v, es) <- descend stop s v;
            let es := map (located [] [PKey p]) es in
            if stop && negb (none es) then Ok (v, es)
            else do (v, es') <- depends ps' v; Ok (v, es ++ es')
          else depends ps' v
      end.
    (** [equal] of jsonschema: booleans equal themselves only, unless they are nested. *)
    Definition same_value (c v : json) : bool :=
      match c, v with
      | JBool a, JBool b => Bool.eqb a b
      | JBool _, _ | _, JBool _ => false
      | _, _ => Enum_Model.py_equal v c
      end.

    (** [uniq] of jsonschema, which sorts the items if it can: items that are equal are next to each other then. *)
    Fixpoint unique (l : list json) : bool :=
      match l with [] => true | x :: l' => forallb (fun y => negb (same_value x y)) l' && unique l' end.

    (** Which names match a pattern, for [patternProperties] *)
    Fixpoint matching (p : pystr) (ks : list pystr) : res (list pystr) :=
      match ks with
      | [] => Ok []
      | k :: ks' => do b <- AddProps_Model.search p k; do l <- matching p ks'; Ok (if b : bool then k :: l else l)
      end.
    Fixpoint matchings (ps : list (pystr * vschema)) (ks : list pystr) : res (list (option part * list part * vschema)) :=
      match ps with
      | [] => Ok []
      | (p, s) :: ps' =>
          do l <- matching p ks;
          do vs <- matchings ps' ks;
          Ok (map (fun k => (Some (PKey k), [PKey p], s)) l ++ vs)
      end.
    Definition text_of (k : AddProps_Model.key) : pystr :=
      match k with AddProps_Model.KStr s => s | AddProps_Model.KNum _ => [] end.

    Definition own (k : keyword) (v : json) (ctx : list verror) : verror := VErr [] [] (Some (name_of k)) v ctx.
    Definition unless (ok : bool) (k : keyword) (v : json) : out := Ok (v, if ok then [] else [own k v []]).

    (** The rule of a keyword of a schema *)
    Definition rule (kws : list keyword) (k : keyword) (v : json) : out :=
      match k with
      | VType ts => unless (existsb (is_type v) ts) k v
      | VEnum l => unless (Enum_Model.rule_enum l v) k v
      | VMinimum m => unless (match v with JNum z => (m <=? z)%Z | _ => true end) k v
      | VMaximum m => unless (match v with JNum z => (z <=? m)%Z | _ => true end) k v
      | VMinItems n => unless (match v with JList l => (n <=? length l)%nat | _ => true end) k v
      | VMaxItems n => unless (match v with JList l => (length l <=? n)%nat | _ => true end) k v
      | VConst c => unless (same_value c v) k v
      | VExclMin m => unless (match v with JNum z => (m <? z)%Z | _ => true end) k v
      | VExclMax m => unless (match v with JNum z => (z <? m)%Z | _ => true end) k v
      | VMultiple p => unless (match v with JNum z => (z mod Z.pos p =? 0)%Z | _ => true end) k v
      | VMinLength n => unless (match v with JStr s => (n <=? length s)%nat | _ => true end) k v
      | VMaxLength n => unless (match v with JStr s => (length s <=? n)%nat | _ => true end) k v
      | VMinProps n => unless (match v with JDict d => (n <=? length d)%nat | _ => true end) k v
      | VMaxProps n => unless (match v with JDict d => (length d <=? n)%nat | _ => true end) k v
      | VUnique b => unless (match v with JList l => negb b || unique l | _ => true end) k v
      | VPattern p => match v with JStr s => do b <- AddProps_Model.search p s; unless b k v | _ => Ok (v, []) end
      | VNeeds ps =>
          Ok (v, match v with
                 | JDict d => flat_map (fun pq => if smem (fst pq) d then flat_map (fun q => if smem q d then [] else [own k v []]) (snd pq) else []) ps
                 | _ => []
                 end)
      | VRequired ps =>
          Ok (v, match v with
                 | JDict d => flat_map (fun p => if smem p d then [] else [own k v []]) ps
                 | _ => []
                 end)
      (* pandata.py:263-303, then jsonschema's rule *)
      | VProps ps =>
          match v with
          | JDict d =>
              do d <- (if filling then fill_properties ps d else Ok d);
              visits (map (fun ps => (Some (PKey (fst ps)), [PKey (fst ps)], snd ps)) ps) (JDict d)
          | _ => Ok (v, [])
          end
      | VPatterns ps =>
          match v with
          | JDict d => do vs <- matchings ps (map fst d); visits vs v
          | _ => Ok (v, [])
          end
      (* pandata.py:208-235, in the order of the instance *)
      | VAddProps aP =>
          match v with
          | JDict d =>
              do extras <- AddProps_Model.find_additional_properties (the_props kws) (the_patterns kws)
                             (map (fun kv => AddProps_Model.KStr (fst kv)) d);
              match aP with
              | SObj _ => visits (map (fun x => (Some (PKey (text_of x)), [], aP)) extras) v
              | SBool b => unless (b || none extras) k v
              end
          | _ => Ok (v, [])
          end
      | VNames s =>
          match v with
          | JDict d => do es <- visit_names s (map fst d); Ok (v, es)
          | _ => Ok (v, [])
          end
      | VItems s =>
          match v with
          | JList l => visits (map (fun i => (Some (PIdx i), [], s)) (seq 0 (length l))) v
          | _ => Ok (v, [])
          end
      | VItemsEach ss =>
          match v with
          | JList l => visits (map (fun si => (Some (PIdx (fst si)), [PIdx (fst si)], snd si)) (numbered 0 ss)) v
          | _ => Ok (v, [])
          end
      | VAddItems aI =>
          match v, the_items kws with
          | JList l, Some n =>
              match aI with
              | SObj _ => visits (map (fun i => (Some (PIdx i), [], aI)) (seq n (length l - n))) v
              | SBool b => unless (b || (length l <=? n)%nat) k v
              end
          | _, _ => Ok (v, [])
          end
      | VAnyOf ss =>
          do (v, r) <- alternatives 0 ss v;
          Ok (v, match r with inl es => [own k v es] | inr _ => [] end)
      | VAllOf ss => visits (map (fun si => (None, [PIdx (fst si)], snd si)) (numbered 0 ss)) v
      | VOneOf ss =>
          do (v, r) <- alternatives 0 ss v;
          match r with
          | inl es => Ok (v, [own k v es])
          | inr left_ => do (v, more) <- some_valid left_ v; Ok (v, if more then [own k v []] else [])
          end
      | VNot s => do (v, es) <- descend true s v; Ok (v, if none es then [own k v []] else [])
      | VContains s =>
          match v with
          | JList l => do (v, b) <- some_item s (seq 0 (length l)) v; Ok (v, if b : bool then [] else [own k v []])
          | _ => Ok (v, [])
          end
      | VDepends ps => depends ps v
      (* jsonschema 3 puts [if] before [then] and [else] in the paths into the schema *)
      | VIf c t e =>
          do (v, es) <- descend true c v;
          if none es then visits [(None, [PKey (lit "then")], t)] v else visits [(None, [PKey (lit "else")], e)] v
      | VRef _ | VDefault _ | VAutoDefault _ | VAutoDefaultNull _ | VAutoRemoveNull _ | VUnknown _ => Ok (v, [])
      end.

    (** Every keyword in turn, on the instance as the previous ones left it *)
    Fixpoint keywords (kws : list keyword) (todo : list keyword) (v : json) : out :=
      match todo with
      | [] => Ok (v, [])
      | k :: todo' =>
          do (v, es) <- rule kws k v;
          let es := map (located [] [PKey (name_of k)]) es in
          if stop && negb (none es) then Ok (v, es)
          else do (v, es') <- keywords kws todo' v; Ok (v, es ++ es')
      end.
  End Rules.

  (** [validator.iter_errors], exhausted or until the first error: what is left of the instance, and
      the errors.  Next to a [$ref] nothing else counts, and it is not in the schema's paths. *)
  Fixpoint iter_errors (fuel : nat) (stop : bool) (s : vschema) (v : json) : out :=
    match fuel with
    | O => Raise OutOfFuel
    | S fuel =>
        match s with
        | SBool true => Ok (v, [])
        | SBool false => Ok (v, [VErr [] [] None v []])
        | SObj kws =>
            match the_ref kws with
            | Some r =>
                match sget r definitions with
                | Some s => iter_errors fuel stop s v
                | None => Raise RefResolutionError
                end
            | None => keywords (iter_errors fuel) stop kws kws v
            end
        end
    end.
End Visitor.
