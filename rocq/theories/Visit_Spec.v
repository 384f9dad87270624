(** * Visiting schemas: which instances conform, and where errors are *)
From Coq Require Import String.
From Verif Require Import PyBase Json Pandel_Model Visit_Model.
From Verif Require AddProps_Model Enum_Model.

(** ** Conforming *)

(** Equal values: a boolean equals itself only, and other values are equal as Python has it. *)
Definition alike (x y : json) : Prop :=
  (exists b, x = JBool b /\ y = JBool b) \/ ((forall b, x <> JBool b) /\ (forall b, y <> JBool b) /\ Enum_Model.py_equal y x = true).
(** Types of JSON values *)
Inductive of_type : jtype -> json -> Prop :=
| t_null : of_type TNull JNull
| t_boolean b : of_type TBoolean (JBool b)
| t_integer z : of_type TInteger (JNum z)
| t_number z : of_type TNumber (JNum z)
| t_string s : of_type TString (JStr s)
| t_array l : of_type TArray (JList l)
| t_object d : of_type TObject (JDict d).

(** The first keyword of a kind: objects have each key once, lists of keywords may have it again. *)
Definition first_such (P : keyword -> Prop) (kws : list keyword) (k : keyword) : Prop :=
  exists before after, kws = before ++ k :: after /\ P k /\ forall k', In k' before -> ~ P k'.
Definition is_ref (k : keyword) : Prop := exists r, k = VRef r.
Definition is_props (k : keyword) : Prop := exists ps, k = VProps ps.
Definition is_patterns (k : keyword) : Prop := exists ps, k = VPatterns ps.
Definition is_items (k : keyword) : Prop := (exists s, k = VItems s) \/ (exists ss, k = VItemsEach ss).

(** A property is additional if it is neither named nor matched.  Patterns are joined, as they are
    searched for at once: see C86. *)
Definition additional (kws : list keyword) (k : pystr) : Prop :=
  (forall ps s, first_such is_props kws (VProps ps) -> ~ In (k, s) ps) /\
  (forall ps, first_such is_patterns kws (VPatterns ps) ->
     join (lit "|") (map fst ps) = [] \/ AddProps_Model.search (join (lit "|") (map fst ps)) k = Ok false).

(** What a keyword asks of an instance, given what its sub-schemas do *)
Definition satisfies (C : vschema -> json -> Prop) (kws : list keyword) (k : keyword) (v : json) : Prop :=
  match k with
  | VType ts => exists t, In t ts /\ of_type t v
  | VEnum l => Enum_Model.rule_enum l v = true (* see C115 *)
  | VMinimum m => forall z, v = JNum z -> (m <= z)%Z
  | VMaximum m => forall z, v = JNum z -> (z <= m)%Z
  | VMinItems n => forall l, v = JList l -> n <= length l
  | VMaxItems n => forall l, v = JList l -> length l <= n
  | VConst c => alike c v
  | VExclMin m => forall z, v = JNum z -> (m < z)%Z
  | VExclMax m => forall z, v = JNum z -> (z < m)%Z
  | VMultiple p => forall z, v = JNum z -> exists q, z = (q * Z.pos p)%Z
  | VMinLength n => forall s, v = JStr s -> n <= length s
  | VMaxLength n => forall s, v = JStr s -> length s <= n
  | VMinProps n => forall d, v = JDict d -> n <= length d
  | VMaxProps n => forall d, v = JDict d -> length d <= n
  | VUnique b => b = true -> forall l i j x y, v = JList l -> i < j -> nth_error l i = Some x -> nth_error l j = Some y -> ~ alike x y
  | VPattern p => forall s, v = JStr s -> AddProps_Model.search p s = Ok true
  | VNeeds ps => forall d p qs q x, v = JDict d -> In (p, qs) ps -> sget p d = Some x -> In q qs -> exists y, sget q d = Some y
  | VRequired ps => forall d p, v = JDict d -> In p ps -> exists x, sget p d = Some x
  | VProps ps => forall d p s x, v = JDict d -> In (p, s) ps -> sget p d = Some x -> C s x
  | VPatterns ps => forall d p s k x, v = JDict d -> In (p, s) ps -> sget k d = Some x -> AddProps_Model.search p k = Ok true -> C s x
  | VAddProps s => forall d k x, v = JDict d -> sget k d = Some x -> additional kws k -> C s x
  | VNames s => forall d k x, v = JDict d -> sget k d = Some x -> C s (JStr k)
  | VItems s => forall l x, v = JList l -> In x l -> C s x
  | VItemsEach ss => forall l i s x, v = JList l -> nth_error ss i = Some s -> nth_error l i = Some x -> C s x
  | VAddItems s => forall l ss i x, v = JList l -> first_such is_items kws (VItemsEach ss) -> length ss <= i -> nth_error l i = Some x -> C s x
  | VAnyOf ss => exists s, In s ss /\ C s v
  | VAllOf ss => forall s, In s ss -> C s v
  | VOneOf ss => exists i s, nth_error ss i = Some s /\ C s v /\ forall j s', nth_error ss j = Some s' -> C s' v -> j = i
  | VNot s => ~ C s v
  | VContains s => forall l, v = JList l -> exists x, In x l /\ C s x
  | VDepends ps => forall d p s x, v = JDict d -> In (p, s) ps -> sget p d = Some x -> C s v
  | VIf c t e => (C c v -> C t v) /\ (~ C c v -> C e v)
  | VRef _ | VDefault _ | VAutoDefault _ | VAutoDefaultNull _ | VAutoRemoveNull _ | VUnknown _ => True
  end.

Section Conforms.
  Variable definitions : list (pystr * vschema).
  (** Within so many levels of sub-schemas *)
  Fixpoint conforms (n : nat) (s : vschema) (v : json) {struct n} : Prop :=
    match s, n with
    | SBool b, _ => b = true
    | SObj _, O => False
    | SObj kws, S n =>
        (forall r, first_such is_ref kws (VRef r) -> exists s', sget r definitions = Some s' /\ conforms n s' v) /\
        ((forall r, ~ In (VRef r) kws) -> forall k, In k kws -> satisfies (conforms n) kws k v)
    end.
End Conforms.

(** ** Places of errors *)

(** What is at a path of an instance *)
Fixpoint at_path (p : list part) (v : json) : option json :=
  match p with
  | [] => Some v
  | PKey k :: p' => match v with JDict d => match sget k d with Some x => at_path p' x | None => None end | _ => None end
  | PIdx i :: p' => match v with JList l => match nth_error l i with Some x => at_path p' x | None => None end | _ => None end
  end.

(** The sub-schemas of a keyword that errors may be of *)
Inductive sub_schema : keyword -> list part -> vschema -> Prop :=
| sub_props ps p s : In (p, s) ps -> sub_schema (VProps ps) [PKey p] s
| sub_patterns ps p s : In (p, s) ps -> sub_schema (VPatterns ps) [PKey p] s
| sub_addprops s : sub_schema (VAddProps s) [] s
| sub_names s : sub_schema (VNames s) [] s
| sub_items s : sub_schema (VItems s) [] s
| sub_each ss i s : nth_error ss i = Some s -> sub_schema (VItemsEach ss) [PIdx i] s
| sub_additems s : sub_schema (VAddItems s) [] s
| sub_any ss i s : nth_error ss i = Some s -> sub_schema (VAnyOf ss) [PIdx i] s
| sub_all ss i s : nth_error ss i = Some s -> sub_schema (VAllOf ss) [PIdx i] s
| sub_one ss i s : nth_error ss i = Some s -> sub_schema (VOneOf ss) [PIdx i] s
| sub_depends ps p s : In (p, s) ps -> sub_schema (VDepends ps) [PKey p] s
| sub_then c t e : sub_schema (VIf c t e) [PKey (lit "then")] t
| sub_else c t e : sub_schema (VIf c t e) [PKey (lit "else")] e.

Section Leads.
  Variable definitions : list (pystr * vschema).
  (** Where a path leads from a schema, references being followed, and how many levels down that is *)
  Inductive leads : vschema -> list part -> nat -> vschema -> Prop :=
  | leads_here s : leads s [] 0 s
  | leads_ref kws r s' p n t : first_such is_ref kws (VRef r) -> sget r definitions = Some s' -> leads s' p n t -> leads (SObj kws) p (S n) t
  | leads_sub kws k sp s' p n t : (forall r, ~ In (VRef r) kws) -> In k kws -> sub_schema k sp s' -> leads s' p n t ->
      leads (SObj kws) (PKey (name_of k) :: sp ++ p) (S n) t.

  (** An error of a schema and an instance: its path leads to its instance (or to the object with the
      name that is its instance), and its schema path to a keyword the instance does not satisfy.  The
      same holds for the errors it is due to, from its instance and its schema on. *)
  Inductive right_error : nat -> vschema -> json -> verror -> Prop :=
  | right_false n s v p sp w m :
      at_path p v = Some w \/ (exists d k x, at_path p v = Some (JDict d) /\ sget k d = Some x /\ w = JStr k) ->
      leads s sp m (SBool false) -> m < n ->
      right_error n s v (VErr p sp None w [])
  | right_keyword n s v p sp w m kws k c ctx :
      at_path p v = Some w \/ (exists d k x, at_path p v = Some (JDict d) /\ sget k d = Some x /\ w = JStr k) ->
      leads s sp m (SObj kws) -> n = m + S c -> (forall r, ~ In (VRef r) kws) -> In k kws ->
      ~ satisfies (conforms definitions c) kws k w ->
      (forall e, In e ctx -> exists i s' q sq r u cs, sub_schema k [PIdx i] s' /\ e = VErr q (PIdx i :: sq) r u cs /\ right_error c s' w (VErr q sq r u cs)) ->
      right_error n s v (VErr p (sp ++ [PKey (name_of k)]) (Some (name_of k)) w ctx).
End Leads.

(** ** Growing *)

(** What visiting may do to an instance: properties that are missing or null may become anything, null
    properties may go, and the others, as well as the items of lists, may grow themselves. *)
Inductive grown : json -> json -> Prop :=
| g_same v : grown v v
| g_list l m : length l = length m -> (forall i x y, nth_error l i = Some x -> nth_error m i = Some y -> grown x y) -> grown (JList l) (JList m)
| g_dict d e :
    (forall k x, sget k d = Some x -> x <> JNull -> sget k e <> None) ->
    (forall k x y, sget k d = Some x -> x <> JNull -> sget k e = Some y -> grown x y) ->
    grown (JDict d) (JDict e).

(** Where an error is in the instance that is left: at its path is what its instance has grown to, or it
    was a null property; or its path leads to the object with the name that is its instance. *)
Definition placed (v : json) (e : verror) : Prop :=
  match e with
  | VErr p _ _ w _ =>
      (exists w', at_path p v = Some w' /\ grown w w') \/
      (w = JNull /\ exists q k d, p = q ++ [PKey k] /\ at_path q v = Some (JDict d)) \/
      (exists d k, at_path p v = Some (JDict d) /\ w = JStr k)
  end.

(** ** Schemas within schemas, also under [not], [contains] and [if] *)
Definition under (k : keyword) (s : vschema) : Prop := (exists sp, sub_schema k sp s) \/ k = VNot s \/ k = VContains s \/ exists t e, k = VIf s t e.
Section Reaches.
  Variable definitions : list (pystr * vschema).
  Inductive reaches : vschema -> vschema -> Prop :=
  | reach_self s : reaches s s
  | reach_ref kws r s' t : In (VRef r) kws -> sget r definitions = Some s' -> reaches s' t -> reaches (SObj kws) t
  | reach_sub kws k s' t : In k kws -> under k s' -> reaches s' t -> reaches (SObj kws) t.
End Reaches.
(** Named properties with object schemas *)
Definition object_props (t : vschema) : Prop :=
  forall kws ps q b, t = SObj kws -> In (VProps ps) kws -> ~ In (q, SBool b) ps.
(** Named properties without defaults and removals *)
Definition defaultless_props (t : vschema) : Prop :=
  forall kws ps q s, t = SObj kws -> In (VProps ps) kws -> In (q, s) ps ->
    exists ks, s = SObj ks /\ (forall k v, In k ks -> k <> VDefault v /\ k <> VAutoRemoveNull v).

(** ** Filling *)

(** A keyword with a value *)
Definition of_kind (key : json -> keyword) (k : keyword) : Prop := exists v, k = key v.
Definition says (key : json -> keyword) (kws : list keyword) (v : json) : Prop := first_such (of_kind key) kws (key v).
(** What Python takes for false *)
Definition falsy (v : json) : Prop := In v [JNull; JBool false; JNum 0; JStr []; JList []; JDict []].
(** A setting of a schema, which counts more than the parameter unless it is null *)
Definition set_on (key : json -> keyword) (flag : bool) (kws : list keyword) : Prop :=
  (exists v, says key kws v /\ ~ falsy v) \/ (flag = true /\ forall v, says key kws v -> v = JNull).
Definition nullable (kws : list keyword) : Prop :=
  exists ts, first_such (fun k => exists ts, k = VType ts) kws (VType ts) /\ In TNull ts.

Section Becomes.
  Variables auto_default auto_default_nulls auto_remove_nulls : bool.
  (** Whether a property takes the default of its schema, and whether it goes *)
  Definition takes_default (kws : list keyword) (given : option json) : Prop :=
    (given = None /\ set_on VAutoDefault auto_default kws) \/
    (given = Some JNull /\ set_on VAutoDefaultNull auto_default_nulls kws /\ ~ nullable kws).
  Definition goes (kws : list keyword) (given : option json) : Prop :=
    given = Some JNull /\ set_on VAutoRemoveNull auto_remove_nulls kws /\ ~ nullable kws.
  Inductive becomes (kws : list keyword) (given : option json) : option json -> Prop :=
  | b_default v : says VDefault kws v -> takes_default kws given -> becomes kws given (Some v)
  | b_gone : (forall v, says VDefault kws v -> ~ takes_default kws given) -> goes kws given -> becomes kws given None
  | b_kept : (forall v, says VDefault kws v -> ~ takes_default kws given) -> ~ goes kws given -> becomes kws given given.
End Becomes.
Inductive both_grown : option json -> option json -> Prop :=
| both_none : both_grown None None
| both_some x y : grown x y -> both_grown (Some x) (Some y).
