(** * Models: what the properties talk about

    Written without the functions of the model: only its types are used. *)
From Coq Require Import String Permutation.
From Verif Require Import PyBase Json Pandel_Model.

(** The node of a document under a path of keys *)
Fixpoint at_path (p : list pystr) (v : json) : option json :=
  match p with
  | [] => Some v
  | k :: p' => match v with
               | JDict d => match sget k d with Some x => at_path p' x | None => None end
               | _ => None
               end
  end.
(** Keys of dicts are unique: so it is of every dict of Python. *)
Definition dicts_ok (v : json) : Prop := forall p d, at_path p v = Some (JDict d) -> NoDup (map fst d).

(** Equal, or both of them dicts (whose contents other paths tell) *)
Definition same_node (x y : option json) : Prop :=
  x = y \/ exists d d', x = Some (JDict d) /\ y = Some (JDict d').

(** What is left at a place where [old] was found, then [new] *)
Definition over (old new : option json) : option json :=
  match old, new with
  | _, None => old
  | Some v, Some JNull => Some v
  | Some (JList _), Some (JStr s) => Some (JList (map (fun c => JStr [c]) s))
  | _, Some v => Some v
  end.
(** The last value that is not null; null if there are only nulls *)
Fixpoint winner (vs : list (option json)) : option json :=
  match vs with
  | [] => None
  | v :: vs' => match winner vs' with
                | Some w => match w, v with JNull, Some v => Some v | _, _ => Some w end
                | None => v
                end
  end.
Definition no_list_and_str (vs : list (option json)) : Prop :=
  ~ exists l s, In (Some (JList l)) vs /\ In (Some (JStr s)) vs.

(** Lists without nulls, also in the lists inside them *)
Inductive solid : json -> Prop :=
| solid_list l : (forall x, In x l -> solid x) -> solid (JList l)
| solid_dict d : solid (JDict d)
| solid_bool b : solid (JBool b)
| solid_num z : solid (JNum z)
| solid_str s : solid (JStr s).

(** Nodes that can be merged *)
Definition agree (x y : json) : Prop :=
  match x, y with
  | JNull, JNull => False
  | JDict _, (JDict _ | JNull) | JNull, JDict _ => True
  | JDict _, _ | _, JDict _ => False
  | _, JList _ => solid y
  | JList _, JNull => solid x
  | JList _, JStr _ => True
  | JList _, _ => False
  | _, _ => True
  end.
Definition kind (v : json) : nat := match v with JDict _ => 0 | JList _ => 1 | _ => 2 end.
(** No nulls, and never two kinds (dict, list, other) of nodes at one place *)
Definition consistent (ms : list json) : Prop :=
  forall p m m' x y, In m ms -> In m' ms -> at_path p m = Some x -> at_path p m' = Some y ->
    kind x = kind y /\ solid x.

(** [p] is declared in the schema, with a default *)
Inductive declares : schema -> list pystr -> json -> Prop :=
| declares_here s ps p sub v :
    In (KProps ps) s -> In (p, sub) ps -> In (KDefault v) sub -> declares s [p] v
| declares_deeper s ps p sub q v :
    In (KProps ps) s -> In (p, sub) ps -> declares sub q v -> declares s (p :: q) v.
Definition no_defaults (s : schema) : Prop := forall p v, ~ declares s p v.
Definition defaults_ok (s : schema) : Prop := forall p v, declares s p v -> dicts_ok v.

(** A schema as written in JSON: [properties] appears once, names are unique;
    without keywords switching the defaults. *)
Definition not_props (k : kw) : Prop := match k with KProps _ => False | _ => True end.
Inductive proper : schema -> Prop :=
| proper_none s : (forall k, In k s -> not_props k) -> proper s
| proper_props s1 ps s2 :
    (forall k, In k s1 -> not_props k) -> (forall k, In k s2 -> not_props k) ->
    NoDup (map fst ps) ->
    (forall p sub v, In (p, sub) ps ->
       ~ In (KAutoDefault v) sub /\ ~ In (KAutoDefaultNull v) sub /\ ~ In (KAutoRemoveNull v) sub) ->
    (forall p sub, In (p, sub) ps -> proper sub) ->
    proper (s1 ++ KProps ps :: s2).

(** Every default is there, where its dict is. *)
Definition complete (s : schema) (v : json) : Prop :=
  forall q p w d, declares s (q ++ [p]) w -> at_path q v = Some (JDict d) -> sget p d <> None.

(** The type of a property allows null. *)
Definition allows_null (sub : schema) : Prop := exists ts, get_type sub = Some ts /\ In TNull ts.

(** Types of JSON values *)
Definition has_type (v : json) (t : jtype) : Prop :=
  match t with
  | TNull => v = JNull
  | TBoolean => exists b, v = JBool b
  | TInteger | TNumber => exists z, v = JNum z
  | TString => exists s, v = JStr s
  | TArray => exists l, v = JList l
  | TObject => exists d, v = JDict d
  end.
(** Instances as the schema asks for *)
Inductive conforms (other : nat -> json -> list nat) : schema -> json -> Prop :=
| conforms_intro s v :
    (forall ts, In (KType ts) s -> exists t, In t ts /\ has_type v t) ->
    (forall ps p d, In (KRequired ps) s -> v = JDict d -> In p ps -> sget p d <> None) ->
    (forall n, In (KOther n) s -> other n v = []) ->
    (forall ps p sub d x, In (KProps ps) s -> v = JDict d -> In (p, sub) ps -> sget p d = Some x -> conforms other sub x) ->
    conforms other s v.
(** Keywords other than types, required and properties come after the properties, unless these have
    no defaults. *)
Inductive timely : schema -> Prop :=
| timely_intro s :
    (forall s1 ps s2 n, s = s1 ++ KProps ps :: s2 -> In (KOther n) s1 -> no_defaults s) ->
    (forall ps p sub, In (KProps ps) s -> In (p, sub) ps -> timely sub) -> timely s.

(** The keywords other than types, required and properties that come before the properties hold, too. *)
Inductive heeded (other : nat -> json -> list nat) : schema -> json -> Prop :=
| heeded_intro s v :
    (forall s1 ps s2 n, s = s1 ++ KProps ps :: s2 -> In (KOther n) s1 -> other n v = []) ->
    (forall ps p sub d x, In (KProps ps) s -> v = JDict d -> In (p, sub) ps -> sget p d = Some x -> heeded other sub x) ->
    heeded other s v.

(** Keywords are the keys of a dict, so that each appears once. *)
Definition word (k : kw) : nat :=
  match k with
  | KType _ => 0 | KRequired _ => 1 | KProps _ => 2 | KDefault _ => 3
  | KAutoDefault _ => 4 | KAutoDefaultNull _ => 5 | KAutoRemoveNull _ => 6 | KOther n => 7 + n
  end.
Inductive distinct : schema -> Prop :=
| distinct_intro s : NoDup (map word s) ->
    (forall ps p sub, In (KProps ps) s -> In (p, sub) ps -> distinct sub) -> distinct s.
(** The same keywords in another order, also inside the properties *)
Inductive reordered : schema -> schema -> Prop :=
| reordered_here s s' : Permutation s s' -> reordered s s'
| reordered_inside s1 ps1 p sub sub' ps2 s2 : reordered sub sub' ->
    reordered (s1 ++ KProps (ps1 ++ (p, sub) :: ps2) :: s2) (s1 ++ KProps (ps1 ++ (p, sub') :: ps2) :: s2)
| reordered_trans s s' s'' : reordered s s' -> reordered s' s'' -> reordered s s''.
(** What asks for the contents of a dict comes after the properties. *)
Definition asks (k : kw) : Prop := match k with KRequired _ | KOther _ => True | _ => False end.
Definition late (s : schema) : Prop := forall s1 ps s2 k, s = s1 ++ KProps ps :: s2 -> In k s1 -> ~ asks k.

(** What a keyword, other than the properties, says of an instance *)
Definition complains (other : nat -> json -> list nat) (k : kw) (v : json) (e : verr) : Prop :=
  match k with
  | KType ts => (forall t, In t ts -> ~ has_type v t) /\ e = WrongType
  | KRequired ps => exists d p, v = JDict d /\ In p ps /\ sget p d = None /\ e = Missing p
  | KOther n => exists m, In m (other n v) /\ e = Other m
  | _ => False
  end.

(** A switch: the keyword of the property, otherwise (or if null) the parameter *)
Definition switched (v : option json) (flag on : bool) : Prop :=
  v = Some (JBool on) \/ ((v = None \/ v = Some JNull) /\ flag = on).
(** *** Validating again *)
(** A schema as dicts hold it: words once, names once *)
Inductive tidy : schema -> Prop :=
| tidy_intro s : NoDup (map word s) ->
    (forall ps, In (KProps ps) s -> NoDup (map fst ps)) ->
    (forall ps p sub, In (KProps ps) s -> In (p, sub) ps -> tidy sub) -> tidy s.
(** The schema of the property under a path *)
Inductive property : schema -> list pystr -> schema -> Prop :=
| property_here s ps p sub : In (KProps ps) s -> In (p, sub) ps -> property s [p] sub
| property_deeper s ps p sub q sub' : In (KProps ps) s -> In (p, sub) ps -> property sub q sub' -> property s (p :: q) sub'.
(** A switch is on: by its keyword, if not null, otherwise by the parameter *)
Definition means_true (v : json) : Prop := ~ In v [JNull; JBool false; JNum 0; JStr []; JList []; JDict []].
Definition on (switch : json -> kw) (parameter : bool) (sub : schema) : Prop :=
  (exists v, In (switch v) sub /\ means_true v) \/ ((forall v, In (switch v) sub -> v = JNull) /\ parameter = true).
(** A property whose nulls are removed, while its absence is filled *)
Definition fickle (auto_default auto_default_nulls auto_remove_nulls : bool) (sub : schema) : Prop :=
  (exists w, In (KDefault w) sub) /\ (forall ts, In (KType ts) sub -> ~ In TNull ts) /\
  on KAutoDefault auto_default sub /\ ~ on KAutoDefaultNull auto_default_nulls sub /\ on KAutoRemoveNull auto_remove_nulls sub.

Definition last_error (es : list verr) : option verr := match rev es with [] => None | e :: _ => Some e end.
Definition is_gave_up (e : verr) : bool := match e with GaveUp _ => true | _ => false end.

(** Equality of JSON atoms: booleans are not numbers *)
Definition is_atom (v : json) : bool := match v with JList _ | JDict _ => false | _ => true end.

(** The routes from a schema to what has no properties *)
Inductive leaf : pschema -> list pystr -> Prop :=
| leaf_here forks : leaf (PSchema forks []) []
| leaf_fork forks props s route : In s forks -> leaf s route -> leaf (PSchema forks props) route
| leaf_prop forks props p s route : In (p, s) props -> leaf s route -> leaf (PSchema forks props) (p :: route).
