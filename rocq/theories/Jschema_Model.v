(** * The schemas of steps: model of [Pstep._schema], [_schema_exists]
      ([/repo/pandalone/mappings.py] lines 1293-1309), of what cloning does with them
      (lines 877-886, 1069-1070) and of [JSchema] ([/repo/pandalone/pandata.py] lines 1358-1393) *)
From Coq Require Import String.
From Verif Require Import PyBase Json.

(** What an attribute may be: plain data, [_NONE], or the tuple [(_NONE,)] that the class has for
    each attribute (pandata.py:1376-1390: the commas make tuples). *)
Inductive aval := Plain (j : json) | Marker | Tupled.

Definition class_attrs : list pystr :=
  [lit "type"; lit "items"; lit "required"; lit "title"; lit "description"; lit "minimum"; lit "exclusiveMinimum";
   lit "maximum"; lit "exclusiveMaximum"; lit "patternProperties"; lit "pattern"; lit "enum"; lit "allOf"; lit "oneOf"; lit "anyOf"].

(** [vars(schema)] *)
Definition schema := list (pystr * aval).

(** [schema.k]: of the instance, else of the class *)
Definition getattr (s : schema) (k : pystr) : res aval :=
  match sget k s with
  | Some v => Ok v
  | None => if existsb (str_eqb k) class_attrs then Ok Tupled else Raise AttributeError
  end.
(** [schema.k = v]: any name *)
Definition setattr (s : schema) (k : pystr) (v : aval) : schema := sset k v s.
(** [del schema.k] *)
Definition delattr (s : schema) (k : pystr) : res schema :=
  if smem k s then Ok (sdel k s) else Raise AttributeError.
(** pandata.py:1392-1393 [todict] *)
Definition todict (s : schema) : list (pystr * aval) :=
  List.filter (fun kv => match snd kv with Marker => false | _ => true end) s.

(** The steps, each with the schema object in its [vars], if any; and those objects.  The rest of
    the steps is in [Pstep_Model]. *)
Record world := World { w_steps : list (option nat); w_schemas : list schema }.

Fixpoint set_nth {A} (i : nat) (x : A) (l : list A) : list A :=
  match l, i with
  | [], _ => []
  | _ :: l', O => x :: l'
  | y :: l', S i' => y :: set_nth i' x l'
  end.

(** mappings.py:1293-1305 [_schema]: made when first looked at *)
Definition schema_ref (w : world) (i : nat) : world * nat :=
  match nth i (w_steps w) None with
  | Some a => (w, a)
  | None => (World (set_nth i (Some (length (w_schemas w))) (w_steps w)) (w_schemas w ++ [[]]), length (w_schemas w))
  end.
(** mappings.py:1307-1309 *)
Definition schema_exists (w : world) (i : nat) : bool :=
  match nth i (w_steps w) None with Some _ => true | None => false end.

(** What is done with steps: a new one; a clone of one, as when a child is renamed, replaced or
    assigned (mappings.py:1069-1070: the [vars] are copied, but for children and tags not what is in
    them); its schema looked at; attributes of it set, removed, or copied from that of another. *)
Inductive deed :=
| Make
| Clone (i : nat)
| Look (i : nat)
| Set_ (i : nat) (k : pystr) (v : aval)
| Del_ (i : nat) (k : pystr)
| Copy (i : nat) (k : pystr) (j : nat) (k' : pystr).

Definition update (w : world) (a : nat) (s : schema) : world := World (w_steps w) (set_nth a s (w_schemas w)).
Definition schema_at (w : world) (a : nat) : schema := nth a (w_schemas w) [].

(** What raises has no effect but that the schemas looked at exist from then on. *)
Definition act (w : world) (d : deed) : world * res unit :=
  match d with
  | Make => (World (w_steps w ++ [None]) (w_schemas w), Ok tt)
  | Clone i => (World (w_steps w ++ [nth i (w_steps w) None]) (w_schemas w), Ok tt)
  | Look i => (fst (schema_ref w i), Ok tt)
  | Set_ i k v => let (w, a) := schema_ref w i in (update w a (setattr (schema_at w a) k v), Ok tt)
  | Del_ i k =>
      let (w, a) := schema_ref w i in
      match delattr (schema_at w a) k with
      | Ok s => (update w a s, Ok tt)
      | Raise e => (w, Raise e)
      end
  | Copy i k j k' =>
      let (w, b) := schema_ref w j in
      match getattr (schema_at w b) k' with
      | Ok v => let (w, a) := schema_ref w i in (update w a (setattr (schema_at w a) k v), Ok tt)
      | Raise e => (w, Raise e)
      end
  end.
Definition acts (w : world) (l : list deed) : world := fold_left (fun w d => fst (act w d)) l w.

(** [i._schema.todict()], at the end *)
Definition told (w : world) (i : nat) : list (pystr * aval) :=
  let (w', a) := schema_ref w i in todict (schema_at w' a).
