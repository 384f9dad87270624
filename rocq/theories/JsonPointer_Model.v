(** * JSON pointers: model of [/repo/pandalone/pandata.py] lines 1047-1323 *)
From Verif Require Import PyBase Json.

Definition tilde : pychar := 126%N.
Definition slash : pychar := 47%N.

(** pandata.py:1047-1048 [escape_jsonpointer_part] *)
Definition escape_part (part : pystr) : pystr :=
  replace1 slash [126; 49]%N (replace1 tilde [126; 48]%N part).

(** pandata.py:1051-1052 [unescape_jsonpointer_part] *)
Definition unescape_part (part : pystr) : pystr :=
  replace2 126%N 48%N [126]%N (replace2 126%N 49%N [47]%N part).

(** pandata.py:1055-1107 [iter_jsonpointer_parts].  The generator raises on its
    first [next()], hence before yielding anything: a list or an exception. *)
Definition iter_parts (jsonpath : pystr) : res (list pystr) :=
  match split_on slash jsonpath with
  | [] => Raise IndexError  (* [parts.pop(0)] of an empty list; never happens *)
  | first :: parts =>
      if str_eqb first [] then Ok (map unescape_part parts)
      else Raise RefResolutionError
  end.

(** pandata.py:1110-1138 [iter_jsonpointer_parts_relaxed] *)
Definition iter_parts_relaxed (jsonpointer : pystr) : list pystr :=
  map unescape_part (split_on slash jsonpointer).

(** The key after [int()] conversion attempts: still a string, or an index. *)
Inductive pkey := KStr (s : pystr) | KInt (z : Z).

(** [doc[part]] on JSON values, pandata.py:1184, 1296. *)
Definition getitem (doc : json) (k : pkey) : res json :=
  match doc, k with
  | JDict d, KStr s => match sget s d with Some v => Ok v | None => Raise KeyError end
  | JDict d, KInt _ => Raise KeyError  (* JSON dicts have only string keys *)
  | JList l, KInt z =>
      match list_getitem l z with Some v => Ok v | None => Raise IndexError end
  | JList _, KStr _ => Raise TypeError
  | JStr s, KInt z =>
      match list_getitem s z with Some c => Ok (JStr [c]) | None => Raise IndexError end
  | JStr _, KStr _ => Raise TypeError
  | (JNull | JBool _ | JNum _), _ => Raise TypeError
  end.

(** [except (TypeError, LookupError)]: KeyError and IndexError are LookupErrors. *)
Definition is_type_or_lookup (e : exn) : bool :=
  match e with TypeError | KeyError | IndexError => true | _ => false end.
Definition is_lookup (e : exn) : bool :=
  match e with KeyError | IndexError => true | _ => false end.

(** pandata.py:1144-1193 [resolve_jsonpointer]; [default = None] stands for the
    [_scream] marker. *)
Fixpoint resolve_loop (doc : json) (parts : list pystr) (default : option json) : res json :=
  match parts with
  | [] => Ok doc
  | part :: parts' =>
      let k := if is_sequence doc
               then match py_int part with Some z => KInt z | None => KStr part end
               else KStr part in
      match getitem doc k with
      | Ok doc' => resolve_loop doc' parts' default
      | Raise e =>
          if is_type_or_lookup e then
            match default with
            | None => Raise RefResolutionError
            | Some d => Ok d
            end
          else Raise e
      end
  end.

Definition resolve_jsonpointer (doc : json) (jsonpointer : pystr) (default : option json)
  : res json :=
  do parts <- iter_parts jsonpointer; resolve_loop doc parts default.

(** pandata.py:1311-1315: the branch for the parts that did not exist. *)
Definition build_branch (parts : list pystr) (value : json) : json :=
  fold_right (fun part2 nbranch => JDict [(part2, nbranch)]) value parts.

(** [doc[part] = v] *)
Definition setitem (doc : json) (k : pkey) (v : json) : res json :=
  match doc, k with
  | JDict d, KStr s => Ok (JDict (sset s v d))
  | JList l, KInt z =>
      match list_setitem l z v with
      | Some l' => Ok (JList l')
      | None => Raise IndexError
      end
  | _, _ => Raise TypeError
  end.

(** pandata.py:1318-1323: [doc[part] = v], and [doc.append(v)] on IndexError. *)
Definition setitem_or_append (doc : json) (k : pkey) (v : json) : res json :=
  match setitem doc k v with
  | Raise IndexError => match doc with
                        | JList l => Ok (JList (l ++ [v]))
                        | _ => Raise AttributeError
                        end
  | r => r
  end.

(** pandata.py:1275-1294: the index conversion inside the loop. *)
Definition set_key (doc : json) (part : pystr) : res pkey :=
  match doc with
  | JList l =>
      if str_eqb part [45%N] then Ok (KInt (Z.of_nat (length l)))
      else match py_int part with
           | None => Raise RefResolutionError
           | Some z => if (Z.of_nat (length l) <? z)%Z then Raise RefResolutionError
                       else Ok (KInt z)
           end
  | _ => Ok (KStr part)
  end.

(** References into the mutable document: the Python variables [doc] and
    [pdoc] point at nodes of the document given by the caller; as documents
    are trees, a node is identified by the keys leading to it. *)
Definition ref := list pkey.

Fixpoint deref (root : json) (r : ref) : res json :=
  match r with
  | [] => Ok root
  | k :: r' => do c <- getitem root k; deref c r'
  end.

(** Replacing in place the content of the node at [r]. *)
Fixpoint put (root : json) (r : ref) (v : json) : res json :=
  match r with
  | [] => Ok v
  | k :: r' => do c <- getitem root k; do c' <- put c r' v; setitem root k c'
  end.

(** Mutation of the node at [r] by [f]: the new root and the exception raised,
    if any (the root is then as before). *)
Definition mutate (root : json) (r : ref) (f : json -> res json) : json * option exn :=
  match (do d <- deref root r; do d' <- f d; put root r d') with
  | Ok root' => (root', None)
  | Raise e => (root, Some e)
  end.

(** pandata.py:1274-1323 the loop over the parts, then the new branch and its
    attachment.  [doc] and [pdoc] (with its [ppart]) are references; the state
    is the whole document [root].  [pdoc = None] is the first iteration. *)
Fixpoint set_loop (root : json) (doc : ref) (pdoc : option (ref * pkey))
    (parts : list pystr) (value : json) : json * option exn :=
  match parts with
  | [] =>
      (* [for ... else]: [doc = pdoc]; [part] is still the last one.
         With no part at all, [i] of line 1312 is unbound. *)
      match pdoc with
      | None => (root, Some UnboundLocalError)
      | Some (pd, pk) => mutate root pd (fun d => setitem_or_append d pk value)
      end
  | part :: rest =>
      match deref root doc with
      | Raise e => (root, Some e)
      | Ok d =>
          match set_key d part with
          | Raise e => (root, Some e)
          | Ok k =>
              match getitem d k with
              | Ok _ => set_loop root (doc ++ [k]) (Some (doc, k)) rest value
              | Raise TypeError =>
                  match pdoc with
                  | None => (root, Some TypeError)  (* [None[None] = ndoc] *)
                  | Some (pd, pk) =>
                      match mutate root pd (fun d => setitem d pk (JDict [])) with
                      | (root', None) =>
                          mutate root' doc
                            (fun d => setitem_or_append d k (build_branch rest value))
                      | failed => failed
                      end
                  end
              | Raise e =>
                  if is_lookup e then
                    mutate root doc (fun d => setitem_or_append d k (build_branch rest value))
                  else (root, Some e)
              end
          end
      end
  end.

(** pandata.py:1259-1323 [set_jsonpointer] with the default [object_factory]:
    the content of [doc] afterwards, and the exception raised, if any. *)
Definition set_jsonpointer (doc : json) (jsonpointer : pystr) (value : json)
  : json * option exn :=
  match iter_parts jsonpointer with
  | Raise e => (doc, Some e)
  | Ok parts => set_loop doc [] None parts value
  end.

(** ** [resolve_path] *)

Section ResolvePath.
  (** [getattr(d, p)]; [None] stands for the AttributeError. *)
  Variable attr : json -> pystr -> option json.

  (** Truth value of a document. *)
  Definition truthy (j : json) : bool :=
    match j with
    | JNull => false
    | JBool b => b
    | JNum z => negb (z =? 0)%Z
    | JStr s => match s with [] => false | _ => true end
    | JList l => match l with [] => false | _ => true end
    | JDict d => match d with [] => false | _ => true end
    end.

  (** pandata.py:1232-1235 [resolve_root]; the closure reads the current value
      of the variable [doc] of the enclosing function. *)
  Definition resolve_root (root : option json) (doc : json) (p : pystr) : option json :=
    match p with
    | [] => match root with
            | Some r => if truthy r then Some r else Some doc
            | None => Some doc
            end
    | _ => None
    end.

  Definition opt_of_res {A} (r : res A) : option A :=
    match r with Ok a => Some a | Raise _ => None end.

  Definition first_some {A} (a b : option A) : option A :=
    match a with Some x => Some x | None => b end.

  (** pandata.py:1237-1250: the resolvers in turn; the first one
      ([d[int(p)]]) only for sequences. *)
  Definition resolve_step (root : option json) (doc : json) (p : pystr) : option json :=
    let by_index :=
      if is_sequence doc then
        match py_int p with
        | Some z => opt_of_res (getitem doc (KInt z))
        | None => None
        end
      else None in
    first_some by_index
      (first_some (opt_of_res (getitem doc (KStr p)))
         (first_some (attr doc p) (resolve_root root doc p))).

  (** pandata.py:1243-1256 *)
  Fixpoint resolve_path_loop (root : option json) (doc : json) (parts : list pystr)
      (default : option json) : res json :=
    match parts with
    | [] => Ok doc
    | part :: parts' =>
        match resolve_step root doc part with
        | Some doc' => resolve_path_loop root doc' parts' default
        | None => match default with
                  | None => Raise RefResolutionError
                  | Some d => Ok d
                  end
        end
    end.

  (** pandata.py:1196-1256 [resolve_path] *)
  Definition resolve_path (doc : json) (path : pystr) (default root : option json) : res json :=
    resolve_path_loop root doc (iter_parts_relaxed path) default.
End ResolvePath.

(** ** [build_all_jsonpaths] *)

(** The part of a json-schema that the function looks at.  Simplification: the
    alternatives under [oneOf], [anyOf] and [allOf] are one list, in the order
    in which they are visited; missing and empty [properties] are the same, as
    the code only tests their truth value. *)
Inductive schema := Schema (forks : list schema) (props : list (pystr * schema)).

(** pandata.py:1339-1351 [_visit]; returns what it appends to [paths]. *)
Fixpoint visit (s : schema) (path : pystr) : list pystr :=
  match s with
  | Schema forks props =>
      flat_map (fun obj => visit obj path) forks
      ++ match props with
         | [] => [path]
         | _ => flat_map (fun po => visit (snd po) (path ++ slash :: fst po)) props
         end
  end.

(** pandata.py:1335-1356 [build_all_jsonpaths] *)
Definition build_all_jsonpaths (s : schema) : list pystr := visit s [].
