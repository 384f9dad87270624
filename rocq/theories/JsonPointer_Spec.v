(** * What JSON pointers mean, independently of the code *)
From Verif Require Import PyBase Json.

(** One character of an escaped part (RFC 6901). *)
Definition esc_char (c : pychar) : pystr :=
  if (c =? 126)%N then [126; 48]%N else if (c =? 47)%N then [126; 49]%N else [c].

(** The pointer with the given parts: each preceded by a slash and escaped. *)
Definition pointer_of (parts : list pystr) : pystr :=
  flat_map (fun p => 47%N :: flat_map esc_char p) parts.

Definition container (j : json) : bool := match j with JList _ | JDict _ => true | _ => false end.

(** Nothing answers to the empty name in [doc]: neither a key nor an attribute. *)
Definition no_empty_name (attr : json -> pystr -> option json) (doc : json) : Prop :=
  attr doc [] = None /\ forall d, doc = JDict d -> sget [] d = None.

(** Reading an escaped part from left to right, one token at a time. *)
Inductive unescapes : pystr -> pystr -> Prop :=
| U_nil : unescapes [] []
| U_tilde : forall s t, unescapes s t -> unescapes (126 :: 48 :: s)%N (126 :: t)%N
| U_slash : forall s t, unescapes s t -> unescapes (126 :: 49 :: s)%N (47 :: t)%N
| U_char : forall c s t, unescapes s t ->
    (c = 126%N -> forall d s', s = d :: s' -> d <> 48%N /\ d <> 49%N) ->
    unescapes (c :: s) (c :: t).

(** The element of a Python list or string at an index: from the front when
    non-negative, from the back when negative. *)
Definition item_at {A} (l : list A) (z : Z) (v : A) : Prop :=
  ((0 <= z)%Z /\ nth_error l (Z.to_nat z) = Some v)
  \/ ((z < 0)%Z /\ nth_error (rev l) (Z.to_nat (- z - 1)) = Some v).

(** The element of a document reached by a list of (unescaped) parts. *)
Inductive reaches : json -> list pystr -> json -> Prop :=
| R_here : forall j, reaches j [] j
| R_key : forall d k c ps v, sget k d = Some c -> reaches c ps v -> reaches (JDict d) (k :: ps) v
| R_index : forall l p z c ps v, py_int p = Some z -> item_at l z c -> reaches c ps v ->
    reaches (JList l) (p :: ps) v
| R_char : forall s p z c ps v, py_int p = Some z -> item_at s z c -> reaches (JStr [c]) ps v ->
    reaches (JStr s) (p :: ps) v.

(** On its way, a pointer indexes lists only with non-negative numbers (neither
    with the append marker [-] nor from the end). *)
Inductive front_indexed : json -> list pystr -> Prop :=
| F_nil : forall j, front_indexed j []
| F_dict : forall d k ps, (forall c, sget k d = Some c -> front_indexed c ps) ->
    front_indexed (JDict d) (k :: ps)
| F_list : forall l p z ps, py_int p = Some z -> (0 <= z)%Z ->
    (forall c, nth_error l (Z.to_nat z) = Some c -> front_indexed c ps) ->
    front_indexed (JList l) (p :: ps)
| F_list_bad : forall l p ps, p <> [45%N] -> py_int p = None -> front_indexed (JList l) (p :: ps)
| F_other : forall j ps, (forall d, j <> JDict d) -> (forall l, j <> JList l) ->
    front_indexed j ps.

(** The slot of a list of [n] elements that a part designates for writing:
    [n] is the slot after the last element. *)
Inductive write_slot (n : nat) : pystr -> nat -> Prop :=
| W_dash : write_slot n [45%N] n
| W_front : forall p z, p <> [45%N] -> py_int p = Some z -> (0 <= z <= Z.of_nat n)%Z ->
    write_slot n p (Z.to_nat z)
| W_back : forall p z, p <> [45%N] -> py_int p = Some z -> (- Z.of_nat n <= z < 0)%Z ->
    write_slot n p (Z.to_nat (Z.of_nat n + z))
| W_beyond_back : forall p z, p <> [45%N] -> py_int p = Some z -> (z < - Z.of_nat n)%Z ->
    write_slot n p n.

(** Two pointers, one for writing and one for reading, part ways inside the
    document: at a dict with different keys, or at a list with different
    slots (the reading one either counts from the front, or the written slot
    already exists so that counting from the back is not shifted). *)
Inductive diverge : json -> list pystr -> list pystr -> Prop :=
| D_dict_ne : forall d k1 k2 ps qs, k1 <> k2 -> diverge (JDict d) (k1 :: ps) (k2 :: qs)
| D_dict_eq : forall d k c ps qs, sget k d = Some c -> diverge c ps qs ->
    diverge (JDict d) (k :: ps) (k :: qs)
| D_list_front : forall l p q i z ps qs, write_slot (length l) p i -> py_int q = Some z ->
    (0 <= z)%Z -> Z.to_nat z <> i -> diverge (JList l) (p :: ps) (q :: qs)
| D_list_back : forall l p q i z ps qs, write_slot (length l) p i -> (i < length l)%nat ->
    py_int q = Some z -> (- Z.of_nat (length l) <= z < 0)%Z ->
    Z.to_nat (Z.of_nat (length l) + z) <> i -> diverge (JList l) (p :: ps) (q :: qs)
| D_list_same : forall l p q i z c ps qs, write_slot (length l) p i -> py_int q = Some z ->
    item_at l z c -> (i < length l)%nat -> nth_error l i = Some c ->
    (z = Z.of_nat i \/ z = Z.of_nat i - Z.of_nat (length l))%Z ->
    diverge c ps qs -> diverge (JList l) (p :: ps) (q :: qs).

(** Writing meets a list with a part that designates no slot of it. *)
Inductive bad_index : json -> list pystr -> Prop :=
| B_here : forall l p ps, (forall i, ~ write_slot (length l) p i) -> bad_index (JList l) (p :: ps)
| B_dict : forall d k c ps, sget k d = Some c -> bad_index c ps -> bad_index (JDict d) (k :: ps)
| B_list : forall l p i c ps, write_slot (length l) p i -> nth_error l i = Some c ->
    bad_index c ps -> bad_index (JList l) (p :: ps).

(** The document after writing, described recursively: existing dicts and lists
    on the way are updated at one place, a scalar met on the way is replaced by
    a dict, and what is missing is created as nested dicts. *)
Fixpoint chain (ps : list pystr) (v : json) : json :=
  match ps with [] => v | p :: ps' => JDict [(p, chain ps' v)] end.

Inductive written : json -> list pystr -> json -> json -> Prop :=
| Wr_here : forall j v, written j [] v v
| Wr_key : forall d k c ps v c' d', sget k d = Some c -> written c ps v c' ->
    map fst d' = map fst d -> sget k d' = Some c' ->
    (forall k', k' <> k -> sget k' d' = sget k' d) ->
    written (JDict d) (k :: ps) v (JDict d')
| Wr_newkey : forall d k ps v, sget k d = None ->
    written (JDict d) (k :: ps) v (JDict (d ++ [(k, chain ps v)]))
| Wr_item : forall l1 c l2 p ps v c', write_slot (length (l1 ++ c :: l2)) p (length l1) ->
    written c ps v c' -> written (JList (l1 ++ c :: l2)) (p :: ps) v (JList (l1 ++ c' :: l2))
| Wr_append : forall l p ps v, write_slot (length l) p (length l) ->
    written (JList l) (p :: ps) v (JList (l ++ [chain ps v]))
| Wr_scalar : forall j p ps v, (forall d, j <> JDict d) -> (forall l, j <> JList l) ->
    written j (p :: ps) v (chain (p :: ps) v).

(** The leaves of a schema, as lists of property names. *)
Inductive schema_leaf {S : Type} (forks : S -> list S) (props : S -> list (pystr * S))
  : S -> list pystr -> Prop :=
| Leaf_here : forall s, props s = [] -> schema_leaf forks props s []
| Leaf_fork : forall s f ps, In f (forks s) -> schema_leaf forks props f ps ->
    schema_leaf forks props s ps
| Leaf_prop : forall s k c ps, In (k, c) (props s) -> schema_leaf forks props c ps ->
    schema_leaf forks props s (k :: ps).

(** The text of a path with the given names. *)
Fixpoint slashed (names : list pystr) : pystr :=
  match names with [] => [] | n :: ns => 47%N :: n ++ slashed ns end.
