(** * Redimensioning: model of [/repo/pandalone/xleash/_filter.py] lines 48-195

    Values are nested lists of cells.  Cells are integers (that fit a machine
    word), texts, booleans, empty cells and dicts; there are no floats or dates. *)
From Coq Require Import String.
From Verif Require Import PyBase Json.

(** A numpy array: its shape, and its elements in row-major order. *)
Record ndarray := ND { nd_shape : list nat; nd_data : list json }.
Definition nd_ndim (a : ndarray) : nat := length (nd_shape a).
Definition size (s : list nat) : nat := fold_right Nat.mul 1%nat s.

(** [np.asarray] (third-party): the shape of nested lists, [None] when they are
    ragged ... *)
Definition shape_eqb (s t : list nat) : bool := if list_eq_dec Nat.eq_dec s t then true else false.
Fixpoint shape_of (j : json) : option (list nat) :=
  match j with
  | JList l =>
      match map shape_of l with
      | [] => Some [0%nat]
      | Some s :: ss =>
          if forallb (fun x => match x with Some t => shape_eqb s t | None => false end) ss
          then Some (length l :: s) else None
      | None :: _ => None
      end
  | _ => Some []
  end.
Fixpoint cells_of (j : json) : list json :=
  match j with JList l => flat_map cells_of l | _ => [j] end.
(** ... and its common type: with an empty cell or a dict they are objects, left
    as they are; otherwise texts win over numbers, and numbers over booleans. *)
Definition is_object (j : json) : bool := match j with JNull | JDict _ => true | _ => false end.
Definition is_text (j : json) : bool := match j with JStr _ => true | _ => false end.
Definition is_int (j : json) : bool := match j with JNum _ => true | _ => false end.
Definition as_text (j : json) : json :=
  match j with
  | JNum z => JStr (str_of_Z z)
  | JBool b => JStr (if b then lit "True" else lit "False")
  | _ => j
  end.
Definition as_int (j : json) : json := match j with JBool b => JNum (if b then 1 else 0) | _ => j end.
Definition promote (cells : list json) : list json :=
  if existsb is_object cells then cells
  else if existsb is_text cells then map as_text cells
  else if existsb is_int cells then map as_int cells
  else cells.
(** Ragged lists are rejected (numpy 1.24 and later). *)
Definition asarray (j : json) : res ndarray :=
  match shape_of j with
  | Some s => Ok (ND s (promote (cells_of j)))
  | None => Raise ValueError
  end.

(** [ndarray.tolist()] (third-party) *)
Fixpoint chunks (n k : nat) (l : list json) : list (list json) :=
  match n with O => [] | S n' => firstn k l :: chunks n' k (skipn k l) end.
Fixpoint nested (s : list nat) (l : list json) : json :=
  match s with
  | [] => hd JNull l
  | n :: s' => JList (map (nested s') (chunks n (size s') l))
  end.
Definition tolist (a : ndarray) : json := nested (nd_shape a) (nd_data a).

(** [ndarray.T] (third-party): the axes are reversed. *)
Fixpoint indices (s : list nat) : list (list nat) :=
  match s with
  | [] => [[]]
  | n :: s' => flat_map (fun i => map (cons i) (indices s')) (seq 0 n)
  end.
Fixpoint offset (s idx : list nat) : nat :=
  match s, idx with
  | _ :: s', i :: idx' => (i * size s' + offset s' idx')%nat
  | _, _ => O
  end.
Definition transpose (a : ndarray) : ndarray :=
  ND (rev (nd_shape a)) (map (fun idx => nth (offset (nd_shape a) (rev idx)) (nd_data a) JNull) (indices (rev (nd_shape a)))).

(** [ndarray.squeeze] (third-party), of all trivial axes or of one; an error for
    a non-trivial or missing axis. *)
Definition squeeze_all (a : ndarray) : ndarray := ND (filter (fun d => negb (d =? 1)%nat) (nd_shape a)) (nd_data a).
Definition squeeze (i : nat) (a : ndarray) : res ndarray :=
  match nth_error (nd_shape a) i with
  | Some d => if (d =? 1)%nat then Ok (ND (firstn i (nd_shape a) ++ skipn (S i) (nd_shape a)) (nd_data a)) else Raise ValueError
  | None => Raise IndexError
  end.

(** _filter.py:89-97 [_updim] *)
Definition updim (a : ndarray) (new_ndim : nat) : ndarray :=
  ND (repeat 1%nat (new_ndim - nd_ndim a) ++ nd_shape a) (nd_data a).

(** _filter.py:99-118 [_downdim]; [offset] may exceed the number of axes, when
    negative dimensions are asked. *)
Fixpoint trivial_from (i : nat) (s : list nat) : list nat :=
  match s with [] => [] | d :: s' => if (d =? 1)%nat then i :: trivial_from (S i) s' else trivial_from (S i) s' end.
Fixpoint squeeze_each (idxs : list nat) (a : ndarray) : res ndarray :=
  match idxs with [] => Ok a | i :: idxs' => do a' <- squeeze i a; squeeze_each idxs' a' end.
Definition downdim (a : ndarray) (new_ndim : Z) : res ndarray :=
  let trivial_indxs := trivial_from 0 (nd_shape a) in
  let offset := (Z.of_nat (nd_ndim a) - new_ndim)%Z in
  let trivial_ndims := Z.of_nat (length trivial_indxs) in
  if (offset >? trivial_ndims)%Z then Ok (ND [length (nd_data a)] (nd_data a))
  else if (offset =? trivial_ndims)%Z then Ok (squeeze_all a)
  else squeeze_each (firstn (Z.to_nat offset) trivial_indxs) a.

(** _filter.py:121-174 [_redim], where dimensions are given as an int, or as an
    (int or null) and whether to transpose. *)
Inductive dimspec := DInt (n : Z) | DPair (n : option Z) (transposed : bool).
Definition redim (values : json) (new_ndim : option dimspec) : res json :=
  match new_ndim with
  | None => Ok values
  | Some d =>
      do a <- asarray values;
      let '(n, a) := match d with DInt n => (Some n, a) | DPair n t => (n, if t then transpose a else a) end in
      do a <- match n with
              | None => Ok a
              | Some n =>
                  if (Z.of_nat (nd_ndim a) <? n)%Z then Ok (updim a (Z.to_nat n))
                  else if (Z.of_nat (nd_ndim a) >? n)%Z then downdim a n
                  else Ok a
              end;
      Ok (tolist a)
  end.

(** _filter.py:48-82 [_classify_rect_shape] *)
Definition classify_rect_shape (st : Z * Z) (nd : option (Z * Z)) : nat :=
  match nd with
  | None => 0
  | Some nd =>
      let rows := (fst nd - fst st)%Z in
      let cols := (snd nd - snd st)%Z in
      1 + (if (cols =? 0)%Z then 0 else 1) + 2 * (if (rows =? 0)%Z then 0 else 1)
  end%nat.

(** _filter.py:182-195 [redim_filter]: the new values of the lasso; [st] is not
    looked at when there is no [nd]. *)
Definition redim_filter (st : Z * Z) (nd : option (Z * Z)) (values : json)
  (scalar cell row col table : option dimspec) : res json :=
  let ndims_list := [scalar; cell; row; col; table] in
  match nth_error ndims_list (classify_rect_shape st nd) with
  | None => Raise IndexError
  | Some None => Ok values
  | Some (Some d) => redim values (Some d)
  end.
