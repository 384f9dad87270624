(** * Tables in models: model of [_clone_and_merge_submodels] and [_merge],
      [/repo/pandalone/pandata.py] lines 879-932 and 948-952, with pandas objects

    [Pandel_Model] and [Share_Model] leave out the two branches of pandas
    (lines 882-896); here they are, over the semantics of pandas 0.24 (the
    version of [Df_Model]), which is not in the repository:
    - a [DataFrame] is a handle on a manager, and [pd.DataFrame(df)] is another
      handle on the same manager: managers live in a heap, and handles are
      their addresses;
    - setting a column of a frame with rows writes into its manager; one
      without rows is first re-indexed, and that makes another manager;
    - series are never written into, so they are values.

    Simplified: labels of rows are integers and those of columns and of series
    are texts, all distinct; cells are integers or missing (no dtypes).
    Dictionaries and lists are values: merging does not write into them (C103).
    What [pd.DataFrame] and [pd.Series] make of other things is left open. *)
From Coq Require Import String.
From Verif Require Import PyBase Json.

(** ** What is used of pandas *)

(** The contents of a manager: the labels of rows, and the columns in order.
    [None] are missing values. *)
Record table := Table { t_rows : list Z; t_cols : list (pystr * list (option Z)) }.
Definition no_table : table := Table [] [].
Definition series := list (pystr * option Z).

Definition heap := list table.
Definition load (h : heap) (m : nat) : table := nth m h no_table.
Fixpoint store (m : nat) (t : table) (h : heap) : heap :=
  match h, m with
  | [], _ => []
  | _ :: h', O => t :: h'
  | x :: h', S m' => x :: store m' t h'
  end.
Definition alloc (t : table) (h : heap) : heap * nat := (h ++ [t], length h).

(** The value of a column in the row of some label *)
Fixpoint look (r : Z) (rows : list Z) (col : list (option Z)) : option Z :=
  match rows, col with
  | x :: rows', v :: col' => if (x =? r)%Z then v else look r rows' col'
  | _, _ => None
  end.
(** [Series.reindex(rows')] *)
Definition reindexed (rows' rows : list Z) (col : list (option Z)) : list (option Z) :=
  map (fun r => look r rows col) rows'.

(** [np.where(isna(that), this, that)] *)
Fixpoint overlaid (this that : list (option Z)) : list (option Z) :=
  match this, that with
  | x :: this', y :: that' => (match y with Some _ => y | None => x end) :: overlaid this' that'
  | _, _ => []
  end.
(** [a.update(b)] on the contents: [b] is re-indexed like [a]; columns and rows
    that only [b] has are left out. *)
Definition updated (a b : table) : table :=
  Table (t_rows a)
    (map (fun kc => (fst kc,
            match sget (fst kc) (t_cols b) with
            | Some bcol => overlaid (snd kc) (reindexed (t_rows a) (t_rows b) bcol)
            | None => snd kc
            end)) (t_cols a)).

(** [a[k] = b[k]]: the handle may get to another manager. *)
Definition set_column (h : heap) (m : nat) (k : pystr) (brows : list Z) (bcol : list (option Z)) : heap * nat :=
  let a := load h m in
  match t_rows a with
  | [] => alloc (Table brows (sset k bcol (map (fun kc => (fst kc, map (fun _ => None) brows)) (t_cols a)))) h
  | rows => (store m (Table rows (sset k (reindexed rows brows bcol) (t_cols a))) h, m)
  end.
(** [a[ks] = b[ks]] *)
Fixpoint set_columns (h : heap) (m : nat) (ks : list pystr) (b : table) : heap * nat :=
  match ks with
  | [] => (h, m)
  | k :: ks' =>
      match sget k (t_cols b) with
      | Some bcol => let '(h, m) := set_column h m k (t_rows b) bcol in set_columns h m ks' b
      | None => set_columns h m ks' b
      end
  end.

Definition at_label (k : pystr) (s : series) : option Z :=
  match sget k s with Some v => v | None => None end.

(** ** Values *)
Inductive value :=
| VNull
| VBool (b : bool)
| VNum (z : Z)
| VStr (s : pystr)
| VSeries (s : series)
| VFrame (m : nat)
| VList (l : list value)
| VDict (d : list (pystr * value)).

Definition is_frame (v : value) : bool := match v with VFrame _ => true | _ => false end.
Definition is_series (v : value) : bool := match v with VSeries _ => true | _ => false end.
Definition is_dict (v : value) : bool := match v with VDict _ => true | _ => false end.
Definition is_list (v : value) : bool := match v with VList _ => true | _ => false end.

Section Merging.
(** [pd.DataFrame(v)] and [pd.Series(v)] for what is neither *)
Variable frame_of : value -> res table.
Variable series_of : value -> res series.
(** The order of [list(set(...))] *)
Variable set_order : list pystr -> list pystr.
(** The labels of [Index.union] *)
Variable union : list pystr -> list pystr -> list pystr.

(** pandata.py:883 (and 884): [pd.DataFrame() if a is None else pd.DataFrame(a)] *)
Definition to_frame (h : heap) (v : value) : heap * res nat :=
  match v with
  | VNull => let '(h, m) := alloc no_table h in (h, Ok m)
  | VFrame m => (h, Ok m)
  | _ => match frame_of v with
         | Ok t => let '(h, m) := alloc t h in (h, Ok m)
         | Raise e => (h, Raise e)
         end
  end.
(** pandata.py:882-888 *)
Definition merge_frames (h : heap) (a b : value) : heap * res value :=
  match to_frame h a with
  | (h, Raise e) => (h, Raise e)
  | (h, Ok ma) =>
      match to_frame h b with
      | (h, Raise e) => (h, Raise e)
      | (h, Ok mb) =>
          let tb := load h mb in
          let h := store ma (updated (load h ma) tb) h in
          let extra := set_order (List.filter (fun k => negb (smem k (t_cols (load h ma)))) (map fst (t_cols tb))) in
          let '(h, m) := set_columns h ma extra tb in
          (h, Ok (VFrame m))
      end
  end.

(** pandata.py:891-892 *)
Definition to_series (v : value) : res series :=
  match v with
  | VNull => Ok []
  | VSeries s => Ok s
  | _ => series_of v
  end.
(** pandata.py:890-895 *)
Definition merge_series (a b : value) : res value :=
  do a <- to_series a;
  do b <- to_series b;
  Ok (VSeries (map (fun k => (k, match at_label k b with Some v => Some v | None => at_label k a end))
                 (union (map fst b) (map fst a)))).

(** pandata.py:879-932 with [b = None] *)
Fixpoint clone (h : heap) (a : value) : heap * res value :=
  match a with
  | VFrame _ => merge_frames h a VNull
  | VSeries _ => (h, merge_series a VNull)
  | VDict d => (h, Ok (VDict d))
  | VList l =>
      let '(h, r) :=
        (fix elems (l : list value) (h : heap) : heap * res (list value) :=
           match l with
           | [] => (h, Ok [])
           | x :: l' =>
               match clone h x with
               | (h, Ok y) =>
                   match elems l' h with
                   | (h, Ok r) => (h, Ok (y :: r))
                   | (h, Raise e) => (h, Raise e)
                   end
               | (h, Raise e) => (h, Raise e)
               end
           end) l h in
      (h, do l <- r; Ok (VList l))
  | VNull => (h, Raise ValidationError)
  | VBool _ | VNum _ | VStr _ => (h, Ok a)
  end.
Fixpoint clones (h : heap) (l : list value) : heap * res (list value) :=
  match l with
  | [] => (h, Ok [])
  | x :: l' =>
      match clone h x with
      | (h, Ok y) =>
          match clones h l' with
          | (h, Ok r) => (h, Ok (y :: r))
          | (h, Raise e) => (h, Raise e)
          end
      | (h, Raise e) => (h, Raise e)
      end
  end.

(** [for item in val] (line 919) *)
Definition items_of (v : value) : res (list value) :=
  match v with
  | VList l => Ok l
  | VStr s => Ok (map (fun c => VStr [c]) s)
  | _ => Raise TypeError
  end.

(** pandata.py:898 (and 899): [{} if a is None else {**a}] *)
Definition to_dict (v : value) : res (list (pystr * value)) :=
  match v with
  | VNull => Ok []
  | VDict d => Ok d
  | _ => Raise TypeError
  end.

(** pandata.py:879-932 [_clone_and_merge_submodels] *)
Fixpoint merge (h : heap) (a b : value) : heap * res value :=
  if is_frame a || is_frame b then merge_frames h a b
  else if is_series a || is_series b then (h, merge_series a b)
  else if is_dict a || is_dict b then
    match to_dict a with
    | Raise e => (h, Raise e)
    | Ok da =>
        match b with
        | VNull => (h, Ok (VDict da))
        | VDict db =>
            let '(h, r) :=
              (fix keys (db : list (pystr * value)) (h : heap) (da : list (pystr * value)) : heap * res (list (pystr * value)) :=
                 match db with
                 | [] => (h, Ok da)
                 | (k, bv) :: db' =>
                     match sget k da with
                     | Some av =>
                         match merge h av bv with
                         | (h, Ok v) => keys db' h (sset k v da)
                         | (h, Raise e) => (h, Raise e)
                         end
                     | None => keys db' h (sset k bv da)
                     end
                 end) db h da in
            (h, do d <- r; Ok (VDict d))
        | _ => (h, Raise TypeError)
        end
    end
  else if is_list a || is_list b then
    match items_of (match b with VNull => a | _ => b end) with
    | Raise e => (h, Raise e)
    | Ok l => let '(h, r) := clones h l in (h, do l <- r; Ok (VList l))
    end
  else
    (h, match a, b with
        | VNull, VNull => Raise ValidationError
        | _, VNull => Ok a
        | _, _ => Ok b
        end).

(** pandata.py:948-952 [_merge] *)
Fixpoint merge_all (h : heap) (model : value) (mdls : list value) : heap * value * option exn :=
  match mdls with
  | [] => (h, model, None)
  | m :: mdls' =>
      match merge h model m with
      | (h, Ok model) => merge_all h model mdls'
      | (h, Raise e) => (h, model, Some e)
      end
  end.
End Merging.
