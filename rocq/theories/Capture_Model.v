(** * Targeting, expansion and capturing: model of
      [/repo/pandalone/xleash/_capture.py] lines 43-48 and 360-789 and of
      [margin_coords_from_states_matrix], [/repo/pandalone/xleash/io/backend.py] lines 254-298 *)
From Coq Require Import String.
From Verif Require Import PyBase Coords_Model ExpMoves_Model.
Open Scope Z_scope.

(** ** The part of numpy that is used *)

(** A 2-D array of bools: its shape and its elements. *)
Record mat := Mat { rows : nat; cols : nat; at_ : nat -> nat -> bool }.

(** For examples: an array from its rows. *)
Definition mat_of (l : list (list Z)) : mat :=
  Mat (length l) (length (hd [] l)) (fun r c => negb (nth c (nth r l []) 0 =? 0)).

(** An integer index of an axis of length [n]; [None] is an IndexError. *)
Definition np_index (n : nat) (z : Z) : option nat :=
  if 0 <=? z then (if z <? Z.of_nat n then Some (Z.to_nat z) else None)
  else if - Z.of_nat n <=? z then Some (Z.to_nat (Z.of_nat n + z)) else None.

(** The indices selected by [slice(a, b)] on an axis of length [n]. *)
Definition slice_pos (n : nat) (z : Z) : nat :=
  if z <? 0 then Z.to_nat (Z.max 0 (z + Z.of_nat n)) else Nat.min (Z.to_nat z) n.
Definition slice (n : nat) (a b : option Z) : list nat :=
  let lo := match a with None => O | Some z => slice_pos n z end in
  let hi := match b with None => n | Some z => slice_pos n z end in
  seq lo (hi - lo).

(** [states_matrix[r, c]] *)
Definition get (m : mat) (rc : coords) : res bool :=
  match np_index (rows m) (fst rc), np_index (cols m) (snd rc) with
  | Some r, Some c => Ok (at_ m r c)
  | _, _ => Raise IndexError
  end.

(** [states_matrix[a:b, c:d].any()] *)
Definition any_in (m : mat) (a b c d : Z) : bool :=
  existsb (fun r => existsb (at_ m r) (slice (cols m) (Some c) (Some d))) (slice (rows m) (Some a) (Some b)).

(** [v.nonzero()[0].min()], if any *)
Fixpoint first_true (v : list bool) : option nat :=
  match v with
  | [] => None
  | true :: _ => Some O
  | false :: v' => option_map S (first_true v')
  end.

(** [np.diff(v.astype(int)).nonzero()[0].min()], if any *)
Fixpoint first_change (v : list bool) : option nat :=
  match v with
  | a :: ((b :: _) as v') => if Bool.eqb a b then option_map S (first_change v') else Some O
  | _ => None
  end.

(** backend.py:254-298; [np.where] lists the indices of the full cells. *)
Definition where_full (m : mat) : list coords :=
  flat_map (fun r => map (fun c => (Z.of_nat r, Z.of_nat c)) (filter (at_ m r) (seq 0 (cols m))))
           (seq 0 (rows m)).
Definition minimum (l : list Z) : Z := match l with [] => 0 | x :: l' => fold_left Z.min l' x end.
Definition maximum (l : list Z) : Z := match l with [] => 0 | x :: l' => fold_left Z.max l' x end.
Definition margin_coords (m : mat) : coords * coords :=
  if existsb (fun r => existsb (at_ m r) (seq 0 (cols m))) (seq 0 (rows m)) then
    let indices := where_full m in
    ((minimum (map fst indices), minimum (map snd indices)),
     (maximum (map fst indices), maximum (map snd indices)))
  else ((0, 0), (0, 0)).

(** ** Targeting *)

Inductive dir := dL | dU | dR | dD.

(** _capture.py:43-48 [_primitive_dir_vectors] *)
Definition dir_vector (d : dir) : coords :=
  match d with dL => (0, -1) | dU => (-1, 0) | dR => (0, 1) | dD => (1, 0) end.

(** The letters of moves; other letters are KeyErrors in the dicts of lines
    43-48 and 361-367. *)
Definition dir_of (c : pychar) : res dir :=
  if (c =? chr "L")%N then Ok dL else if (c =? chr "U")%N then Ok dU
  else if (c =? chr "R")%N then Ok dR else if (c =? chr "D")%N then Ok dD
  else Raise KeyError.

(** _capture.py:361-377 [_mov_vector_slices] and [_extract_states_vector]. *)
Definition extract_states_vector (m : mat) (land : coords) (mov : dir) : res (list bool) :=
  let (r, c) := land in
  match mov with
  | dL => match np_index (rows m) r with
          | Some i => Ok (rev (map (at_ m i) (slice (cols m) None (Some (c + 1)))))
          | None => Raise IndexError
          end
  | dU => match np_index (cols m) c with
          | Some j => Ok (rev (map (fun i => at_ m i j) (slice (rows m) None (Some (r + 1)))))
          | None => Raise IndexError
          end
  | dR => match np_index (rows m) r with
          | Some i => Ok (map (at_ m i) (slice (cols m) (Some c) None))
          | None => Raise IndexError
          end
  | dD => match np_index (cols m) c with
          | Some j => Ok (map (fun i => at_ m i j) (slice (rows m) (Some r) None))
          | None => Raise IndexError
          end
  end.

(** [target[coord_indx] += is_reverse * n] *)
Definition shift (mov : dir) (target : coords) (n : Z) : coords :=
  let (r, c) := target in
  match mov with dL => (r, c - n) | dU => (r - n, c) | dR => (r, c + n) | dD => (r + n, c) end.

(** _capture.py:446-470: the loop of [_target_opposite]. *)
Fixpoint opposite_loop (fuel : nat) (m : mat) (target : coords) (mov1 : dir) (mov2 : option dir) : res coords :=
  match fuel with
  | O => Raise OutOfFuel
  | S f =>
      if (0 <=? fst target) && (0 <=? snd target) then
        match extract_states_vector m target mov1 with
        | Raise _ => Raise EmptyCapture
        | Ok states_vect =>
            match first_true states_vect with
            | Some n => Ok (shift mov1 target (Z.of_nat n))
            | None =>
                match mov2 with
                | None => Raise EmptyCapture
                | Some d => opposite_loop f m (fst target + fst (dir_vector d), snd target + snd (dir_vector d)) mov1 mov2
                end
            end
        end
      else Raise EmptyCapture
  end.

Definition is_U (d : dir) : bool := match d with dU => true | _ => false end.
Definition is_L (d : dir) : bool := match d with dL => true | _ => false end.

(** _capture.py:380-473 [_target_opposite]; at least that many rounds are enough
    for the moves of the grammar.  No move at all is a StopIteration. *)
Definition target_opposite (m : mat) (dn land : coords) (moves : list dir) : res coords :=
  let r := if (fst dn <? fst land) && existsb is_U moves then fst dn else fst land in
  let c := if (snd dn <? snd land) && existsb is_L moves then snd dn else snd land in
  match moves with
  | [] => Raise (OtherError 1)
  | mov1 :: more =>
      opposite_loop (S (S (rows m + cols m + Z.to_nat r + Z.to_nat c))) m (r, c) mov1 (hd_error more)
  end.

(** _capture.py:476-496 [_target_same_vector]: how far to go. *)
Definition same_len (m : mat) (land : coords) (mov : dir) : res Z :=
  do states_vect <- extract_states_vector m land mov;
  if forallb (fun b => b) states_vect then Ok (Z.of_nat (length states_vect) - 1)
  else match first_change states_vect with
       | Some n => Ok (Z.of_nat n)
       | None => Raise ValueError
       end.

(** _capture.py:546-553: the loop of [_target_same]; every move starts on the
    landing cell and sets one coordinate. *)
Fixpoint same_loop (m : mat) (land target : coords) (moves : list dir) : res coords :=
  match moves with
  | [] => Ok target
  | mov :: moves' =>
      do n <- same_len m land mov;
      let new := shift mov land n in
      same_loop m land
        (match mov with dL | dR => (fst target, snd new) | dU | dD => (fst new, snd target) end) moves'
  end.

(** _capture.py:499-562 [_target_same] *)
Definition target_same (m : mat) (dn land : coords) (moves : list dir) : res coords :=
  if (fst land <=? fst dn) && (snd land <=? snd dn) then
    do b <- get m land;
    if b then same_loop m land land moves else Raise EmptyCapture
  else Raise EmptyCapture.

(** ** Rects *)

(** _capture.py:565-577 [_sort_rect] *)
Definition sort_rect (a b : coords) : coords * coords :=
  ((Z.min (fst a) (fst b), Z.min (snd a) (snd b)), (Z.max (fst a) (fst b), Z.max (snd a) (snd b))).

(** [[r1, r2, c1, c2]], _capture.py:642-645 *)
Record rect := Rect { r1 : Z; r2 : Z; c1 : Z; c2 : Z }.

(** _capture.py:628-640 and 650-656: one direction of one round. *)
Definition try_expand (m : mat) (d : dir) (x : rect) : rect :=
  match d with
  | dL => if any_in m (r1 x) (r2 x + 1) (c1 x - 1) (c1 x - 1 + 1) then Rect (r1 x) (r2 x) (c1 x - 1) (c2 x) else x
  | dR => if any_in m (r1 x) (r2 x + 1) (c2 x + 1) (c2 x + 1 + 1) then Rect (r1 x) (r2 x) (c1 x) (c2 x + 1) else x
  | dU => if any_in m (r1 x - 1) (r1 x - 1 + 1) (c1 x) (c2 x + 1) then Rect (r1 x - 1) (r2 x) (c1 x) (c2 x) else x
  | dD => if any_in m (r2 x + 1) (r2 x + 1 + 1) (c1 x) (c2 x + 1) then Rect (r1 x) (r2 x + 1) (c1 x) (c2 x) else x
  end.

Definition rect_eqb (x y : rect) : bool :=
  (r1 x =? r1 y) && (r2 x =? r2 y) && (c1 x =? c1 y) && (c2 x =? c2 y).

(** _capture.py:648-656: one round over the letters of a group. *)
Definition round (m : mat) (dirs : list dir) (x : rect) : rect :=
  fold_left (fun x d => try_expand m d x) dirs x.

(** _capture.py:647-658: the rounds of a group; [forever] tells [repeat(dirs)]
    from [repeat(dirs, n)], and then [n] is only fuel. *)
Fixpoint rounds (n : nat) (forever : bool) (m : mat) (dirs : list dir) (x : rect) : res rect :=
  match n with
  | O => if forever then Raise OutOfFuel else Ok x
  | S n' =>
      let x' := round m dirs x in
      if rect_eqb x' x then Ok x' else rounds n' forever m dirs x'
  end.

Definition expand_group (m : mat) (x : rect) (g : pystr * option Z) : res rect :=
  do dirs <- rmap dir_of (fst g);
  match snd g with
  | None => rounds (S (4 * rows m + 4 * cols m)) true m dirs x
  | Some n => rounds (Z.to_nat n) false m dirs x
  end.

Fixpoint expand_groups (m : mat) (x : rect) (gs : list (pystr * option Z)) : res rect :=
  match gs with
  | [] => Ok x
  | g :: gs' => do x' <- expand_group m x g; expand_groups m x' gs'
  end.

(** _capture.py:580-663 [_expand_rect] *)
Definition expand_rect (m : mat) (a b : coords) (exp_moves : pystr) : res (coords * coords) :=
  do gs <- parse_expansion_moves exp_moves;
  let (st, nd) := sort_rect a b in
  do x <- expand_groups m (Rect (fst st) (fst nd) (snd st) (snd nd)) gs;
  Ok ((r1 x, c1 x), (r2 x, c2 x)).

(** ** Capturing *)

(** _parse.py:65-92 [Edge] *)
Record edge := Edge { land : cell; mov : option pystr; mod_ : option pystr }.

Definition mod_is (e : edge) (s : string) : bool :=
  match mod_ e with Some t => str_eqb t (lit s) | None => false end.

(** [land == Cell(".", ".")] *)
Definition is_dot (c : coord) : bool := match c with CStr s => str_eqb s (lit ".") | _ => false end.
Definition is_dotdot (c : cell) : bool := is_dot (c_row c) && is_dot (c_col c).

(** [states_matrix[st]] with the IndexError caught. *)
Definition state_at (m : mat) (rc : coords) : bool :=
  match get m rc with Ok b => b | Raise _ => false end.

(** _capture.py:745-756: the 1st edge. *)
Definition capture_st (m : mat) (margins : coords * coords) (st_edge : edge) (base : option coords) : res coords :=
  let (up_margin, dn_margin) := margins in
  do st <- resolve_cell (land st_edge) up_margin dn_margin base;
  match mov st_edge with
  | None => Ok st
  | Some moves =>
      do dirs <- rmap dir_of moves;
      if state_at m st then
        if mod_is st_edge "+" then target_same m dn_margin st dirs else Ok st
      else target_opposite m dn_margin st dirs
  end.

(** _capture.py:758-779: the 2nd edge. *)
Definition capture_nd (m : mat) (margins : coords * coords) (nd_edge : edge) (st : coords) : res coords :=
  let (up_margin, dn_margin) := margins in
  do nd <- resolve_cell (land nd_edge) up_margin dn_margin (Some st);
  match mov nd_edge with
  | None => Ok nd
  | Some moves =>
      do dirs <- rmap dir_of moves;
      if state_at m nd then
        if mod_is nd_edge "+" || (is_dotdot (land nd_edge) && negb (mod_is nd_edge "?"))
        then target_same m dn_margin nd dirs else Ok nd
      else target_opposite m dn_margin nd dirs
  end.

(** _capture.py:666-789 [resolve_capture_rect] *)
Definition resolve_capture_rect (m : mat) (margins : coords * coords) (st_edge : edge)
    (nd_edge : option edge) (exp_moves : option pystr) (base : option coords)
    : res (coords * option coords) :=
  do st <- capture_st m margins st_edge base;
  do nd <- match nd_edge with
           | None => Ok None
           | Some e => do nd <- capture_nd m margins e st; Ok (Some nd)
           end;
  match exp_moves with
  | Some ((_ :: _) as em) =>
      do (a, b) <- expand_rect m st (match nd with Some x => x | None => st end) em; Ok (a, Some b)
  | _ =>
      match nd with
      | None => Ok (st, None)
      | Some x => let (a, b) := sort_rect st x in Ok (a, Some b)
      end
  end.
