(** * Cell coordinates: model of [/repo/pandalone/xleash/_capture.py] lines 53-358 *)
From Coq Require Import String.
From Verif Require Import PyBase.

(** What may stand as an "uncooked" coordinate: text, as the parser gives it, or
    an int or [None], as the docstrings of the functions show. *)
Inductive coord :=
| CStr (s : pystr)
| CInt (z : Z)
| CNone.

(** _parse.py:25-41 [Cell] without [brow] and [bcol], that nothing reads. *)
Record cell := Cell { c_row : coord; c_col : coord }.

(** xleash/__init__.py:848 [Coords], as (row, col). *)
Notation coords := (Z * Z)%type (only parsing).

(** _capture.py:41 [_special_coord_symbols] *)
Definition is_special (s : pystr) : bool :=
  str_eqb s (lit "^") || str_eqb s (lit "_") || str_eqb s (lit ".").

(** Third-party [xlrd.colname] (xlrd/formula.py), imported at _capture.py:26:
    <<
    def colname(colx):
        alphabet = "ABCDEFGHIJKLMNOPQRSTUVWXYZ"
        if colx <= 25: return alphabet[colx]
        xdiv26, xmod26 = divmod(colx, 26)
        return colname(xdiv26 - 1) + alphabet[xmod26]
    >>
    Its argument is not negative here; [N.size_nat] bounds the recursion. *)
Fixpoint colname_fuel (fuel : nat) (n : N) (acc : pystr) : pystr :=
  let acc' := (65 + n mod 26)%N :: acc in
  match fuel with
  | O => acc'
  | S f => if (n <=? 25)%N then acc' else colname_fuel f (n / 26 - 1) acc'
  end.
Definition colname (n : N) : pystr := colname_fuel (N.size_nat n) n [].

(** _capture.py:53-78 [coords2Cell], one coordinate.  A number of a special
    symbol is printed as is. *)
Definition row_name (row : coord) : res coord :=
  match row with
  | CStr s => if is_special s then Ok (CStr s) else Raise TypeError
  | CInt z => if (0 <=? z)%Z then Ok (CStr (str_of_Z (z + 1))) else Raise AssertionError
  | CNone => Raise TypeError
  end.
Definition col_name (col : coord) : res coord :=
  match col with
  | CStr s => if is_special s then Ok (CStr s) else Raise TypeError
  | CInt z => if (0 <=? z)%Z then Ok (CStr (colname (Z.to_N z))) else Raise AssertionError
  | CNone => Raise TypeError
  end.
Definition coords2Cell (row col : coord) : res cell :=
  do r <- row_name row; do c <- col_name col; Ok (Cell r c).

(** [int(coord)] *)
Definition int_of (c : coord) : res Z :=
  match c with
  | CStr s => match py_int s with Some z => Ok z | None => Raise ValueError end
  | CInt z => Ok z
  | CNone => Raise TypeError
  end.

(** _capture.py:107-113 and 164-170 *)
Definition zero_based (z : Z) : res Z :=
  if (z =? 0)%Z then Raise ValueError
  else if (0 <? z)%Z then Ok (z - 1)%Z else Ok z.

(** _capture.py:81-115 [_row2num] *)
Definition row2num (c : coord) : res Z := do z <- int_of c; zero_based z.

(** _capture.py:158-162, the loop over the letters; [ascii_uppercase.rindex] of
    one upper-cased character. *)
Fixpoint letters2num (acc : Z) (s : pystr) : res Z :=
  match s with
  | [] => Ok acc
  | c :: s' =>
      let u := up c in
      if is_upper u then letters2num (acc * 26 + (Z.of_N u - 65) + 1) s'
      else Raise ValueError
  end.

(** _capture.py:118-172 [_col2num] *)
Definition col2num (c : coord) : res Z :=
  match int_of c with
  | Ok z => zero_based z
  | Raise ValueError =>
      match c with
      | CStr s => do n <- letters2num 0 s; Ok (n - 1)%Z
      | _ => Raise TypeError
      end
  | Raise e => Raise e
  end.

(** _capture.py:175-280 [_resolve_coord]; all exceptions are turned into
    ValueErrors. *)
Definition resolve_coord (cfunc : coord -> res Z) (c : coord)
           (up_coord dn_coord : Z) (base : option Z) : res Z :=
  match (match c with
         | CStr s =>
             if is_special s then
               if str_eqb s (lit "^") then Ok up_coord
               else if str_eqb s (lit "_") then Ok dn_coord
               else match base with Some b => Ok b | None => Raise KeyError end
             else do r <- cfunc c; Ok (if (r <? 0)%Z then dn_coord + r + 1 else r)%Z
         | _ => do r <- cfunc c; Ok (if (r <? 0)%Z then dn_coord + r + 1 else r)%Z
         end) with
  | Ok r => Ok r
  | Raise _ => Raise ValueError
  end.

(** _capture.py:283-358 [_resolve_cell] *)
Definition resolve_cell (c : cell) (up_coords dn_coords : coords) (base : option coords) : res coords :=
  match (do r <- resolve_coord row2num (c_row c) (fst up_coords) (fst dn_coords) (option_map fst base);
         do k <- resolve_coord col2num (c_col c) (snd up_coords) (snd dn_coords) (option_map snd base);
         Ok (r, k)) with
  | Ok rc => Ok rc
  | Raise _ => Raise ValueError
  end.
