(** * Lassoing the cells of files: what is meant *)
From Coq Require Import String QArith.
From Verif Require Import PyBase Coords_Model Coords_Spec Capture_Model Parse_Model Parse_Spec Sheets_Model ReadRect_Model ReadRect_Spec.
From Verif Require Import Dates_Model Dates_Spec OsPath_Model FileUrl_Spec.

(** The values of cells that are not blank *)
Inductive shows : xcell -> xvalue -> Prop :=
| Shows_int : forall x n, x_type x = XNumber -> (x_num x == inject_Z n)%Q -> shows x (VInt n)
| Shows_float : forall x, x_type x = XNumber -> (forall n, ~ (x_num x == inject_Z n)%Q) -> shows x (VFloat (x_num x))
| Shows_text : forall x, x_type x = XText -> shows x (VText (x_text x))
| Shows_false : forall x, x_type x = XBoolean -> (x_num x == 0)%Q -> shows x (VBool false)
| Shows_true : forall x, x_type x = XBoolean -> ~ (x_num x == 0)%Q -> shows x (VBool true)
| Shows_error : forall x, x_type x = XError -> shows x VNan
| Shows_date : forall x v, x_type x = XDate -> meant excel_day (x_num x) v -> shows x v.

(** Cells of a known type, and dates other than the 29th of February 1900 *)
Definition sound_cell (x : xcell) : Prop :=
  x_type x <> XOther /\
  (x_type x = XDate -> (0 <= x_num x)%Q /\
     ((x_num x * inject_Z 86400000 + 1 <= inject_Z (60 * 86400000))%Q \/ (61 <= x_num x)%Q)).
Definition sound_sheet (s : xsheet) : Prop :=
  (0 < xs_rows s)%nat /\ (0 < xs_cols s)%nat /\ forall r c, in_xsheet s r c -> sound_cell (xcell_at s r c).

(** How cells are written, in the two styles: their row and column count from 0. *)
Inductive corner : pystr -> coords -> Prop :=
| Corner_a1 : forall col row k r, letters col -> names k (upper col) ->
    number_text row -> py_int row = Some (r + 1)%Z -> (0 <= r)%Z -> corner (col ++ row) (r, Z.of_nat k)
| Corner_rc : forall rr cc row col r c, up rr = chr "R" -> up cc = chr "C" ->
    number_text row -> py_int row = Some (r + 1)%Z -> (0 <= r)%Z ->
    number_text col -> py_int col = Some (c + 1)%Z -> (0 <= c)%Z ->
    corner ([rr] ++ row ++ [cc] ++ col) (r, c).

(** Typographic double-quotes *)
Definition no_quotes (s : pystr) : Prop := ~ In 8220%N s /\ ~ In 8221%N s.
(** Sheet names without an exclamation mark, tab, line-end, typographic double-quote or leading space *)
Definition nameable (n : pystr) : Prop :=
  sheet_name n /\ no_quotes n /\ Forall (fun c => ~ In c [9; 10; 13]%N) n /\
  forall c r, n = c :: r -> is_space c = false.

Definition no_semicolon_end (p : pystr) : Prop := forall r, p <> r ++ lit ";".

(** Paths of workbooks that can be written in xl-refs; [word] are the word characters. *)
Definition book_path (word : N -> Prop) (cwd p : pystr) : Prop :=
  local_path p /\ no_quotes p /\ no_semicolon_end p /\ ~ of_folder p /\ ~ In 37%N p /\
  (length (abspath cwd p) <= 200)%nat /\ excel_name word (abspath cwd p).

(** Texts that are no xl-refs, or xl-refs of a local path *)
Definition local_ref (x : pystr) : Prop :=
  ~ In (chr "#") x \/
  exists u f, plain_quotes x (u ++ lit "#" ++ f) /\ local_path u /\ no_semicolon_end u.

(** The rectangle of two corners *)
Definition low (a b : coords) : coords := (Z.min (fst a) (fst b), Z.min (snd a) (snd b)).
Definition high (a b : coords) : coords := (Z.max (fst a) (fst b), Z.max (snd a) (snd b)).
