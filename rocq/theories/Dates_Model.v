(** * Dates of Excel cells: the serial numbers of xlrd, as
      [/repo/pandalone/xleash/io/_xlrd.py] reads them (lines 94-105, 123-155).

    [xlrd.xldate.xldate_as_datetime] and [datetime] of Python are modelled from their
    sources; floats are fractions here, so that nothing is lost by computing with them,
    and years beyond 9999 are not an error. *)
From Coq Require Import String QArith Qround.
From Verif Require Import PyBase Coords_Model Capture_Model Sheets_Model ReadRect_Model.
Open Scope Z_scope.

(** ** [datetime] of Python *)

(** [_is_leap] *)
Definition py_leap (y : Z) : bool := (y mod 4 =? 0) && (negb (y mod 100 =? 0) || (y mod 400 =? 0)).
(** [_DAYS_IN_MONTH], [_DAYS_BEFORE_MONTH], counting months from 0 *)
Definition days_in : list Z := [31; 28; 31; 30; 31; 30; 31; 31; 30; 31; 30; 31].
Definition days_before : list Z := [0; 31; 59; 90; 120; 151; 181; 212; 243; 273; 304; 334].
Definition month_nth (l : list Z) (m : Z) : Z := nth (Z.to_nat (m - 1)) l 0.

(** [_ymd2ord] *)
Definition ymd2ord (y m d : Z) : Z :=
  let y1 := y - 1 in
  y1 * 365 + y1 / 4 - y1 / 100 + y1 / 400
  + (month_nth days_before m + (if (2 <? m) && py_leap y then 1 else 0)) + d.

(** [_ord2ymd] *)
Definition ord2ymd (n : Z) : Z * Z * Z :=
  let n := n - 1 in
  let n400 := n / 146097 in let n := n mod 146097 in
  let year := n400 * 400 + 1 in
  let n100 := n / 36524 in let n := n mod 36524 in
  let n4 := n / 1461 in let n := n mod 1461 in
  let n1 := n / 365 in let n := n mod 365 in
  let year := year + n100 * 100 + n4 * 4 + n1 in
  if (n1 =? 4) || (n100 =? 4) then (year - 1, 12, 31)
  else
    let leapyear := (n1 =? 3) && (negb (n4 =? 24) || (n100 =? 3)) in
    let month := (n + 50) / 32 in
    let preceding := month_nth days_before month + (if (2 <? month) && leapyear then 1 else 0) in
    let '(month, preceding) :=
      if n <? preceding
      then (month - 1, preceding - (month_nth days_in (month - 1) + (if (month - 1 =? 2) && leapyear then 1 else 0)))
      else (month, preceding) in
    (year, month, n - preceding + 1).

(** A midnight plus [timedelta(days, seconds, 0, milliseconds)] *)
Definition add_delta (epoch days seconds milliseconds : Z) : datetime :=
  let days := epoch + days + seconds / 86400 in
  let seconds := seconds mod 86400 in
  let rem := seconds mod 3600 in
  Datetime (ord2ymd days) (seconds / 3600, rem / 60, rem mod 60, milliseconds * 1000).

(** ** [xlrd.xldate] *)

(** [round(x)]: ties go to the even one. *)
Definition py_round (q : Q) : Z :=
  let lo := Qfloor q in
  let twice := (inject_Z 2 * (q - inject_Z lo))%Q in
  if Qeq_bool twice 1 then (if Z.even lo then lo else lo + 1)
  else if Qle_bool twice 1 then lo else lo + 1.

(** [xldate_as_datetime] *)
Definition xldate_as_datetime (xldate : Q) (datemode : bool) : datetime :=
  let epoch := if datemode then ymd2ord 1904 1 1
               else if Qle_bool 60 xldate then ymd2ord 1899 12 30 else ymd2ord 1899 12 31 in
  let days := q_trunc xldate in
  let fraction := (xldate - inject_Z days)%Q in
  let seconds := py_round (fraction * inject_Z 86400000)%Q in
  add_delta epoch days (seconds / 1000) (seconds mod 1000).

(** ** Books *)

(** The sheets of a book, and whether its dates count from 1904 *)
Record xbook := XBook { xb_names : list pystr; xb_sheet : nat -> xsheet; xb_1904 : bool }.

(** _xlrd.py:145-155: the wrapped sheet and [_epoch1904] *)
Record wrapped := Wrapped { w_sheet : xsheet; w_epoch1904 : bool }.

(** _xlrd.py:123-142: the wrapper is made without [epoch1904]. *)
Definition open_sheet_of (b : xbook) (sheet_id : sid) : res wrapped :=
  do i <- open_by_name_or_index (xb_names b) sheet_id;
  Ok (Wrapped (xb_sheet b i) false).

(** _xlrd.py:188-212 *)
Definition wrapped_read_rect (w : wrapped) (st : coords) (nd : option coords) : res xreading :=
  xlrd_read_rect xldate_as_datetime (w_epoch1904 w) (w_sheet w) st nd.
