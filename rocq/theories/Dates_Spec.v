(** * What the serial numbers of dates mean *)
From Coq Require Import QArith.
From Verif Require Import PyBase Coords_Model Capture_Model Sheets_Model ReadRect_Model.
Open Scope Z_scope.

(** ** The calendar *)

Definition leap_year (y : Z) : bool :=
  if y mod 400 =? 0 then true else if y mod 100 =? 0 then false else y mod 4 =? 0.
Definition month_length (y m : Z) : Z :=
  if m =? 2 then (if leap_year y then 29 else 28)
  else if (m =? 4) || (m =? 6) || (m =? 9) || (m =? 11) then 30 else 31.
Definition next_day (d : Z * Z * Z) : Z * Z * Z :=
  let '(y, m, d) := d in
  if d <? month_length y m then (y, m, d + 1) else if m <? 12 then (y, m + 1, 1) else (y + 1, 1, 1).

(** [b] is [n] days after [a]. *)
Inductive days_after : nat -> Z * Z * Z -> Z * Z * Z -> Prop :=
| SameDay : forall a, days_after 0 a a
| NextDay : forall n a b, days_after n a b -> days_after (S n) a (next_day b).

(** The time [ms] milliseconds after midnight *)
Definition time_of_day (ms : Z) (t : Z * Z * Z * Z) : Prop :=
  let '(h, m, s, us) := t in
  0 <= h < 24 /\ 0 <= m < 60 /\ 0 <= s < 60 /\ 0 <= us < 1000000 /\
  ms * 1000 = ((h * 60 + m) * 60 + s) * 1000000 + us.

(** ** Excel *)

(** A day is a day of 1900 and after, as Excel counts them: it believes in a 29th of
    February 1900, as day 60, which is no date. *)
Inductive excel_day : Z -> Z * Z * Z -> Prop :=
| Before60 : forall n d, (n < 60)%nat -> days_after n (1899, 12, 31) d -> excel_day (Z.of_nat n) d
| After60 : forall n d, days_after n (1900, 3, 1) d -> excel_day (61 + Z.of_nat n) d.
(** Days from 1904 *)
Inductive mac_day : Z -> Z * Z * Z -> Prop :=
| From1904 : forall n d, days_after n (1904, 1, 1) d -> mac_day (Z.of_nat n) d.

(** [n] is a whole number nearest to [q]. *)
Definition nearest (q : Q) (n : Z) : Prop := (2 * (inject_Z n - q) <= 1)%Q /\ (-(1) <= 2 * (inject_Z n - q))%Q.

(** The milliseconds of a serial number *)
Definition serial_ms (x : Q) (n : Z) : Prop := nearest (x * inject_Z 86400000) n.

(** The moment [n] milliseconds from the first day, by a count of days *)
Definition moment (day : Z -> Z * Z * Z -> Prop) (n : Z) (d : datetime) : Prop :=
  day (n / 86400000) (d_date d) /\ time_of_day (n mod 86400000) (d_time d).

(** What a serial number means: times on the first day, and dates on the others. *)
Definition meant (day : Z -> Z * Z * Z -> Prop) (x : Q) (v : xvalue) : Prop :=
  exists n, serial_ms x n /\ 0 <= n /\
    ((n / 86400000 = 0 /\ exists t, v = VTime t /\ time_of_day n t) \/
     (0 < n / 86400000 /\ exists d, v = VDatetime d /\ moment day n d)).
