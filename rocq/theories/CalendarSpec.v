(** * CalendarSpec: the proleptic Gregorian calendar, as a user knows it *)

From Coq Require Import ZArith List Bool Reals.
Import ListNotations.
Open Scope Z_scope.

(** Leap years. *)
Definition leap (y : Z) : bool := ((y mod 4 =? 0) && negb (y mod 100 =? 0)) || (y mod 400 =? 0).
Definition year_length (y : Z) : Z := if leap y then 366 else 365.
Definition month_length (y m : Z) : Z :=
  if m =? 2 then (if leap y then 29 else 28)
  else if (m =? 4) || (m =? 6) || (m =? 9) || (m =? 11) then 30 else 31.
Definition valid_date (y m d : Z) : Prop := 1 <= m <= 12 /\ 1 <= d <= month_length y m.

(** [calendar day_number]: a numbering of the dates by consecutive integers with 1 January 1970 = 0. *)
Record calendar (day_number : Z -> Z -> Z -> Z) : Prop := {
  cal_epoch : day_number 1970 1 1 = 0;
  cal_day : forall y m d, day_number y m (d + 1) = day_number y m d + 1;
  cal_month : forall y m, 1 <= m < 12 -> day_number y (m + 1) 1 = day_number y m (month_length y m) + 1;
  cal_year : forall y, day_number (y + 1) 1 1 = day_number y 12 31 + 1 }.

(** Seconds since 1970 of a date and time of day. *)
Definition second_number (day_number : Z -> Z -> Z -> Z) (y m d hour minute second : Z) : Z :=
  86400 * day_number y m d + 3600 * hour + 60 * minute + second.

(** Days (with fraction) since the start of the year, counting the first day as 1. *)
Open Scope R_scope.
Definition year_day (day_number : Z -> Z -> Z -> Z) (y : Z) (s : Z) : R := IZR (s - 86400 * day_number y 1%Z 1%Z) / 86400 + 1.

(** The Fourier series of the iqbal algorithm (declination in radians, equation of time in minutes). *)
Definition iqbal_dec (a : R) : R :=
  0.006918 - 0.399912 * cos a + 0.070257 * sin a - 0.006758 * cos (2 * a) + 0.000907 * sin (2 * a) - 0.002697 * cos (3 * a) + 0.001480 * sin (3 * a).
Definition iqbal_eot (a : R) : R :=
  0.00986571 + 0.58688718 * cos a - 7.34538133 * sin a - 3.31493999 * cos (2 * a) - 9.35366541 * sin (2 * a)
  - 0.08151750 * cos (3 * a) - 0.30892409 * sin (3 * a) - 0.13532889 * cos (4 * a) - 0.17336220 * sin (4 * a).
Definition iqbal_ecf (a : R) : R :=
  1.00012825 + 0.0333572253 * cos a + 0.00199417932 * sin a + 0.000697434604 * cos (2 * a) + 0.000114828177 * sin (2 * a)
  + 0.0000174028675 * cos (3 * a) + 0.0000113778023 * sin (3 * a).
