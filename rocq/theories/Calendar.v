(** * Calendar: datetime64 unit casts used by libspa/*_iqbal.py *)

From Coq Require Import ZArith List Bool.
Import ListNotations.
Open Scope Z_scope.

(** The iqbal modules obtain the calendar fields with casts between datetime64
    units (py_iqbal.py:108-115).  The casts are NumPy's; the model follows
    NumPy's C routines [days_to_yearsdays] and [set_datetimestruct_days]
    (numpy/core/src/multiarray/datetime.c), with C's truncating [/] and [%] on the non-negative operands
    and the explicit correction for negative ones. *)

Definition days_per_400years : Z := 400 * 365 + 100 - 4 + 1.

(** [days_to_yearsdays]: (year, day of year starting at 0) of a day number
    (days since 1970-01-01). *)
Definition days_to_yearsdays (days0 : Z) : Z * Z :=
  let days := days0 - (365 * 30 + 7) in
  let year := 400 * (days / days_per_400years) in   (* floor division: the C code's two sign cases *)
  let days := days mod days_per_400years in
  let '(year, days) :=
    if 366 <=? days then
      let year := year + 100 * ((days - 1) / (100 * 365 + 25 - 1)) in
      let days := (days - 1) mod (100 * 365 + 25 - 1) in
      if 365 <=? days then
        let year := year + 4 * ((days + 1) / (4 * 365 + 1)) in
        let days := (days + 1) mod (4 * 365 + 1) in
        if 366 <=? days then
          (year + (days - 1) / 365, (days - 1) mod 365)
        else (year, days)
      else (year, days)
    else (year, days) in
  (year + 2000, days).

(** NumPy's [is_leapyear]. *)
Definition np_is_leapyear (year : Z) : bool :=
  ((year mod 4) =? 0) && (negb ((year mod 100) =? 0) || ((year mod 400) =? 0)).

(** NumPy's [_days_per_month_table]. *)
Definition np_days_per_month (year : Z) : list Z :=
  [31; if np_is_leapyear year then 29 else 28; 31; 30; 31; 30; 31; 31; 30; 31; 30; 31].

(** The month loop of [set_datetimestruct_days]: (month 1.., day 1..). *)
Fixpoint month_loop (table : list Z) (month days : Z) : Z * Z :=
  match table with
  | [] => (month, days + 1)                          (* not reached: days < year length *)
  | n :: rest => if days <? n then (month, days + 1) else month_loop rest (month + 1) (days - n)
  end.

(** [times.astype('M8[Y]')], ['M8[M]'] and ['M8[D]'] of an instant in seconds,
    as (year, month, day). *)
Definition civil_of_seconds (s : Z) : Z * Z * Z :=
  let D := s / 86400 in
  let '(y, yd) := days_to_yearsdays D in
  let '(m, d) := month_loop (np_days_per_month y) 1 yd in
  (y, m, d).

(** py_iqbal.py:113-115 (= ne_iqbal.py:117-119): hour, minute and second;
    [times - D], [times - h], [times - m] are non-negative. *)
Definition hour_of (s : Z) : Z := (s - (s / 86400) * 86400) / 3600.
Definition minute_of (s : Z) : Z := (s - (s / 3600) * 3600) / 60.
Definition second_of (s : Z) : Z := s - (s / 60) * 60.

(** py_iqbal.py:62-66 (= ne_iqbal.py:63-67): day of year in [day_angle]. *)
Definition FIRST_DAY_OF_MONTH : list Z :=
  [0; 31; 59; 90; 120; 151; 181; 212; 243; 273; 304; 334; 365].
Definition bisextile (year : Z) : bool :=
  ((year mod 4 =? 0) && negb (year mod 100 =? 0)) || (year mod 400 =? 0).
Definition day_of_year (year month day : Z) : Z :=
  let doy := day + nth (Z.to_nat (month - 1)) FIRST_DAY_OF_MONTH 0 in
  if bisextile year && (2 <? month) then doy + 1 else doy.
