(** * Chart: _cli/solar_chart.py, up to matplotlib

    The model keeps what is drawn: which curves, of which instants, with which labels.  Figures, colours, ticks, the filled
    patch between the two solstice curves and the placing of the texts are not modelled. *)

From Coq Require Import ZArith QArith List Bool Arith String.
From Verif Require Import Num Arrays Libspa Time Core Usecases Sunpos Calendar Cli Tools.
Import ListNotations.
Open Scope list_scope.

Section Chart.
  Context {F : Type} {O : Ops F}.
  Import NumNotations. Open Scope num_scope.

  (** solar_chart.py:26-27: the arrays of azimuths and altitudes. *)
  Record curve := { cv_azimuth : list F; cv_altitude : list F }.

  (** [a.isel(location=0).to_numpy()] of a (time, location) array with [n] times. *)
  Fixpoint column (a : darray F) (k n : nat) : res (list F) :=
    match n with
    | S n => match da_at a (fun d => match d with DTime => k | _ => 0%nat end) with
             | Some x => do r <- column a (S k) n; Ok (x :: r)
             | None => Raise IndexError
             end
    | _ => Ok []
    end.

  (** solar_chart.py:24-27 [SolarPosition.__call__]; [sunwhere.sites] with its defaults (usecases.py:13-14). *)
  Definition sunpath (latitude longitude : F) (times : times_arg) : res curve :=
    do sw <- sites true times (Scalar latitude) (Scalar longitude) "psa" RTrue "numexpr";
    let n := List.length (sp_times_utc sw) in
    do az <- column (saa sw) 0 n;
    do al <- column (elevation sw) 0 n;
    Ok {| cv_azimuth := az; cv_altitude := al |}.

  (** solar_chart.py:18-22 [SolarPosition.__init__] and 38-45 [SolarChart.__init__]: the checks. *)
  Definition chart_init (latitude longitude : F) : res unit :=
    do _ <- guard (($(-90) <. latitude) && (latitude <. $90)) AssertionError;
    do _ <- guard (($(-180) <=. longitude) && (longitude <=. $180)) AssertionError;
    do _ <- guard (($(-90) <=. latitude) && (latitude <=. $90)) AssertionError;
    guard (($(-180) <=. longitude) && (longitude <. $180)) AssertionError.

  Section Zone.
  (** [self.timezone] resolved: a zoneinfo object (pandas>=3). *)
  Variable z : zone.

  (** solar_chart.py:72-79 [_date_range]: readings [start + i*step], localized with ambiguous='NaT',
      nonexistent='NaT', and the NaTs dropped; as (reading, offset). *)
  Definition local_range (start : Z) (n : nat) (step : Z) : list (Z * Z) :=
    flat_map (fun i => let w := (start + Z.of_nat i * step)%Z in
                       match candidates z w with [u] => [(w, (w - u)%Z)] | _ => [] end) (seq 0 n).

  (** What is passed to [sunpath]: the index itself, [.tz_convert('UTC')], [.tz_localize(None)]. *)
  Definition as_local (l : list (Z * Z)) : times_arg := TAware false (NoZoneAttr z) (map Some l).
  Definition as_utc (l : list (Z * Z)) : times_arg := TAware false (NoZoneAttr utc_zone) (map (fun '(w, o) => Some ((w - o)%Z, 0%Z)) l).
  Definition as_naive (l : list (Z * Z)) : times_arg := TNaive false (map (fun '(w, o) => Some w) l).

  (** [pd.Timestamp(text)] of a date: nanoseconds of its midnight. *)
  Definition midnight (year month day : Z) : Z := (date_to_days year month day * NS_PER_DAY)%Z.
  Definition MINUTE : Z := (60 * NS_PER_S)%Z.
  (** Timestamp.year and Timestamp.is_leap_year of a reading. *)
  Definition year_of (w : Z) : Z := let '(y, _, _) := civil_of_seconds (floor_s w) in y.
  Definition days_of_year (y : Z) : nat := if np_is_leapyear y then 366 else 365.

  (** pandas' reading of 'a/b/year' (month first; day first if that is impossible). *)
  Definition days_in (y m : Z) : Z := nth (Z.to_nat (m - 1)) (np_days_per_month y) 0%Z.
  Definition parse_slashes (a b year : Z) : res Z :=
    let '(month, day) := (if (a <=? 12)%Z then (a, b) else (b, a)) in
    if ((1 <=? month) && (month <=? 12) && (1 <=? day) && (day <=? days_in year month))%Z
    then Ok (midnight year month day) else Raise ValueError.

  (** What is drawn. *)
  Inductive drawn :=
  | Solstice (c : curve)                          (* 21 Jun *)
  | Equinox (c : curve)                           (* 21 Dec *)
  | HourLine (hour minute : Z) (c : curve)        (* the analemma drawn for a label hour:minute *)
  | HourLabel (hour minute : Z) (azimuth altitude : F)
  | DayPath (day month : Z) (c : curve)           (* labelled day/month *)
  | UserPath (c : curve) | UserAnalemma (c : curve) | UserPoint (c : curve).

  Variables (latitude longitude : F).
  Notation path := (sunpath latitude longitude).

  (** A loop that draws. *)
  Fixpoint each {A} (f : A -> res (list drawn)) (l : list A) : res (list drawn) :=
    match l with
    | [] => Ok []
    | a :: l => do x <- f a; do r <- each f l; Ok (x ++ r)
    end.

  (** solar_chart.py:146-168: one hour line and its label. *)
  Definition draw_hour (year : Z) (hm : Z * Z) : res (list drawn) :=
    let '(ho, mn) := hm in
    let start := (midnight year 1 1 + (60 * ho + mn) * MINUTE)%Z in
    do line <- path (as_naive (local_range start (days_of_year year) NS_PER_DAY));
    let w := (midnight year 6 21 + (60 * ho + mn) * MINUTE)%Z in
    do u <- tz_localize_raise z w;
    do p <- path (as_local [(w, (w - u)%Z)]);
    match cv_azimuth p, cv_altitude p with
    | [az], [al] => Ok (HourLine ho mn line :: if al >=. $0 then [HourLabel ho mn az al] else [])
    | _, _ => Raise ValueError
    end.

  (** solar_chart.py:177-181: one day. *)
  Definition draw_day (year : Z) (dm : Z * Z) : res (list drawn) :=
    let '(day, month) := dm in
    do start <- parse_slashes day month year;
    do c <- path (as_local (local_range start 288 (5 * MINUTE)));
    Ok [DayPath day month c].

  (** [x or default] of a list argument. *)
  Definition or_default (x : option (list Z)) (d : list Z) : list Z := match x with Some (a :: l) => a :: l | _ => d end.
  Definition add_day (l : list (Z * Z)) (d : Z * Z) : list (Z * Z) :=
    if existsb (fun x => (fst x =? fst d) && (snd x =? snd d))%Z l then l else l ++ [d].

  (** solar_chart.py:91-208 [draw_solar_grid] at the reading [w] (the user's, or the machine's clock now). *)
  Definition draw_solar_grid (w : Z) (days months hours minutes : option (list Z)) (include_solstice include_equinox : bool) : res (list drawn) :=
    do _ <- tz_localize_raise z w;
    let year := year_of w in
    do a <- (if include_solstice then do c <- path (as_utc (local_range (midnight year 6 21) 720 (2 * MINUTE))); Ok [Solstice c] else Ok []);
    do b <- (if include_equinox then do c <- path (as_utc (local_range (midnight year 12 21) 720 (2 * MINUTE))); Ok [Equinox c] else Ok []);
    let hms := list_prod (or_default hours (map Z.of_nat (seq 0 24))) (or_default minutes [0%Z]) in
    do c <- each (draw_hour year) hms;
    let dms := list_prod (or_default days [15%Z]) (or_default months [1; 2; 3; 4; 5; 7; 8; 9; 10; 11]%Z) in
    do d <- each (draw_day year) (add_day (add_day dms (21, 6)%Z) (21, 12)%Z);
    Ok (a ++ b ++ c ++ d).

  (** The argument [user_datetime]: None, or a text read as a reading, with a UTC offset or without. *)
  Inductive user_time := NoTime | UserText (wall : Z) (offset : option Z).

  (** [Timestamp.tz_convert('UTC').replace(month=1, day=1)] (solar_chart.py:316). *)
  Definition jan1_same_clock (u : Z) : Z := (midnight (year_of u) 1 1 + u mod NS_PER_DAY)%Z.

  (** solar_chart.py:304-327 [draw_solar_path].  pd.Timestamp(None) is NaT, its fields are nan and 'nan/nan/nan' is
      not a date; localizing an aware timestamp is a TypeError. *)
  Definition draw_solar_path (user_datetime : user_time) : res (list drawn) :=
    match user_datetime with
    | NoTime => Raise ValueError
    | UserText _ (Some _) => Raise TypeError
    | UserText w None =>
        do u <- tz_localize_raise z w;
        do day <- path (as_local (local_range (w - w mod NS_PER_DAY) 288 (5 * MINUTE)));
        do line <- path (as_naive (local_range (jan1_same_clock u) (days_of_year (year_of w)) NS_PER_DAY));
        do p <- path (as_utc [(w, (w - u)%Z)]);
        Ok [UserPath day; UserAnalemma line; UserPoint p]
    end.

  (** solar_chart.py:335-343 [make_solar_chart]; [now] is the current instant, [machine] the computer's time zone. *)
  Definition make_solar_chart (now : Z) (machine : zone) (user_datetime : user_time) : res (list drawn) :=
    do _ <- chart_init latitude longitude;
    do g <- (match user_datetime with
             | NoTime => draw_solar_grid (now + z_offset machine now) None None None None true true
             | UserText _ (Some _) => Raise TypeError
             | UserText w None => draw_solar_grid w None None None None true true
             end);
    do p <- draw_solar_path user_datetime;
    Ok (g ++ p).
  End Zone.
End Chart.
Arguments curve F : clear implicits.
Arguments drawn F : clear implicits.
