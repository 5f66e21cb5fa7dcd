(** * Cli: _cli/main.py and _cli/position.py (the command [sunwhere at]) *)

From Coq Require Import ZArith QArith Reals List Bool String.
From Flocq Require Import Core.Raux Core.Generic_fmt Core.Round_NE.
From Verif Require Import Num Arrays Libspa Time Core Usecases Sunpos Ext.
Import ListNotations.
Open Scope Z_scope.

(** Text as Unicode code points. *)
Definition text := list Z.

(** [str.casefold] of one character, up to what the parsers can observe (is it n, s, e or w?): ASCII
    upper case, and U+017F (long s), whose case folding is s.  No other character folds to one of the four. *)
Definition casefold1 (c : Z) : Z :=
  if (65 <=? c) && (c <=? 90) then c + 32 else if c =? 383 then 115 else c.

Section Parse.
  (** Python's [float(text)]; None is its ValueError. *)
  Variable pyfloat : text -> option ext.

  (** main.py:21-26 [parse_latitude]. *)
  Definition parse_latitude (lat_str : text) : res ext :=
    match rev lat_str with
    | [] => Raise IndexError
    | c :: r =>
        let hemisphere := casefold1 c in
        do _ <- guard ((hemisphere =? 110) || (hemisphere =? 115)) AssertionError;
        match pyfloat (rev r) with
        | None => Raise ValueError
        | Some x =>
            let latitude := e_mul (Fin (if hemisphere =? 110 then 1 else -1)) x in
            do _ <- guard (e_le (Fin (-90)) latitude && e_le latitude (Fin 90)) AssertionError;
            Ok latitude
        end
    end.

  (** main.py:29-34 [parse_longitude]. *)
  Definition parse_longitude (lon_str : text) : res ext :=
    match rev lon_str with
    | [] => Raise IndexError
    | c :: r =>
        let hemisphere := casefold1 c in
        do _ <- guard ((hemisphere =? 101) || (hemisphere =? 119)) AssertionError;
        match pyfloat (rev r) with
        | None => Raise ValueError
        | Some x =>
            let longitude := e_mul (Fin (if hemisphere =? 101 then 1 else -1)) x in
            do _ <- guard (e_le (Fin (-180)) longitude && e_lt longitude (Fin 180)) AssertionError;
            Ok longitude
        end
    end.
End Parse.

(** ** position.py *)

(** The TIME argument: 'now', or a text that pd.to_datetime parses as a wall-clock reading, with a UTC
    offset or without. *)
Inductive cli_time := CNow | CText (wall : Z) (offset : option Z).

(** [DatetimeIndex.tz_localize(timezone)] with the defaults ambiguous='raise', nonexistent='raise'
    (position.py:27), one reading. *)
Definition tz_localize_raise (z : zone) (w : Z) : res Z :=
  match candidates z w with
  | [] => Raise NonExistentTimeError
  | [u] => Ok u
  | _ => Raise AmbiguousTimeError
  end.

(** [f'{x:.nf}'] as an integer number of 10^-n (Python formats floats correctly rounded, ties to even). *)
Definition fixed (n : Z) (x : R) : Z := ZnearestE (x * IZR (10 ^ n)).

(** position.py:35-37, 60: the equation of time as whole minutes and tenths of a second. *)
Definition eot_min (eot : R) : Z := Ztrunc eot.
Definition eot_sec (eot : R) : Z := fixed 1 (60 * (Rabs eot - IZR (Zfloor (Rabs eot)))).

(** The table printed (position.py:41-61): numbers in 10^-4 units, times of day in seconds. *)
Record report := {
  rp_time : Z;                                      (* wall-clock reading shown as Date and Time *)
  rp_declination : Z; rp_distance : Z; rp_zenith : Z; rp_elevation : Z; rp_azimuth : Z;
  rp_sunrise_utc : Z; rp_sunset_utc : Z; rp_sunrise_local : Z; rp_sunset_local : Z;
  rp_eot : Z * Z }.

Section Position.
  Variables (E : Env) (nat_float : ext).

  (** [.isel(time=0, location=0).item()] of an array; indexing fails if there is no such element. *)
  Definition item {A} (a : darray A) : res A := match da_at a (fun _ => 0%nat) with Some x => Ok x | None => Raise IndexError end.
  (** Formatting a float ([int] and the [%] of position.py:36-37 would fail on NaN; a NaN prints as text, which
      the numeric report cannot show: it is not reachable for a valid time and numerical coordinates without refraction;
      modelled as a ValueError). *)
  Definition num (x : ext) : res R := match x with Fin r => Ok r | _ => Raise ValueError end.
  (** [f'{Timestamp:%H:%M:%S}']: strftime of NaT is a ValueError. *)
  Definition clock (t : option Z) : res Z := match t with Some n => Ok ((n / NS_PER_S) mod 86400) | None => Raise ValueError end.
  Definition instant (r : res (angle_or_time ext)) : res (option Z) :=
    do a <- r; match a with Instant a => item a | Angle _ => Raise TypeError end.

  (** position.py:15-61.  [now] is the current instant, [machine] the computer's time zone: [datetime.now()]
      is the machine's wall-clock reading.  The timezone name resolves to [z], a zoneinfo object (pandas>=3). *)
  Definition calculate_position (now : Z) (machine : zone) (time : cli_time) (lat lon : ext)
             (algorithm : string) (refraction : bool) (z : zone) : res report :=
    let wall := match time with CNow => now + z_offset machine now | CText w _ => w end in
    do u <- tz_localize_raise z wall;
    do sw <- sites (O := ExtOps E) true (TAware false (NoZoneAttr z) [Some (wall, wall - u)]) (Scalar lat) (Scalar lon)
               algorithm (if refraction then RTrue else RFalse) "numexpr";
    do sr_utc <- instant (sunrise (O := ExtOps E) nat_float sw "utc");
    do ss_utc <- instant (sunset (O := ExtOps E) nat_float sw "utc");
    do sr_local <- instant (sunrise (O := ExtOps E) nat_float sw "local");
    do ss_local <- instant (sunset (O := ExtOps E) nat_float sw "local");
    do e <- item (eot sw);
    do e <- num e;
    (* position.py:39: localizing an aware timestamp is a TypeError *)
    do _ <- guard (match time with CText _ (Some _) => false | _ => true end) TypeError;
    do d <- item (dec (O := ExtOps E) sw); do d <- num d;
    do f <- item (ecf sw); do f <- num f;
    do zen <- item (sza (O := ExtOps E) sw); do zen <- num zen;
    do el <- item (elevation (O := ExtOps E) sw); do el <- num el;
    do az <- item (saa (O := ExtOps E) sw); do az <- num az;
    do c1 <- clock sr_utc; do c2 <- clock ss_utc; do c3 <- clock sr_local; do c4 <- clock ss_local;
    Ok {| rp_time := wall; rp_declination := fixed 4 d; rp_distance := fixed 4 (1 / sqrt f);
          rp_zenith := fixed 4 zen; rp_elevation := fixed 4 el; rp_azimuth := fixed 4 az;
          rp_sunrise_utc := c1; rp_sunset_utc := c2; rp_sunrise_local := c3; rp_sunset_local := c4;
          rp_eot := (eot_min e, eot_sec e) |}.

  (** main.py:37-51 [at]: any exception becomes exit status 1. *)
  Definition at_command (now : Z) (machine : zone) (time : cli_time) (lat lon : ext)
             (algorithm : string) (refraction : bool) (z : zone) : res report :=
    match calculate_position now machine time lat lon algorithm refraction z with
    | Ok r => Ok r
    | Raise _ => Raise SystemExit1
    end.
End Position.
