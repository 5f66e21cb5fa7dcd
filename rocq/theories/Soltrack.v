(** * Soltrack: libspa/ne_soltrack.py and libspa/py_soltrack.py *)

From Coq Require Import ZArith QArith List.
From Verif Require Import Num.
Import ListNotations NumNotations.
Open Scope num_scope.

Section Soltrack.
  Context {F : Type} {O : Ops F}.

  (** Outputs of [time_dependent_calculations]. *)
  Record st_time := { st_agst : F; st_ra : F; st_dec : F; st_ecf : F; st_eot : F }.

  (** ** numexpr engine *)

  (** ne_soltrack.py:69-126. *)
  Definition ne_soltrack_time (unixtime : F) : st_time :=
    let tJD := unixtime / $86400 - $10957.5 in
    let tJC := tJD / $36525.0 in
    let tJC2 := tJC ** 2 in
    let l0 := $4.895063168 + $628.331966786 * tJC + $5.291838e-6 * tJC2 in
    let ma := $6.240060141 + $628.301955152 * tJC - $2.682571e-6 * tJC2 in
    let sec := ($3.34161088e-2 - $8.40725e-5 * tJC - $2.443e-7 * tJC2) * fsin ma
               + ($3.489437e-4 - $1.76278e-6 * tJC) * fsin ($2 * ma) in
    let omg := $2.1824390725 - $33.7570464271 * tJC + $3.622256e-5 * tJC2 in
    let dpsi := (- $8.338601e-5) * fsin omg in
    let ecc := $0.016708634 - $0.000042037 * tJC - $0.0000001267 * tJC2 in
    let R := $1.0000010178 * ($1.0 - ecc ** 2) / ($1.0 + ecc * fcos (ma + sec)) in
    let L := nemod ((l0 + sec) + ((- $9.93087e-5) / R) + dpsi) TWOPI in
    let obliquity := ($0.409092804222 - $2.26965525e-4 * tJC - $2.86e-9 * tJC2)
                     + ($4.4615e-5 * fcos omg) in
    let sin_L := fsin L in
    let cos_L := fcos L in
    let cos_o := fcos obliquity in
    let sin_o := fsin obliquity in
    let ra_uncorr := nemod (fatan2 (cos_o * sin_L) cos_L) TWOPI in
    let declination_uncorr := fasin (sin_o * sin_L) in
    let x_deg := (l0 - ra_uncorr + dpsi * cos_o) * RAD2DEG in
    let eot := (nemod ((- $0.0057183) + x_deg) $360) * $4 in
    let eot := where_ (eot <. (- $20.0)) (eot + $1440) eot in
    let eot := where_ (eot >. $20.0) (eot - $1440) eot in
    let ecf := $1 / R ** 2 in
    let gmst := $4.89496121 + $6.300388098985 * tJD + $6.77e-6 * tJC2 in
    let agst := gmst + dpsi * cos_o in
    {| st_agst := agst; st_ra := ra_uncorr; st_dec := declination_uncorr;
       st_ecf := ecf; st_eot := eot |}.

  (** ne_soltrack.py:129-161, one cell. *)
  Definition ne_soltrack_1d (with_refraction : bool) (t : st_time) (longitude latitude : F) : F * F :=
    let ha := st_agst t - st_ra t + longitude * DEG2RAD in
    let sin_ha := fsin ha in
    let cos_ha := fcos ha in
    let sin_dec := fsin (st_dec t) in
    let cos_dec := fcos (st_dec t) in
    let tan_dec := ftan (st_dec t) in
    let sin_lat := fsin (latitude * DEG2RAD) in
    let cos_lat := fcos (latitude * DEG2RAD) in
    let sin_alt := sin_lat * sin_dec + cos_lat * cos_dec * cos_ha in
    let azimuth := fatan2 sin_ha (cos_ha * sin_lat - tan_dec * cos_lat) in
    let alt_uncorr := fasin sin_alt in
    let alt := alt_uncorr - $4.2635e-5 * fcos alt_uncorr in
    let alt := if with_refraction
               then alt + ($2.967e-4 / ftan (alt + $3.1376e-3 / (alt + $8.92e-2)))
               else alt in
    let zenith := HALFPI - alt in
    (zenith, azimuth).

  (** ne_soltrack.py:164-196, one cell.
      Note [tan_dec = sin_dec / cos_dec] here, [tan] in 1d and 3d.  [longitude*DEG2RAD]
      is float32 * np.float64 scalar = float64 (NEP 50) *)
  Definition ne_soltrack_2d (with_refraction : bool) (t : st_time) (longitude latitude : F) : F * F :=
    let ha := st_agst t - st_ra t + longitude * DEG2RAD in
    let sin_ha := fsin ha in
    let cos_ha := fcos ha in
    let sin_dec := fsin (st_dec t) in
    let cos_dec := fcos (st_dec t) in
    let tan_dec := sin_dec / cos_dec in
    let sin_lat := fsin (latitude * DEG2RAD) in
    let cos_lat := fcos (latitude * DEG2RAD) in
    let sin_alt := sin_lat * sin_dec + cos_lat * cos_dec * cos_ha in
    let azimuth := fatan2 sin_ha (cos_ha * sin_lat - tan_dec * cos_lat) in
    let alt_uncorr := fasin sin_alt in
    let alt := alt_uncorr - $4.2635e-5 * fcos alt_uncorr in
    let alt := if with_refraction
               then alt + ($2.967e-4 / ftan (alt + $3.1376e-3 / (alt + $8.92e-2)))
               else alt in
    let zenith := HALFPI - alt in
    (zenith, azimuth).

  (** ne_soltrack.py:199-232, one cell. *)
  Definition ne_soltrack_3d (with_refraction : bool) (t : st_time) (longitude latitude : F) : F * F :=
    let ha := st_agst t - st_ra t + longitude * DEG2RAD in
    let sin_ha := fsin ha in
    let cos_ha := fcos ha in
    let sin_dec := fsin (st_dec t) in
    let cos_dec := fcos (st_dec t) in
    let tan_dec := ftan (st_dec t) in
    let sin_lat := fsin (latitude * DEG2RAD) in
    let cos_lat := fcos (latitude * DEG2RAD) in
    let sin_alt := sin_lat * sin_dec + cos_lat * cos_dec * cos_ha in
    let azimuth := fatan2 sin_ha (cos_ha * sin_lat - tan_dec * cos_lat) in
    let alt_uncorr := fasin sin_alt in
    let alt := alt_uncorr - $4.2635e-5 * fcos alt_uncorr in
    let alt := if with_refraction
               then alt + ($2.967e-4 / ftan (alt + $3.1376e-3 / (alt + $8.92e-2)))
               else alt in
    let zenith := HALFPI - alt in
    (zenith, azimuth).

  (** ** numpy engine *)

  (** py_soltrack.py:65-117. *)
  Definition py_soltrack_time (unixtime : F) : st_time :=
    let tJD := unixtime / $86400 - $10957.5 in
    let tJC := tJD / $36525.0 in
    let tJC2 := tJC ** 2 in
    let l0 := $4.895063168 + $628.331966786 * tJC + $5.291838e-6 * tJC2 in
    let ma := $6.240060141 + $628.301955152 * tJC - $2.682571e-6 * tJC2 in
    let sec := ($3.34161088e-2 - $8.40725e-5 * tJC - $2.443e-7 * tJC2) * fsin ma
               + ($3.489437e-4 - $1.76278e-6 * tJC) * fsin ($2 * ma) in
    let odot := l0 + sec in
    let omg := $2.1824390725 - $33.7570464271 * tJC + $3.622256e-5 * tJC2 in
    let dpsi := (- $8.338601e-5) * fsin omg in
    let ecc := $0.016708634 - $0.000042037 * tJC - $0.0000001267 * tJC2 in
    let nu := ma + sec in
    let R := $1.0000010178 * ($1.0 - ecc ** 2) / ($1.0 + ecc * fcos nu) in
    let aber := (- $9.93087e-5) / R in
    let L := npmod (odot + aber + dpsi) TWOPI in
    let eps0 := $0.409092804222 - $2.26965525e-4 * tJC - $2.86e-9 * tJC2 in
    let deps := $4.4615e-5 * fcos omg in
    let obliquity := eps0 + deps in
    let sin_L := fsin L in
    let cos_L := fcos L in
    let cos_o := fcos obliquity in
    let sin_o := fsqrt ($1.0 - (fcos obliquity) ** 2) in
    let ra_uncorr := npmod (fatan2 (cos_o * sin_L) cos_L) TWOPI in
    let declination_uncorr := fasin (sin_o * sin_L) in
    let x_deg := degrees (l0 - ra_uncorr + dpsi * cos_o) in
    let eot := (npmod ((- $0.0057183) + x_deg) $360) * $4 in
    let eot := where_ (eot <. (- $20.0)) (eot + $1440) eot in
    let eot := where_ (eot >. $20.0) (eot - $1440) eot in
    let ecf := $1 / R ** 2 in
    let gmst := $4.89496121 + $6.300388098985 * tJD + $6.77e-6 * tJC2 in
    let agst := gmst + dpsi * cos_o in
    {| st_agst := agst; st_ra := ra_uncorr; st_dec := declination_uncorr;
       st_ecf := ecf; st_eot := eot |}.

  (** py_soltrack.py:120-165, one cell; latitude and longitude are float32 and stay
      so through radians, sin, ** and sqrt. *)
  Definition py_soltrack_1d (with_refraction : bool) (t : st_time) (longitude latitude : F) : F * F :=
    let lat_rad := radians32 latitude in
    let lon_rad := radians32 longitude in
    let ha := st_agst t - st_ra t + lon_rad in
    let sin_ha := fsin ha in
    let cos_ha := fcos ha in
    let sin_dec := fsin (st_dec t) in
    let cos_dec := fsqrt ($1.0 - sin_dec ** 2) in
    let tan_dec := sin_dec / cos_dec in
    let sin_lat := sin32 lat_rad in
    let cos_lat := sqrt32 (sub32 $1.0 (mul32 sin_lat sin_lat)) in
    let sin_alt := sin_lat * sin_dec + cos_lat * cos_dec * cos_ha in
    let azimuth := fatan2 sin_ha (cos_ha * sin_lat - tan_dec * cos_lat) in
    let alt_uncorr := fasin sin_alt in
    let cos_alt := fcos alt_uncorr in
    let alt := alt_uncorr - $4.2635e-5 * cos_alt in
    let alt := if with_refraction
               then let dalt := ($2.967e-4 / ftan (alt + $3.1376e-3 / (alt + $8.92e-2))) in
                    alt + dalt
               else alt in
    let zenith := HALFPI - alt in
    (zenith, azimuth).

  (** py_soltrack.py:168-213, one cell; latitude and longitude are float32 and stay
      so through radians, sin, ** and sqrt. *)
  Definition py_soltrack_2d (with_refraction : bool) (t : st_time) (longitude latitude : F) : F * F :=
    let lat_rad := radians32 latitude in
    let lon_rad := radians32 longitude in
    let ha := st_agst t - st_ra t + lon_rad in
    let sin_ha := fsin ha in
    let cos_ha := fcos ha in
    let sin_dec := fsin (st_dec t) in
    let cos_dec := fsqrt ($1.0 - sin_dec ** 2) in
    let tan_dec := sin_dec / cos_dec in
    let sin_lat := sin32 lat_rad in
    let cos_lat := sqrt32 (sub32 $1.0 (mul32 sin_lat sin_lat)) in
    let sin_alt := sin_lat * sin_dec + cos_lat * cos_dec * cos_ha in
    let azimuth := fatan2 sin_ha (cos_ha * sin_lat - tan_dec * cos_lat) in
    let alt_uncorr := fasin sin_alt in
    let cos_alt := fcos alt_uncorr in
    let alt := alt_uncorr - $4.2635e-5 * cos_alt in
    let alt := if with_refraction
               then let dalt := ($2.967e-4 / ftan (alt + $3.1376e-3 / (alt + $8.92e-2))) in
                    alt + dalt
               else alt in
    let zenith := HALFPI - alt in
    (zenith, azimuth).

  (** py_soltrack.py:216-261, one cell; latitude and longitude are float32 and stay
      so through radians, sin, ** and sqrt. *)
  Definition py_soltrack_3d (with_refraction : bool) (t : st_time) (longitude latitude : F) : F * F :=
    let lat_rad := radians32 latitude in
    let lon_rad := radians32 longitude in
    let ha := st_agst t - st_ra t + lon_rad in
    let sin_ha := fsin ha in
    let cos_ha := fcos ha in
    let sin_dec := fsin (st_dec t) in
    let cos_dec := fsqrt ($1.0 - sin_dec ** 2) in
    let tan_dec := sin_dec / cos_dec in
    let sin_lat := sin32 lat_rad in
    let cos_lat := sqrt32 (sub32 $1.0 (mul32 sin_lat sin_lat)) in
    let sin_alt := sin_lat * sin_dec + cos_lat * cos_dec * cos_ha in
    let azimuth := fatan2 sin_ha (cos_ha * sin_lat - tan_dec * cos_lat) in
    let alt_uncorr := fasin sin_alt in
    let cos_alt := fcos alt_uncorr in
    let alt := alt_uncorr - $4.2635e-5 * cos_alt in
    let alt := if with_refraction
               then let dalt := ($2.967e-4 / ftan (alt + $3.1376e-3 / (alt + $8.92e-2))) in
                    alt + dalt
               else alt in
    let zenith := HALFPI - alt in
    (zenith, azimuth).
End Soltrack.
