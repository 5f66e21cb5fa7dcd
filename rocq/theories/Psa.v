(** * Psa: libspa/ne_psa.py and libspa/py_psa.py, function by function *)

From Coq Require Import ZArith QArith List.
From Verif Require Import Num.
Import ListNotations NumNotations.
Open Scope num_scope.

Section Psa.
  Context {F : Type} {O : Ops F}.

  (** Outputs of [time_dependent_calculations]. *)
  Record psa_time := { psa_delta : F; psa_ra : F; psa_gmst : F; psa_eot : F; psa_ecf : F }.

  (** EMRAU, ne_psa.py:12 = py_psa.py:9. *)
  Definition EMRAU : F := ($0.000042587565907513806).

  (** ** numexpr engine *)

  (** ne_psa.py:66-110. *)
  Definition ne_psa_time (unixtime : F) : psa_time :=
    let jde := unixtime / $86400 - $10957.5 in
    let decimal_hour := (nemod (unixtime / $86400) $1) * $24 in
    let gmst := $6.697096103 + $6.570984737e-2 * jde + decimal_hour in
    let omega := $2.267127827 - $9.300339267e-4 * jde in
    let L := $4.895036035 + $1.720279602e-2 * jde in
    let g := $6.239468336 + $1.720200135e-2 * jde in
    let l := L - $1.544353226e-4 + $3.338320972e-2 * fsin g
             + $3.497596876e-4 * fsin ($2 * g) - $8.689729360e-6 * fsin omega in
    let ep := $4.090904909e-1 - $6.213605399e-9 * jde + $4.418094944e-5 * fcos omega in
    let ra := fatan2 (fcos ep * fsin l) (fcos l) in
    let ra := where_ (ra <. $0) (ra + TWOPI) ra in
    let delta := fasin (fsin ep * fsin l) in
    let dXsun := ftrunc (fabs L / TWOPI) in
    let eot := $4 * (L + TWOPI * where_ (L <. $0.0) ($1.0 + dXsun) (- dXsun) - ra) * RAD2DEG in
    let eot := where_ (eot >. $20.0) (eot - $1440.0) eot in
    let eot := where_ (eot <. (- $20.0)) (eot + $1440.0) eot in
    let jdc := jde / $36525.0 in
    let ecc := $0.016708634 - $0.000042037 * jdc - $0.0000001267 * jdc * jdc in
    let ma := $6.240060141 + $628.301955152 * jdc - $2.682571e-6 * jdc * jdc in
    let sec := ($3.34161088e-2 - $8.40725e-5 * jdc - $2.443e-7 * jdc * jdc) * fsin ma +
               ($3.489437e-4 - $1.76278e-6 * jdc) * fsin ($2 * ma) in
    let R := $1.0000010178 * ($1.0 - ecc ** 2) / ($1.0 + ecc * fcos (ma + sec)) in
    let ecf := $1.0 / R ** 2 in
    {| psa_delta := delta; psa_ra := ra; psa_gmst := gmst; psa_eot := eot; psa_ecf := ecf |}.

  (** ne_psa.py:113-145, one (time, location) cell. *)
  Definition ne_psa_1d (with_refraction : bool) (t : psa_time) (longitude latitude : F) : F * F :=
    let hour_angle := (psa_gmst t * $15 + longitude) * DEG2RAD - psa_ra t in
    let sinhour := fsin hour_angle in
    let coshour := fcos hour_angle in
    let sinlat := fsin (latitude * DEG2RAD) in
    let coslat := fcos (latitude * DEG2RAD) in
    let sindec := fsin (psa_delta t) in
    let cosdec := fcos (psa_delta t) in
    let tandec := ftan (psa_delta t) in
    let zenith := facos (coslat * coshour * cosdec + sindec * sinlat) in
    let zenith := zenith + EMRAU * fsin zenith in
    let zenith :=
      if with_refraction then
        let sun_elev := HALFPI - zenith in
        let A := $1 in
        let refr_corr := A * $1.7802e-2 / ($60 * ftan (sun_elev + $3.1376e-3 / (sun_elev + $8.9186e-2))) in
        HALFPI - where_ (sun_elev >=. (- $1.4545e-2)) (sun_elev + refr_corr) sun_elev
      else zenith in
    let azimuth := fatan2 (- sinhour) (tandec * coslat - sinlat * coshour) in
    let azimuth := where_ (azimuth <. $0.0) (azimuth + PI_) (azimuth - PI_) in
    (zenith, azimuth).

  (** ne_psa.py:148-187, one (time, location) cell.  [latitude[None,:]*DEG2RAD]
      is float32 * np.float64 scalar = float64 under NEP 50. *)
  Definition ne_psa_2d (with_refraction : bool) (t : psa_time) (longitude latitude : F) : F * F :=
    let lat_rad := latitude * DEG2RAD in
    let lon := longitude in
    let hour_angle := (psa_gmst t * $15 + lon) * DEG2RAD - psa_ra t in
    let sinhour := fsin hour_angle in
    let coshour := fcos hour_angle in
    let sinlat := fsin lat_rad in
    let coslat := fcos lat_rad in
    let sindec := fsin (psa_delta t) in
    let cosdec := fcos (psa_delta t) in
    let tandec := ftan (psa_delta t) in
    let zenith := facos (coslat * coshour * cosdec + sindec * sinlat) in
    let zenith := zenith + EMRAU * fsin zenith in
    let zenith :=
      if with_refraction then
        let sun_elev := HALFPI - zenith in
        let A := $1 in
        let refr_corr := A * $1.7802e-2 / ($60 * ftan (sun_elev + $3.1376e-3 / (sun_elev + $8.9186e-2))) in
        HALFPI - where_ (sun_elev >=. (- $1.4545e-2)) (sun_elev + refr_corr) sun_elev
      else zenith in
    let azimuth := fatan2 (- sinhour) (tandec * coslat - sinlat * coshour) in
    let azimuth := where_ (azimuth <. $0.0) (azimuth + PI_) (azimuth - PI_) in
    (zenith, azimuth).

  (** ne_psa.py:190-229, one (time, latitude, longitude) cell. *)
  Definition ne_psa_3d (with_refraction : bool) (t : psa_time) (longitude latitude : F) : F * F :=
    let lat := latitude in
    let lon := longitude in
    let hour_angle := (psa_gmst t * $15 + lon) * DEG2RAD - psa_ra t in
    let sinlat := fsin (lat * DEG2RAD) in
    let coslat := fcos (lat * DEG2RAD) in
    let sinhour := fsin hour_angle in
    let coshour := fcos hour_angle in
    let sindec := fsin (psa_delta t) in
    let cosdec := fcos (psa_delta t) in
    let tandec := ftan (psa_delta t) in
    let zenith := facos (coslat * coshour * cosdec + sindec * sinlat) in
    let zenith := zenith + EMRAU * fsin zenith in
    let zenith :=
      if with_refraction then
        let sun_elev := HALFPI - zenith in
        let A := $1 in
        let refr_corr := A * $1.7802e-2 / ($60 * ftan (sun_elev + $3.1376e-3 / (sun_elev + $8.9186e-2))) in
        HALFPI - where_ (sun_elev >=. (- $1.4545e-2)) (sun_elev + refr_corr) sun_elev
      else zenith in
    let azimuth := fatan2 (- sinhour) (tandec * coslat - sinlat * coshour) in
    let azimuth := where_ (azimuth <. $0.0) (azimuth + PI_) (azimuth - PI_) in
    (zenith, azimuth).

  (** ** numpy engine *)

  (** py_psa.py:62-105. *)
  Definition py_psa_time (unixtime : F) : psa_time :=
    let jde := unixtime / $86400 - $10957.5 in
    let decimal_hour := (npmod (unixtime / $86400) $1) * $24 in
    let omega := $2.267127827 - $9.300339267e-4 * jde in
    let L := $4.895036035 + $1.720279602e-2 * jde in
    let g := $6.239468336 + $1.720200135e-2 * jde in
    let eclon := L - $1.544353226e-4 + $3.338320972e-2 * fsin g
             + $3.497596876e-4 * fsin ($2 * g) - $8.689729360e-6 * fsin omega in
    let ep := $4.090904909e-1 - $6.213605399e-9 * jde + $4.418094944e-5 * fcos omega in
    let sinl := fsin eclon in
    let ra := fatan2 (fcos ep * sinl) (fcos eclon) in
    let ra := where_ (ra <. $0.0) (ra + TWOPI) ra in
    let delta := fasin (fsin ep * sinl) in
    let gmst := $6.697096103 + $6.570984737e-2 * jde + decimal_hour in
    let jdc := jde / $36525.0 in
    let ecc := $0.016708634 - $0.000042037 * jdc - $0.0000001267 * jdc * jdc in
    let ma := $6.240060141 + $628.301955152 * jdc - $2.682571e-6 * jdc * jdc in
    let sec := ($3.34161088e-2 - $8.40725e-5 * jdc - $2.443e-7 * jdc * jdc) * fsin ma +
               ($3.489437e-4 - $1.76278e-6 * jdc) * fsin ($2 * ma) in
    let R := $1.0000010178 * ($1.0 - ecc ** 2) / ($1.0 + ecc * fcos (ma + sec)) in
    let ecf := $1.0 / R ** 2 in
    let dXsun := ftrunc (fabs L / TWOPI) in
    let eot := $4.0 * degrees (L + TWOPI * where_ (L <. $0.0) ($1.0 + dXsun) (- dXsun) - ra) in
    let eot := where_ (eot >. $20.0) (eot - $1440.0) eot in
    let eot := where_ (eot <. (- $20.0)) (eot + $1440.0) eot in
    {| psa_delta := delta; psa_ra := ra; psa_gmst := gmst; psa_eot := eot; psa_ecf := ecf |}.

  (** py_psa.py:108-147, one cell; [np.radians(latitude)] is a float32 operation. *)
  Definition py_psa_1d (with_refraction : bool) (t : psa_time) (longitude latitude : F) : F * F :=
    let lmst := psa_gmst t * $15 + longitude in
    let hour_angle := radians lmst - psa_ra t in
    let latrad := radians32 latitude in
    let coslat := cos32 latrad in
    let sinlat := sin32 latrad in
    let sinhour := fsin hour_angle in
    let coshour := fcos hour_angle in
    let sindec := fsin (psa_delta t) in
    let cosdec := fcos (psa_delta t) in
    let tandec := ftan (psa_delta t) in
    let acos_zenith := coslat * coshour * cosdec + sindec * sinlat in
    let zenith := facos (round6 acos_zenith) in
    let zenith := zenith + EMRAU * fsin zenith in
    let zenith :=
      if with_refraction then
        let sun_elev := HALFPI - zenith in
        let A := $1 in
        let refr_corr := A * $1.7802e-2 / ($60 * ftan (sun_elev + $3.1376e-3 / (sun_elev + $8.9186e-2))) in
        HALFPI - where_ (sun_elev >=. (- $1.4545e-2)) (sun_elev + refr_corr) sun_elev
      else zenith in
    let azimuth := fatan2 (- sinhour) (tandec * coslat - sinlat * coshour) in
    let azimuth := where_ (azimuth <. $0.0) (azimuth + PI_) (azimuth - PI_) in
    (zenith, azimuth).

  (** py_psa.py:150-191, one cell. *)
  Definition py_psa_2d (with_refraction : bool) (t : psa_time) (longitude latitude : F) : F * F :=
    let lmst := psa_gmst t * $15 + longitude in
    let hour_angle := radians lmst - psa_ra t in
    let latrad := radians32 latitude in
    let sinlat := sin32 latrad in
    let coslat := cos32 latrad in
    let sinhour := fsin hour_angle in
    let coshour := fcos hour_angle in
    let sindec := fsin (psa_delta t) in
    let cosdec := fcos (psa_delta t) in
    let tandec := ftan (psa_delta t) in
    let acos_zenith := coslat * coshour * cosdec + sindec * sinlat in
    let zenith := facos (round6 acos_zenith) in
    let zenith := zenith + EMRAU * fsin zenith in
    let zenith :=
      if with_refraction then
        let sun_elev := HALFPI - zenith in
        let A := $1 in
        let refr_corr := A * $1.7802e-2 / ($60 * ftan (sun_elev + $3.1376e-3 / (sun_elev + $8.9186e-2))) in
        HALFPI - where_ (sun_elev >=. (- $1.4545e-2)) (sun_elev + refr_corr) sun_elev
      else zenith in
    let azimuth := fatan2 (- sinhour) (tandec * coslat - sinlat * coshour) in
    let azimuth := where_ (azimuth <. $0.0) (azimuth + PI_) (azimuth - PI_) in
    (zenith, azimuth).

  (** py_psa.py:194-236, one cell. *)
  Definition py_psa_3d (with_refraction : bool) (t : psa_time) (longitude latitude : F) : F * F :=
    let lmst := psa_gmst t * $15 + longitude in
    let hour_angle := radians lmst - psa_ra t in
    let latrad := radians32 latitude in
    let sinlat := sin32 latrad in
    let coslat := cos32 latrad in
    let sinhour := fsin hour_angle in
    let coshour := fcos hour_angle in
    let sindec := fsin (psa_delta t) in
    let cosdec := fcos (psa_delta t) in
    let tandec := ftan (psa_delta t) in
    let acos_zenith := coslat * coshour * cosdec + sindec * sinlat in
    let zenith := facos (round6 acos_zenith) in
    let zenith := zenith + EMRAU * fsin zenith in
    let zenith :=
      if with_refraction then
        let sun_elev := HALFPI - zenith in
        let A := $1 in
        let refr_corr := A * $1.7802e-2 / ($60 * ftan (sun_elev + $3.1376e-3 / (sun_elev + $8.9186e-2))) in
        HALFPI - where_ (sun_elev >=. (- $1.4545e-2)) (sun_elev + refr_corr) sun_elev
      else zenith in
    let azimuth := fatan2 (- sinhour) (tandec * coslat - sinlat * coshour) in
    let azimuth := where_ (azimuth <. $0.0) (azimuth + PI_) (azimuth - PI_) in
    (zenith, azimuth).
End Psa.
