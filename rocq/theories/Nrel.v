(** * Nrel: libspa/ne_nrel.py (NREL's SPA, numexpr engine only) *)

From Coq Require Import ZArith QArith List.
From Verif Require Import Num NrelTables.
Import ListNotations NumNotations.
Open Scope num_scope.

Section Nrel.
  Context {F : Type} {O : Ops F}.

  (** ne_nrel.py:17-22. *)
  Definition DELTA_T : F := ($67.0).
  Definition ELEVATION : F := ($0.0).
  Definition PRESSURE : F := ($1013.25).
  Definition TEMPERATURE : F := ($12.0).
  Definition ATM_REFR : F := (PRESSURE / $1010.0) * ($283.0 / ($273 + TEMPERATURE)).

  (** [PARAMS_x.resize((n, 3))], e.g. ne_nrel.py:400: zero rows up to n rows
      (the tables never have more than n rows). *)
  Definition pad (n : nat) (t : list (Q * Q * Q)) : list (Q * Q * Q) :=
    t ++ repeat (0, 0, 0)%Q (n - length t).

  (** One entry of [np.sum(nex('C_0*cos(C_1+C_2*jme_)'), axis=1)]. *)
  Definition series (t : list (Q * Q * Q)) (jme : F) : F :=
    fsum (map (fun '(c0, c1, c2) => lit c0 * fcos (lit c1 + lit c2 * jme)) t).

  (** The argument of sin/cos in the nutation series (ne_nrel.py:136-140, 148-152). *)
  Definition nut_arg (y : Z * Z * Z * Z * Z) (x0 x1 x2 x3 x4 : F) : F :=
    let '(y0, y1, y2, y3, y4) := y in
    (ofZ y0 * x0 + ofZ y1 * x1 + ofZ y2 * x2 + ofZ y3 * x3 + ofZ y4 * x4) * DEG2RAD.

  (** Output of [time_dependent_calculations]: alpha in degrees, delta in radians,
      eot in minutes, v in degrees, R in AU. *)
  Record nrel_time := { nr_alpha : F; nr_delta : F; nr_eot : F; nr_v : F; nr_R : F }.

  (** ne_nrel.py:78-104: julian dates and the three heliocentric series. *)
  Definition nrel_jd (unixtime : F) : F := unixtime / $86400 + $2440587.5.
  Definition nrel_jde (jd : F) : F := jd + DELTA_T / $86400.
  Definition nrel_jc (jd : F) : F := (jd - $2451545) / $36525.
  Definition nrel_jce (jde : F) : F := (jde - $2451545) / $36525.
  Definition nrel_jme (jce : F) : F := jce / $10.

  (** ne_nrel.py:95-96. *)
  Definition nrel_radius (jme : F) : F :=
    let r0 := series (pad 40 PARAMS_R_0) jme in
    let r1 := series (pad 40 PARAMS_R_1) jme in
    let r2 := series (pad 40 PARAMS_R_2) jme in
    let r3 := series (pad 40 PARAMS_R_3) jme in
    let r4 := series (pad 40 PARAMS_R_4) jme in
    (r0 + r1 * jme + r2 * jme ** 2 + r3 * jme ** 3 + r4 * jme ** 4) / $1e8.

  (** ne_nrel.py:99-100. *)
  Definition nrel_L (jme : F) : F :=
    let l0 := series (pad 64 PARAMS_LONG_0) jme in
    let l1 := series (pad 64 PARAMS_LONG_1) jme in
    let l2 := series (pad 64 PARAMS_LONG_2) jme in
    let l3 := series (pad 64 PARAMS_LONG_3) jme in
    let l4 := series (pad 64 PARAMS_LONG_4) jme in
    let l5 := series (pad 64 PARAMS_LONG_5) jme in
    nemod (RAD2DEG * (l0 + l1 * jme + l2 * jme ** 2 + l3 * jme ** 3 + l4 * jme ** 4
                      + l5 * jme ** 5) / $1e8) $360.

  (** ne_nrel.py:103-104. *)
  Definition nrel_B (jme : F) : F :=
    let b0 := series (pad 5 PARAMS_LAT_0) jme in
    let b1 := series (pad 5 PARAMS_LAT_1) jme in
    RAD2DEG * (b0 + b1 * jme) / $1e8.

  (** ne_nrel.py:113-130: the five nutation angles, degrees. *)
  Definition nrel_x0 (jce : F) : F := $297.85036 + $445267.111480 * jce - $0.0019142 * jce ** 2 + jce ** 3 / $189474.
  Definition nrel_x1 (jce : F) : F := $357.52772 + $35999.050340 * jce - $0.0001603 * jce ** 2 - jce ** 3 / $300000.
  Definition nrel_x2 (jce : F) : F := $134.96298 + $477198.867398 * jce + $0.0086972 * jce ** 2 + jce ** 3 / $56250.
  Definition nrel_x3 (jce : F) : F := $93.27191 + $483202.017538 * jce - $0.0036825 * jce ** 2 + jce ** 3 / $327270.
  Definition nrel_x4 (jce : F) : F := $125.04452 - $1934.136261 * jce + $0.0020708 * jce ** 2 + jce ** 3 / $450000.

  (** ne_nrel.py:133-142 and 145-154. *)
  Definition nrel_delta_psi (jce jme : F) : F :=
    fsum (map (fun '((A, B, C, D), y) =>
                 (lit A + lit B * jme)
                 * fsin (nut_arg y (nrel_x0 jce) (nrel_x1 jce) (nrel_x2 jce) (nrel_x3 jce) (nrel_x4 jce))
                 / $36000000)
              (combine PARAMS_NUTATION_ABCD PARAMS_NUTATION_YVALUES)).
  Definition nrel_delta_eps (jce jme : F) : F :=
    fsum (map (fun '((A, B, C, D), y) =>
                 (lit C + lit D * jme)
                 * fcos (nut_arg y (nrel_x0 jce) (nrel_x1 jce) (nrel_x2 jce) (nrel_x3 jce) (nrel_x4 jce))
                 / $36000000)
              (combine PARAMS_NUTATION_ABCD PARAMS_NUTATION_YVALUES)).

  (** ne_nrel.py:157-160. *)
  Definition nrel_epsilon0 (jme : F) : F :=
    let u := jme / $10.0 in
    $84381.448 - $4680.93 * u - $1.55 * u ** 2 + $1999.25 * u ** 3
    - $51.38 * u ** 4 - $249.67 * u ** 5 - $39.05 * u ** 6 + $7.12 * u ** 7
    + $27.87 * u ** 8 + $5.79 * u ** 9 + $2.45 * u ** 10.

  (** ne_nrel.py:188-189. *)
  Definition nrel_m (jme : F) : F :=
    $280.4664567 + $360007.6982779 * jme + $0.03032028 * jme ** 2
    + jme ** 3 / $49931 - jme ** 4 / $15300 - jme ** 5 / $2000000.

  (** ne_nrel.py:74-196. *)
  Definition ne_nrel_time (unixtime : F) : nrel_time :=
    let jd := nrel_jd unixtime in
    let jde := nrel_jde jd in
    let jc := nrel_jc jd in
    let jce := nrel_jce jde in
    let jme := nrel_jme jce in
    let R := nrel_radius jme in
    let L := nrel_L jme in
    let B := nrel_B jme in
    let theta := nemod (L + $180.0) $360 in
    let beta := (- DEG2RAD) * B in
    let delta_psi := nrel_delta_psi jce jme in
    let delta_eps := nrel_delta_eps jce jme in
    let epsilon0 := nrel_epsilon0 jme in
    let epsilon := (epsilon0 / $3600.0 + delta_eps) * DEG2RAD in
    let delta_tau := (- $20.4898) / ($3600.0 * R) in
    let lamd := (theta + delta_psi + delta_tau) * DEG2RAD in
    let v0 := nemod ($280.46061837 + $360.98564736629 * (jd - $2451545)
                     + $0.000387933 * jc ** 2 - jc ** 3 / $38710000) $360.0 in
    let v := v0 + delta_psi * fcos epsilon in
    let alpha := nemod (fatan2 (fsin lamd * fcos epsilon - ftan beta * fsin epsilon) (fcos lamd)
                        * RAD2DEG) $360 in
    let delta := fasin (fsin beta * fcos epsilon + fcos beta * fsin epsilon * fsin lamd) in
    let m := nrel_m jme in
    let eot := (nemod (m - $0.0057183 - alpha + delta_psi * fcos epsilon) $360) * $4 in
    let eot := where_ (eot <. (- $20.0)) (eot + $1440) eot in
    let eot := where_ (eot >. $20.0) (eot - $1440) eot in
    {| nr_alpha := alpha; nr_delta := delta; nr_eot := eot; nr_v := v; nr_R := R |}.

  (** [ecf = nex('1 / R**2')], ne_nrel.py:243, 296, 349. *)
  Definition nrel_ecf (t : nrel_time) : F := $1 / nr_R t ** 2.

  (** ne_nrel.py:199-245, one cell (coordinates are kept in float64). *)
  Definition ne_nrel_1d (with_refraction : bool) (t : nrel_time) (longitude latitude : F) : F * F :=
    let latrad := latitude * DEG2RAD in
    let H := (nemod (nr_v t + longitude - nr_alpha t) $360) * DEG2RAD in
    let xi := ($8.794 / ($3600 * nr_R t)) * DEG2RAD in
    let u := fatan ($0.99664719 * ftan latrad) in
    let x := fcos u + ELEVATION / $6378140.0 * fcos latrad in
    let y := $0.99664719 * fsin u + ELEVATION / $6378140.0 * fsin latrad in
    let deltaa := fatan2 ((- x) * fsin xi * fsin H) (fcos (nr_delta t) - x * fsin xi * fcos H) in
    let deltap := fatan2 ((fsin (nr_delta t) - y * fsin xi) * fcos deltaa)
                         (fcos (nr_delta t) - x * fsin xi * fcos H) in
    let Hp := H - deltaa in
    let e := fasin (fsin latrad * fsin deltap + fcos latrad * fcos deltap * fcos Hp) in
    let e :=
      if with_refraction then
        let refr_corr := ATM_REFR * $1.7802e-2 / ($60 * ftan (e + $3.1376e-3 / (e + $8.9186e-2))) in
        where_ (e >=. (- $1.4545e-2)) (e + refr_corr) e
      else e in
    let zenith := HALFPI - e in
    let azimuth := fatan2 (fsin Hp) (fcos Hp * fsin latrad - ftan deltap * fcos latrad) in
    (zenith, azimuth).

  (** ne_nrel.py:248-298, one cell (coordinates are kept in float64). *)
  Definition ne_nrel_2d (with_refraction : bool) (t : nrel_time) (longitude latitude : F) : F * F :=
    let latrad := latitude * DEG2RAD in
    let H := (nemod (nr_v t + longitude - nr_alpha t) $360) * DEG2RAD in
    let xi := ($8.794 / ($3600 * nr_R t)) * DEG2RAD in
    let u := fatan ($0.99664719 * ftan latrad) in
    let x := fcos u + ELEVATION / $6378140.0 * fcos latrad in
    let y := $0.99664719 * fsin u + ELEVATION / $6378140.0 * fsin latrad in
    let deltaa := fatan2 ((- x) * fsin xi * fsin H) (fcos (nr_delta t) - x * fsin xi * fcos H) in
    let deltap := fatan2 ((fsin (nr_delta t) - y * fsin xi) * fcos deltaa)
                         (fcos (nr_delta t) - x * fsin xi * fcos H) in
    let Hp := H - deltaa in
    let e := fasin (fsin latrad * fsin deltap + fcos latrad * fcos deltap * fcos Hp) in
    let e :=
      if with_refraction then
        let refr_corr := ATM_REFR * $1.7802e-2 / ($60 * ftan (e + $3.1376e-3 / (e + $8.9186e-2))) in
        where_ (e >=. (- $1.4545e-2)) (e + refr_corr) e
      else e in
    let zenith := HALFPI - e in
    let azimuth := fatan2 (fsin Hp) (fcos Hp * fsin latrad - ftan deltap * fcos latrad) in
    (zenith, azimuth).

  (** ne_nrel.py:301-351, one cell (coordinates are kept in float64). *)
  Definition ne_nrel_3d (with_refraction : bool) (t : nrel_time) (longitude latitude : F) : F * F :=
    let latrad := latitude * DEG2RAD in
    let H := (nemod (nr_v t + longitude - nr_alpha t) $360) * DEG2RAD in
    let xi := ($8.794 / ($3600 * nr_R t)) * DEG2RAD in
    let u := fatan ($0.99664719 * ftan latrad) in
    let x := fcos u + ELEVATION / $6378140.0 * fcos latrad in
    let y := $0.99664719 * fsin u + ELEVATION / $6378140.0 * fsin latrad in
    let deltaa := fatan2 ((- x) * fsin xi * fsin H) (fcos (nr_delta t) - x * fsin xi * fcos H) in
    let deltap := fatan2 ((fsin (nr_delta t) - y * fsin xi) * fcos deltaa)
                         (fcos (nr_delta t) - x * fsin xi * fcos H) in
    let Hp := H - deltaa in
    let e := fasin (fsin latrad * fsin deltap + fcos latrad * fcos deltap * fcos Hp) in
    let e :=
      if with_refraction then
        let refr_corr := ATM_REFR * $1.7802e-2 / ($60 * ftan (e + $3.1376e-3 / (e + $8.9186e-2))) in
        where_ (e >=. (- $1.4545e-2)) (e + refr_corr) e
      else e in
    let zenith := HALFPI - e in
    let azimuth := fatan2 (fsin Hp) (fcos Hp * fsin latrad - ftan deltap * fcos latrad) in
    (zenith, azimuth).
End Nrel.
