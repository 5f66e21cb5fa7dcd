(** * Iqbal: libspa/ne_iqbal.py and libspa/py_iqbal.py *)

From Coq Require Import ZArith QArith List.
From Verif Require Import Num Calendar.
Import ListNotations NumNotations.
Open Scope num_scope.

Section Iqbal.
  Context {F : Type} {O : Ops F}.

  (** RAD = PI / 180. (py_iqbal.py:11, ne_iqbal.py:12), a Python float. *)
  Definition IQ_RAD : F := PI_ / $180.0.

  (** Location-independent quantities computed at the top of every _sunpos_* function.
      [iq_eot] is in hours; the returned equation of time is [iq_eot * 60]. *)
  Record iq_time := { iq_std : F; iq_ecf : F; iq_eot : F; iq_dec : F }.

  (** ** numexpr engine *)

  (** ne_iqbal.py:62-68 [day_angle], with the calendar part in Calendar.v. *)
  Definition ne_day_angle (year month day : Z) (std_time : F) : F :=
    let doy := day_of_year year month day in
    TWOPI * (ofZ doy + (std_time / $24.0)) / $365.0.

  (** ne_iqbal.py:71-82. *)
  Definition ne_eccentricity_correction_factor (dayangl : F) : F :=
    $1.00012825e+00
    + $3.33572253e-02 * fcos dayangl + $1.99417932e-03 * fsin dayangl
    + $6.97434604e-04 * fcos ($2 * dayangl) + $1.14828177e-04 * fsin ($2 * dayangl)
    + $1.74028675e-05 * fcos ($3 * dayangl) + $1.13778023e-05 * fsin ($3 * dayangl).

  (** ne_iqbal.py:85-98, hours. *)
  Definition ne_equation_of_time (dayangl : F) : F :=
    ($0.00986571
     + $0.58688718 * fcos dayangl - $7.34538133 * fsin dayangl
     - $3.31493999 * fcos ($2 * dayangl) - $9.35366541 * fsin ($2 * dayangl)
     - $0.08151750 * fcos ($3 * dayangl) - $0.30892409 * fsin ($3 * dayangl)
     - $0.13532889 * fcos ($4 * dayangl) - $0.17336220 * fsin ($4 * dayangl)) / $60.0.

  (** ne_iqbal.py:101-107, radians. *)
  Definition ne_solar_declination (dayangl : F) : F :=
    $0.006918
    - $0.399912 * fcos dayangl + $0.070257 * fsin dayangl
    - $0.006758 * fcos ($2 * dayangl) + $0.000907 * fsin ($2 * dayangl)
    - $0.002697 * fcos ($3 * dayangl) + $0.001480 * fsin ($3 * dayangl).

  (** ne_iqbal.py, first statements of the three _sunpos_* functions
      (1d: 112-125). *)
  Definition ne_iqbal_time (unixtime : Z) : iq_time :=
    let '(year, month, day) := civil_of_seconds unixtime in
    let hour := ofZ (hour_of unixtime) in
    let minute := ofZ (minute_of unixtime) in
    let second := ofZ (second_of unixtime) in
    let std_time := hour + (minute + second / $60.0) / $60.0 in
    let dayangl := ne_day_angle year month day std_time in
    {| iq_std := std_time;
       iq_ecf := ne_eccentricity_correction_factor dayangl;
       iq_eot := ne_equation_of_time dayangl;
       iq_dec := ne_solar_declination dayangl |}.

  (** ne_iqbal.py:127-165, one cell.
      [longitude/15.] is evaluated inside numexpr, in float64. *)
  Definition ne_iqbal_1d (with_refraction : bool) (t : iq_time) (longitude latitude : F) : F * F :=
    let sinDecl := fsin (iq_dec t) in
    let cosDecl := fcos (iq_dec t) in
    let lat_rad := mul32 latitude (cast32 IQ_RAD) in
    let cosLat := necos32 lat_rad in
    let sinLat := nesin32 lat_rad in
    let LAT := iq_std t + longitude / $15.0 + iq_eot t in
    let LAT := where_ (LAT <. $0) (LAT + $24.0) LAT in
    let LAT := where_ (LAT >=. $24) (LAT - $24.0) LAT in
    let hour_angle := (LAT - $12.0) * $15.0 * IQ_RAD in
    let cosHour := fcos hour_angle in
    let sza_rad := facos (sinDecl * sinLat + cosDecl * cosLat * cosHour) in
    let sza_rad :=
      if with_refraction then
        let alpha := HALFPI - sza_rad in
        let alpha2 := alpha * alpha in
        let refcor := $0.061359 * ($0.1594 + ($1.1230 * alpha) + ($0.065656 * alpha2))
                      / ($1.0 + ($28.9344 * alpha) + ($277.3971 * alpha2)) in
        HALFPI - (alpha + refcor)
      else sza_rad in
    let sinHour := fsin hour_angle in
    let tanDecl := ftan (iq_dec t) in
    let azi_rad := fatan2 (- sinHour) (tanDecl * cosLat - sinLat * cosHour) in
    let azi_rad := where_ (azi_rad <. $0) (azi_rad + PI_) (azi_rad - PI_) in
    (sza_rad, azi_rad).

  (** ne_iqbal.py:185-226, one cell.
      [longitude/15.] is evaluated by NumPy, in float32. *)
  Definition ne_iqbal_2d (with_refraction : bool) (t : iq_time) (longitude latitude : F) : F * F :=
    let sinDecl := fsin (iq_dec t) in
    let cosDecl := fcos (iq_dec t) in
    let lat_rad := mul32 latitude (cast32 IQ_RAD) in
    let cosLat := necos32 lat_rad in
    let sinLat := nesin32 lat_rad in
    let LAT := iq_std t + div32 longitude $15.0 + iq_eot t in
    let LAT := where_ (LAT <. $0) (LAT + $24.0) LAT in
    let LAT := where_ (LAT >=. $24) (LAT - $24.0) LAT in
    let hour_angle := (LAT - $12.0) * $15.0 * IQ_RAD in
    let cosHour := fcos hour_angle in
    let sza_rad := facos (sinDecl * sinLat + cosDecl * cosLat * cosHour) in
    let sza_rad :=
      if with_refraction then
        let alpha := HALFPI - sza_rad in
        let alpha2 := alpha * alpha in
        let refcor := $0.061359 * ($0.1594 + ($1.1230 * alpha) + ($0.065656 * alpha2))
                      / ($1.0 + ($28.9344 * alpha) + ($277.3971 * alpha2)) in
        HALFPI - (alpha + refcor)
      else sza_rad in
    let sinHour := fsin hour_angle in
    let tanDecl := ftan (iq_dec t) in
    let azi_rad := fatan2 (- sinHour) (tanDecl * cosLat - sinLat * cosHour) in
    let azi_rad := where_ (azi_rad <. $0) (azi_rad + PI_) (azi_rad - PI_) in
    (sza_rad, azi_rad).

  (** ne_iqbal.py:246-288, one cell.
      [longitude/15.] is evaluated by NumPy, in float32. *)
  Definition ne_iqbal_3d (with_refraction : bool) (t : iq_time) (longitude latitude : F) : F * F :=
    let sinDecl := fsin (iq_dec t) in
    let cosDecl := fcos (iq_dec t) in
    let lat_rad := mul32 latitude (cast32 IQ_RAD) in
    let cosLat := necos32 lat_rad in
    let sinLat := nesin32 lat_rad in
    let LAT := iq_std t + div32 longitude $15.0 + iq_eot t in
    let LAT := where_ (LAT <. $0) (LAT + $24.0) LAT in
    let LAT := where_ (LAT >=. $24) (LAT - $24.0) LAT in
    let hour_angle := (LAT - $12.0) * $15.0 * IQ_RAD in
    let cosHour := fcos hour_angle in
    let sza_rad := facos (sinDecl * sinLat + cosDecl * cosLat * cosHour) in
    let sza_rad :=
      if with_refraction then
        let alpha := HALFPI - sza_rad in
        let alpha2 := alpha * alpha in
        let refcor := $0.061359 * ($0.1594 + ($1.1230 * alpha) + ($0.065656 * alpha2))
                      / ($1.0 + ($28.9344 * alpha) + ($277.3971 * alpha2)) in
        HALFPI - (alpha + refcor)
      else sza_rad in
    let sinHour := fsin hour_angle in
    let tanDecl := ftan (iq_dec t) in
    let azi_rad := fatan2 (- sinHour) (tanDecl * cosLat - sinLat * cosHour) in
    let azi_rad := where_ (azi_rad <. $0) (azi_rad + PI_) (azi_rad - PI_) in
    (sza_rad, azi_rad).

  (** ** numpy engine *)

  (** py_iqbal.py:61-67 [day_angle], with the calendar part in Calendar.v. *)
  Definition py_day_angle (year month day : Z) (std_time : F) : F :=
    let doy := day_of_year year month day in
    TWOPI * (ofZ doy + (std_time / $24.0)) / $365.0.

  (** py_iqbal.py:70-80. *)
  Definition py_eccentricity_correction_factor (dayangl : F) : F :=
    $1.00012825e+00
    + $3.33572253e-02 * fcos dayangl + $1.99417932e-03 * fsin dayangl
    + $6.97434604e-04 * fcos ($2 * dayangl) + $1.14828177e-04 * fsin ($2 * dayangl)
    + $1.74028675e-05 * fcos ($3 * dayangl) + $1.13778023e-05 * fsin ($3 * dayangl).

  (** py_iqbal.py:83-95, hours. *)
  Definition py_equation_of_time (dayangl : F) : F :=
    ($0.00986571
     + $0.58688718 * fcos dayangl - $7.34538133 * fsin dayangl
     - $3.31493999 * fcos ($2 * dayangl) - $9.35366541 * fsin ($2 * dayangl)
     - $0.08151750 * fcos ($3 * dayangl) - $0.30892409 * fsin ($3 * dayangl)
     - $0.13532889 * fcos ($4 * dayangl) - $0.17336220 * fsin ($4 * dayangl)) / $60.0.

  (** py_iqbal.py:98-103, radians. *)
  Definition py_solar_declination (dayangl : F) : F :=
    $0.006918
    - $0.399912 * fcos dayangl + $0.070257 * fsin dayangl
    - $0.006758 * fcos ($2 * dayangl) + $0.000907 * fsin ($2 * dayangl)
    - $0.002697 * fcos ($3 * dayangl) + $0.001480 * fsin ($3 * dayangl).

  (** py_iqbal.py, first statements of the three _sunpos_* functions
      (1d: 108-121). *)
  Definition py_iqbal_time (unixtime : Z) : iq_time :=
    let '(year, month, day) := civil_of_seconds unixtime in
    let hour := ofZ (hour_of unixtime) in
    let minute := ofZ (minute_of unixtime) in
    let second := ofZ (second_of unixtime) in
    let std_time := hour + (minute + second / $60.0) / $60.0 in
    let dayangl := py_day_angle year month day std_time in
    {| iq_std := std_time;
       iq_ecf := py_eccentricity_correction_factor dayangl;
       iq_eot := py_equation_of_time dayangl;
       iq_dec := py_solar_declination dayangl |}.

  (** py_iqbal.py:123-161, one cell. *)
  Definition py_iqbal_1d (with_refraction : bool) (t : iq_time) (longitude latitude : F) : F * F :=
    let sinDecl := fsin (iq_dec t) in
    let cosDecl := fcos (iq_dec t) in
    let tanDecl := ftan (iq_dec t) in
    let lat_rad := mul32 latitude (cast32 IQ_RAD) in
    let cosLat := cos32 lat_rad in
    let sinLat := sin32 lat_rad in
    let LAT := iq_std t + div32 longitude $15.0 + iq_eot t in
    let LAT := where_ (LAT <. $0) (LAT + $24.0) LAT in
    let LAT := where_ (LAT >=. $24) (LAT - $24.0) LAT in
    let hour_angle := (LAT - $12.0) * $15.0 * IQ_RAD in
    let cosHour := fcos hour_angle in
    let sza_rad := facos (sinDecl * sinLat + cosDecl * cosLat * cosHour) in
    let sza_rad :=
      if with_refraction then
        let alpha := HALFPI - sza_rad in
        let alpha2 := alpha * alpha in
        let refcor := $0.061359 * ($0.1594 + ($1.1230 * alpha) + ($0.065656 * alpha2))
                      / ($1.0 + ($28.9344 * alpha) + ($277.3971 * alpha2)) in
        HALFPI - (alpha + refcor)
      else sza_rad in
    let dy := - fsin hour_angle in
    let dx := tanDecl * cosLat - sinLat * cosHour in
    let azi_rad := fatan2 dy dx in
    let azi_rad := where_ (azi_rad <. $0) (azi_rad + PI_) (azi_rad - PI_) in
    (sza_rad, azi_rad).

  (** py_iqbal.py:181-220, one cell. *)
  Definition py_iqbal_2d (with_refraction : bool) (t : iq_time) (longitude latitude : F) : F * F :=
    let sinDecl := fsin (iq_dec t) in
    let cosDecl := fcos (iq_dec t) in
    let tanDecl := ftan (iq_dec t) in
    let lat_rad := mul32 latitude (cast32 IQ_RAD) in
    let cosLat := cos32 lat_rad in
    let sinLat := sin32 lat_rad in
    let LAT := iq_std t + div32 longitude $15.0 + iq_eot t in
    let LAT := where_ (LAT <. $0) (LAT + $24.0) LAT in
    let LAT := where_ (LAT >=. $24) (LAT - $24.0) LAT in
    let hour_angle := (LAT - $12.0) * $15.0 * IQ_RAD in
    let cosHour := fcos hour_angle in
    let sza_rad := facos (sinDecl * sinLat + cosDecl * cosLat * cosHour) in
    let sza_rad :=
      if with_refraction then
        let alpha := HALFPI - sza_rad in
        let alpha2 := alpha * alpha in
        let refcor := $0.061359 * ($0.1594 + ($1.1230 * alpha) + ($0.065656 * alpha2))
                      / ($1.0 + ($28.9344 * alpha) + ($277.3971 * alpha2)) in
        HALFPI - (alpha + refcor)
      else sza_rad in
    let dy := - fsin hour_angle in
    let dx := tanDecl * cosLat - sinLat * cosHour in
    let azi_rad := fatan2 dy dx in
    let azi_rad := where_ (azi_rad <. $0) (azi_rad + PI_) (azi_rad - PI_) in
    (sza_rad, azi_rad).

  (** py_iqbal.py:240-281, one cell. *)
  Definition py_iqbal_3d (with_refraction : bool) (t : iq_time) (longitude latitude : F) : F * F :=
    let sinDecl := fsin (iq_dec t) in
    let cosDecl := fcos (iq_dec t) in
    let tanDecl := ftan (iq_dec t) in
    let lat_rad := mul32 latitude (cast32 IQ_RAD) in
    let cosLat := cos32 lat_rad in
    let sinLat := sin32 lat_rad in
    let LAT := iq_std t + div32 longitude $15.0 + iq_eot t in
    let LAT := where_ (LAT <. $0) (LAT + $24.0) LAT in
    let LAT := where_ (LAT >=. $24) (LAT - $24.0) LAT in
    let hour_angle := (LAT - $12.0) * $15.0 * IQ_RAD in
    let cosHour := fcos hour_angle in
    let sza_rad := facos (sinDecl * sinLat + cosDecl * cosLat * cosHour) in
    let sza_rad :=
      if with_refraction then
        let alpha := HALFPI - sza_rad in
        let alpha2 := alpha * alpha in
        let refcor := $0.061359 * ($0.1594 + ($1.1230 * alpha) + ($0.065656 * alpha2))
                      / ($1.0 + ($28.9344 * alpha) + ($277.3971 * alpha2)) in
        HALFPI - (alpha + refcor)
      else sza_rad in
    let dy := - fsin hour_angle in
    let dx := tanDecl * cosLat - sinLat * cosHour in
    let azi_rad := fatan2 dy dx in
    let azi_rad := where_ (azi_rad <. $0) (azi_rad + PI_) (azi_rad - PI_) in
    (sza_rad, azi_rad).
End Iqbal.
