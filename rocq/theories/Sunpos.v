(** * Sunpos: the accessors of _base.py:Sunpos (lines 171-577)

    xarray's DataArrays are modelled by [darray]: named dimensions in order, and the value at each
    assignment of indices to dimension names ([isel]).  Names, attributes and coordinate labels are
    not modelled; all operands of one expression carry equal coordinate indexes (they are built from
    the same time, latitude and longitude arrays, lines 104-164), so xarray's alignment is the identity. *)

From Coq Require Import ZArith QArith List Bool Arith String.
From Verif Require Import Num Arrays Libspa Time Core Usecases.
Import ListNotations.
Open Scope list_scope.
Open Scope string_scope.

(** The dimension names of lines 104-164. *)
Inductive dim := DTime | DLocation | DLatitude | DLongitude.
Definition dim_eqb (a b : dim) : bool :=
  match a, b with
  | DTime, DTime | DLocation, DLocation | DLatitude, DLatitude | DLongitude, DLongitude => true
  | _, _ => false
  end.

Record darray (A : Type) := DA { da_dims : list dim; da_at : (dim -> nat) -> option A }.
Arguments DA {A} da_dims da_at.
Arguments da_dims {A} d.
Arguments da_at {A} d.

(** An array with named axes. *)
Definition of_nd {A} (ds : list dim) (a : ndarray A) : darray A := DA ds (fun e => get a (map e ds)).
Definition of_list {A} (d : dim) (l : list A) : darray A := DA [d] (fun e => nth_error l (e d)).

(** Elementwise functions, and broadcasting by dimension name: the dimensions of the first
    operand, then the new ones of the second (xarray's rule). *)
Definition da_map {A B} (f : A -> B) (a : darray A) : darray B := DA (da_dims a) (fun e => option_map f (da_at a e)).
Definition union_dims (a b : list dim) : list dim := a ++ filter (fun d => negb (existsb (dim_eqb d) a)) b.
Definition da_map2 {A B C} (f : A -> B -> C) (a : darray A) (b : darray B) : darray C :=
  DA (union_dims (da_dims a) (da_dims b))
     (fun e => match da_at a e, da_at b e with Some x, Some y => Some (f x y) | _, _ => None end).

(** The result of sunrise/sunset: angles or times. *)
Inductive angle_or_time (F : Type) := Angle (a : darray F) | Instant (a : darray (option Z)).
Arguments Angle {F} a.
Arguments Instant {F} a.

Section Sunpos.
  Context {F : Type} {O : Ops F}.
  Import NumNotations. Open Scope num_scope.
  (** What NumPy's NaT.astype('float64') is (NaN or -2**63): left open, as nothing below depends on it. *)
  Variable nat_float : F.

  Notation FA := (darray F).
  Local Notation "a .+ b" := (da_map2 add a b) (at level 50, left associativity).
  Local Notation "a .- b" := (da_map2 sub a b) (at level 50, left associativity).
  Local Notation "a .* b" := (da_map2 mul a b) (at level 40, left associativity).
  Local Notation "x *: a" := (da_map (mul x) a) (at level 39, right associativity).

  Section Accessors.
  Variable sp : Sunpos F.

  (** _base.py:104-164: the dimensions of the stored arrays, per use case. *)
  Definition dims_zenith : list dim :=
    match sp_usecase sp with
    | Sites => [DTime; DLocation] | RegularGrid => [DTime; DLatitude; DLongitude] | Transect => [DTime]
    end.
  Definition dim_lat : dim := match sp_usecase sp with Sites => DLocation | RegularGrid => DLatitude | Transect => DTime end.
  Definition dim_lon : dim := match sp_usecase sp with Sites => DLocation | RegularGrid => DLongitude | Transect => DTime end.

  (** _base.py:171-180. *)
  Definition latitude : FA := of_list dim_lat (sp_latitude sp).
  Definition longitude : FA := of_list dim_lon (sp_longitude sp).
  (** The stored arrays, in radians (raw output of _core.evaluate). *)
  Definition raw_declination : FA := of_nd [DTime] (sp_declination sp).
  Definition raw_zenith : FA := of_nd dims_zenith (sp_zenith sp).
  Definition raw_azimuth : FA := of_nd dims_zenith (sp_azimuth sp).
  (** _base.py:236-301. *)
  Definition ecf : FA := of_nd [DTime] (sp_ecf sp).
  Definition eot : FA := of_nd [DTime] (sp_eot sp).
  Definition declination : FA := da_map degrees raw_declination.
  Definition dec : FA := declination.
  Definition zenith : FA := da_map degrees raw_zenith.
  Definition sza : FA := zenith.
  Definition elevation : FA := da_map (sub $90.0) zenith.
  Definition azimuth : FA := da_map degrees raw_azimuth.
  Definition saa : FA := azimuth.
  Definition cosz : FA := da_map fcos raw_zenith.

  (** datetime64/timedelta64 -> float64. *)
  Definition ns_float (t : option Z) : F := match t with Some z => ofZ z | None => nat_float end.
  (** datetime arithmetic; None is NaT. *)
  Definition nat_add (a b : option Z) : option Z := match a, b with Some x, Some y => Some (x + y)%Z | _, _ => None end.
  Definition nat_sub (a b : option Z) : option Z := match a, b with Some x, Some y => Some (x - y)%Z | _, _ => None end.
  (** .astype('datetime64[D]').astype('datetime64[ns]'): floors to midnight. *)
  Definition day_floor (t : option Z) : option Z := option_map (fun z => (z / NS_PER_DAY * NS_PER_DAY)%Z) t.

  (** self.eot + 4*self.longitude, minutes (_base.py:226, 475). *)
  Definition solar_offset : FA := eot .+ ($4 *: longitude).

  (** _base.py:214-228 [true_solar_time]. *)
  Definition true_solar_time : darray (option Z) :=
    let utc_f := da_map ns_float (of_list DTime (sp_times_utc sp)) in
    da_map toZ (utc_f .+ da_map (fun x => x * $60 * $1e9) solar_offset).

  (** _base.py:397-421 [airmass]. *)
  Definition rec_airmass (parameterization : string) (cz z : F) : option F :=
    if parameterization =? "kasten_1965" then
      let Da := fmaximum $1e-4 ($93.885 - z) in
      Some (cz + $0.15 * powf Da $(-1.253))
    else if parameterization =? "kasten_and_young_1989" then
      let Da := fmaximum $1e-4 ($96.07995 - z) in
      Some (cz + $0.50572 * powf Da $(-1.6364))
    else if parameterization =? "gueymard_2001" then
      let Da := fmaximum $1e-4 ($96.4836 - z) in
      Some (cz + $0.45665 * powf z $0.07 * powf Da $(-1.697))
    else if parameterization =? "gueymard_2003" then
      let Da := fmaximum $1e-4 ($96.741 - z) in
      Some (cz + $0.48353 * powf z $0.095846 * powf Da $(-1.754))
    else None.
  Definition airmass (parameterization : string) : res FA :=
    match rec_airmass parameterization fnan fnan with
    | None => Raise ValueError
    | Some _ =>
        let am cz z :=
          match rec_airmass parameterization cz z with
          | Some r => fmaximum ($1.0 / where_ (z <=. $90.0) r fnan) $1.0          (* clip(1., inf) *)
          | None => fnan
          end in
        Ok (da_map2 am cosz sza)
    end.

  (** _base.py:342-360 [eth]. *)
  Definition eth (ISC : F) (am_correction : string) : res FA :=
    let e := da_map (mul ISC) ecf .* da_map (fmaximum $0.0) cosz in
    if am_correction =? "none" then Ok (da_map (fun x => x * $1.0) e)
    else if am_correction =? "perez_1990" then
      do am <- airmass "kasten_and_young_1989";
      Ok (e .* da_map (fun am => $0.1 + $1.031 * fexp ($(-1.4) / ($0.9 + ($9.4 / am)))) am)
    else if am_correction =? "skarveith_1998" then
      Ok (e .* da_map (fun z => $0.83 - $0.56 * fexp ($(-0.06) * ($90.0 - z))) sza)
    else if am_correction =? "gonzalez_and_calbo_1999" then
      do am <- airmass "gueymard_2003";
      Ok (e .* da_map (fun am => let dCDA := $0.124 - $0.0285 * fln am in
                                 $0.229 + $0.957 * fexp ($(-1.74) * am * dCDA)) am)
    else Raise ValueError.

  (** _base.py:446-451: the sunrise angle in radians. *)
  Definition sunrise_rad : FA :=
    let tanlat := da_map (fun x => ftan (radians x)) latitude in
    let tandec := da_map (fun x => ftan (radians x)) declination in
    let tantan := da_map neg tandec .* tanlat in
    da_map (fun x => facos (where_ (($(-1) <=. x) && (x <=. $1)) x fnan)) tantan.
  Definition sunrise_deg : FA := da_map degrees sunrise_rad.

  Definition hours_to_ns (x : F) : option Z := toZ (x * $3600 * $1e9).
  Definition minutes_to_ns (x : F) : option Z := toZ (x * $60 * $1e9).

  (** _base.py:456-472: the sunrise in true solar time. *)
  Definition sunrise_tst : darray (option Z) :=
    let wsr := da_map (fun w => $12.0 - (degrees w / $15.0)) sunrise_rad in
    da_map2 nat_add (da_map hours_to_ns wsr) (da_map day_floor true_solar_time).
  (** _base.py:474-478. *)
  Definition sunrise_utc : darray (option Z) :=
    da_map2 nat_sub sunrise_tst (da_map minutes_to_ns solar_offset).
  (** _base.py:480-484. *)
  Definition sunrise_local : darray (option Z) :=
    let utcoffset := DA [DTime] (fun e => match nth_error (sp_times sp) (e DTime), nth_error (sp_times_utc sp) (e DTime) with
                                          | Some w, Some u => Some (nat_sub w u) | _, _ => None end) in
    da_map2 nat_add sunrise_utc utcoffset.

  (** _base.py:423-490 [sunrise]. *)
  Definition sunrise (units : string) : res (angle_or_time F) :=
    if units =? "rad" then Ok (Angle sunrise_rad)
    else if units =? "deg" then Ok (Angle sunrise_deg)
    else if units =? "tst" then Ok (Instant sunrise_tst)
    else if units =? "utc" then Ok (Instant sunrise_utc)
    else if units =? "local" then Ok (Instant sunrise_local)
    else Raise AssertionError.

  (** _base.py:532-543 [daylight_length], hours. *)
  Definition daylight_length : FA := ($2.0 / $15.0) *: sunrise_deg.

  (** _base.py:492-530 [sunset]: for 'deg' and 'rad' the local [wss] is read before assignment. *)
  Definition sunset (units : string) : res (angle_or_time F) :=
    let from wsr := Ok (Instant (da_map2 nat_add wsr (da_map hours_to_ns daylight_length))) in
    if units =? "rad" then Raise UnboundLocalError
    else if units =? "deg" then Raise UnboundLocalError
    else if units =? "tst" then from sunrise_tst
    else if units =? "utc" then from sunrise_utc
    else if units =? "local" then from sunrise_local
    else Raise AssertionError.

  (** _base.py:545-577 [incidence]. *)
  Definition hour_of_day (t : option Z) : F := ns_float (nat_sub t (day_floor t)) * $1e-9 / $3600.
  Definition incidence (sfc_slope sfc_azimuth : F) : FA :=
    let ha := da_map (fun t => $15 * ($12 - hour_of_day t)) true_solar_time in
    let c a := fcos (radians a) in
    let s a := fsin (radians a) in
    let cosbeta := c sfc_slope in let sinbeta := s sfc_slope in
    let cosgamma := c sfc_azimuth in let singamma := s sfc_azimuth in
    let coslat := da_map c latitude in let sinlat := da_map s latitude in
    let cosdec := da_map c dec in let sindec := da_map s dec in
    let coshour := da_map c ha in let sinhour := da_map s ha in
    let mulr x a := da_map (fun y => y * x) a in
    (mulr cosbeta sinlat .- mulr cosgamma (mulr sinbeta coslat)) .* sindec
    .+ (mulr cosbeta coslat .+ mulr cosgamma (mulr sinbeta sinlat)) .* cosdec .* coshour
    .+ mulr singamma (mulr sinbeta (cosdec .* sinhour)).
  End Accessors.
End Sunpos.
