(** * Labels: the coordinate labels of the DataArrays of _base.py, and xarray's alignment by labels

    Sunpos.v combines arrays by dimension name and position only.  xarray first aligns the operands of a binary operation on the
    indexes (labels) of their shared dimensions.  Here every array carries the index of each of its dimensions (those of
    _base.py:104-164, 218-221, 480-484), each binary operation compares the shared indexes, and the accessors of _base.py are
    written again with these operations.  The result of an operation on operands whose indexes differ is left arbitrary
    ([realigned]: xarray would take the intersection, or raise), and so is the comparison of indexes ([same]: pandas'
    [Index.equals]).  Not modelled: names, attributes, and the coordinates latitude/longitude of 'sites' and 'transect', which
    have no index. *)
From Coq Require Import ZArith QArith List Bool Arith String.
From Verif Require Import Num Arrays Libspa Time Core Usecases Sunpos.
Import ListNotations.
Open Scope list_scope.
Open Scope string_scope.

(** The labels along one dimension: wall clock readings, coordinates, or range(n). *)
Inductive labels (F : Type) := Readings (l : list (option Z)) | Coordinates (l : list F) | Numbered (n : nat).
Arguments Readings {F} l.
Arguments Coordinates {F} l.
Arguments Numbered {F} n.

(** A DataArray: values by named dimensions, and the index of each dimension. *)
Record labelled (F A : Type) := LA { la_array : darray A; la_index : dim -> option (labels F) }.
Arguments LA {F A} la_array la_index.
Arguments la_array {F A} l.
Arguments la_index {F A} l.

Inductive labelled_result (F : Type) := LAngle (a : labelled F F) | LInstant (a : labelled F (option Z)).
Arguments LAngle {F} a.
Arguments LInstant {F} a.

Section Labels.
  Context {F : Type} {O : Ops F}.
  Import NumNotations. Open Scope num_scope.
  Variable nat_float : F.
  (** pandas.Index.equals, and what xarray does with operands whose indexes differ. *)
  Variable same : labels F -> labels F -> bool.
  Variable realigned : forall A B C : Type, (A -> B -> C) -> labelled F A -> labelled F B -> res (labelled F C).
  Variable sp : Sunpos F.

  (** xarray: elementwise functions and [.copy(data=...)] keep the indexes. *)
  Definition lmap {A B} (f : A -> B) (a : labelled F A) : labelled F B := LA (da_map f (la_array a)) (la_index a).
  (** xarray: binary operations (and [where]) align the operands first. *)
  Definition aligned {A B} (a : labelled F A) (b : labelled F B) : bool :=
    forallb (fun d => match la_index a d, la_index b d with Some l, Some l' => same l l' | _, _ => true end)
      (filter (fun d => existsb (dim_eqb d) (da_dims (la_array b))) (da_dims (la_array a))).
  Definition lmap2 {A B C} (f : A -> B -> C) (a : labelled F A) (b : labelled F B) : res (labelled F C) :=
    if aligned a b
    then Ok (LA (da_map2 f (la_array a) (la_array b)) (fun d => match la_index a d with Some l => Some l | None => la_index b d end))
    else realigned A B C f a b.

  Local Notation "a .+ b" := (lmap2 add a b) (at level 50, left associativity).
  Local Notation "a .- b" := (lmap2 sub a b) (at level 50, left associativity).
  Local Notation "a .* b" := (lmap2 mul a b) (at level 40, left associativity).
  Notation L := (labelled F F).

  (** The [coords] of lines 104-107, 128-131 and 152-155. *)
  Definition coords (d : dim) : labels F :=
    match d with
    | DTime => Readings (sp_times sp)
    | DLocation => Numbered (List.length (sp_latitude sp))
    | DLatitude => Coordinates (sp_latitude sp)
    | DLongitude => Coordinates (sp_longitude sp)
    end.
  (** [xr.DataArray(data, coords={k: coords[k] for k in ks}, dims=ks)]. *)
  Definition data_array {A} (a : darray A) (ks : list dim) : labelled F A :=
    LA a (fun d => if existsb (dim_eqb d) ks then Some (coords d) else None).

  (** _base.py:109-119, 132-142, 157-164. *)
  Definition l_latitude : L := data_array (latitude sp) [dim_lat sp].
  Definition l_longitude : L := data_array (longitude sp) [dim_lon sp].
  Definition l_ecf : L := data_array (ecf sp) [DTime].
  Definition l_eot : L := data_array (eot sp) [DTime].
  Definition l_raw_declination : L := data_array (raw_declination sp) [DTime].
  Definition l_raw_zenith : L := data_array (raw_zenith sp) (dims_zenith sp).
  Definition l_raw_azimuth : L := data_array (raw_azimuth sp) (dims_zenith sp).

  (** _base.py:250-301. *)
  Definition l_declination : L := lmap degrees l_raw_declination.
  Definition l_zenith : L := lmap degrees l_raw_zenith.
  Definition l_elevation : L := lmap (sub $90.0) l_zenith.
  Definition l_azimuth : L := lmap degrees l_raw_azimuth.
  Definition l_cosz : L := lmap fcos l_raw_zenith.

  (** _base.py:226, 475: self.eot + 4*self.longitude. *)
  Definition l_solar_offset : res L := l_eot .+ lmap (mul $4) l_longitude.

  (** _base.py:214-228. *)
  Definition l_true_solar_time : res (labelled F (option Z)) :=
    let utc_f := LA (da_map (ns_float nat_float) (of_list DTime (sp_times_utc sp))) (fun d => if dim_eqb d DTime then Some (Readings (sp_times sp)) else None) in
    do off <- l_solar_offset;
    do tst_f <- utc_f .+ lmap (fun x => x * $60 * $1e9) off;
    Ok (lmap toZ tst_f).

  (** _base.py:397-421.  Da = maximum(1e-4, top - sza); rec_am = cosz + slope * sza**p * Da**q (the middle factor only for Gueymard). *)
  Definition l_rec_airmass (parameterization : string) : res L :=
    let Da top := lmap (fun z => fmaximum $1e-4 (top - z)) l_zenith in
    if parameterization =? "kasten_1965" then
      l_cosz .+ lmap (fun x => $0.15 * powf x $(-1.253)) (Da $93.885)
    else if parameterization =? "kasten_and_young_1989" then
      l_cosz .+ lmap (fun x => $0.50572 * powf x $(-1.6364)) (Da $96.07995)
    else if parameterization =? "gueymard_2001" then
      do m <- lmap (fun z => $0.45665 * powf z $0.07) l_zenith .* lmap (fun x => powf x $(-1.697)) (Da $96.4836);
      l_cosz .+ m
    else if parameterization =? "gueymard_2003" then
      do m <- lmap (fun z => $0.48353 * powf z $0.095846) l_zenith .* lmap (fun x => powf x $(-1.754)) (Da $96.741);
      l_cosz .+ m
    else Raise ValueError.
  Definition l_airmass (parameterization : string) : res L :=
    do rec_am <- l_rec_airmass parameterization;
    do day <- lmap2 (fun r z => where_ (z <=. $90.0) r fnan) rec_am l_zenith;
    Ok (lmap (fun r => fmaximum ($1.0 / r) $1.0) day).

  (** _base.py:339-360. *)
  Definition l_eth (ISC : F) (am_correction : string) : res L :=
    do e <- lmap (mul ISC) l_ecf .* lmap (fmaximum $0.0) l_cosz;
    if am_correction =? "none" then Ok (lmap (fun x => x * $1.0) e)
    else if am_correction =? "perez_1990" then
      do am <- l_airmass "kasten_and_young_1989";
      e .* lmap (fun am => $0.1 + $1.031 * fexp ($(-1.4) / ($0.9 + ($9.4 / am)))) am
    else if am_correction =? "skarveith_1998" then
      e .* lmap (fun z => $0.83 - $0.56 * fexp ($(-0.06) * ($90.0 - z))) l_zenith
    else if am_correction =? "gonzalez_and_calbo_1999" then
      do am <- l_airmass "gueymard_2003";
      do p <- lmap (mul $(-1.74)) am .* lmap (fun am => $0.124 - $0.0285 * fln am) am;
      e .* lmap (fun x => $0.229 + $0.957 * fexp x) p
    else Raise ValueError.

  (** _base.py:446-451. *)
  Definition l_sunrise_rad : res L :=
    let tanlat := lmap (fun x => ftan (radians x)) l_latitude in
    let tandec := lmap (fun x => ftan (radians x)) l_declination in
    do tantan <- lmap neg tandec .* tanlat;
    do domain <- lmap2 andb (lmap (fun x => $(-1) <=. x) tantan) (lmap (fun x => x <=. $1) tantan);
    do w <- lmap2 (fun x b => where_ b x fnan) tantan domain;
    Ok (lmap facos w).
  Definition l_sunrise_deg : res L := do w <- l_sunrise_rad; Ok (lmap degrees w).
  (** _base.py:456-472. *)
  Definition l_sunrise_tst : res (labelled F (option Z)) :=
    do wsr <- l_sunrise_rad;
    do tst <- l_true_solar_time;
    lmap2 nat_add (lmap (fun w => hours_to_ns ($12.0 - (degrees w / $15.0))) wsr) (lmap day_floor tst).
  (** _base.py:474-478. *)
  Definition l_sunrise_utc : res (labelled F (option Z)) :=
    do wsr <- l_sunrise_tst;
    do off <- l_solar_offset;
    lmap2 nat_sub wsr (lmap minutes_to_ns off).
  (** _base.py:480-484: the offsets are labelled with the 'time' coordinate of [wsr]. *)
  Definition l_sunrise_local : res (labelled F (option Z)) :=
    do wsr <- l_sunrise_utc;
    let utcoffset := LA (DA [DTime] (fun e => match nth_error (sp_times sp) (e DTime), nth_error (sp_times_utc sp) (e DTime) with
                                              | Some w, Some u => Some (nat_sub w u) | _, _ => None end))
                        (fun d => if dim_eqb d DTime then la_index wsr DTime else None) in
    lmap2 nat_add wsr utcoffset.
  (** _base.py:423-490. *)
  Definition l_sunrise (units : string) : res (labelled_result F) :=
    if units =? "rad" then do a <- l_sunrise_rad; Ok (LAngle a)
    else if units =? "deg" then do a <- l_sunrise_deg; Ok (LAngle a)
    else if units =? "tst" then do a <- l_sunrise_tst; Ok (LInstant a)
    else if units =? "utc" then do a <- l_sunrise_utc; Ok (LInstant a)
    else if units =? "local" then do a <- l_sunrise_local; Ok (LInstant a)
    else Raise AssertionError.
  (** _base.py:532-543. *)
  Definition l_daylight_length : res L := do w <- l_sunrise_deg; Ok (lmap (mul ($2.0 / $15.0)) w).
  (** _base.py:492-530. *)
  Definition l_sunset (units : string) : res (labelled_result F) :=
    let from m := do wsr <- m; do dl <- l_daylight_length; do s <- lmap2 nat_add wsr (lmap hours_to_ns dl); Ok (LInstant s) in
    if units =? "rad" then Raise UnboundLocalError
    else if units =? "deg" then Raise UnboundLocalError
    else if units =? "tst" then from l_sunrise_tst
    else if units =? "utc" then from l_sunrise_utc
    else if units =? "local" then from l_sunrise_local
    else Raise AssertionError.

  (** _base.py:545-577. *)
  Definition l_incidence (sfc_slope sfc_azimuth : F) : res L :=
    do tst <- l_true_solar_time;
    let ha := lmap (fun t => $15 * ($12 - hour_of_day nat_float t)) tst in
    let c a := fcos (radians a) in
    let s a := fsin (radians a) in
    let cosbeta := c sfc_slope in let sinbeta := s sfc_slope in
    let cosgamma := c sfc_azimuth in let singamma := s sfc_azimuth in
    let coslat := lmap c l_latitude in let sinlat := lmap s l_latitude in
    let cosdec := lmap c l_declination in let sindec := lmap s l_declination in
    let coshour := lmap c ha in let sinhour := lmap s ha in
    let mulr x a := lmap (fun y => y * x) a in
    do u <- mulr cosbeta sinlat .- mulr cosgamma (mulr sinbeta coslat);
    do term1 <- u .* sindec;
    do v <- mulr cosbeta coslat .+ mulr cosgamma (mulr sinbeta sinlat);
    do vd <- v .* cosdec;
    do term2 <- vd .* coshour;
    do w <- cosdec .* sinhour;
    do sum <- term1 .+ term2;
    sum .+ mulr singamma (mulr sinbeta w).
End Labels.
