(** * Usecases: usecases.py and the constructor of _base.py:Sunpos *)

From Coq Require Import ZArith QArith List Bool Arith String.
From Verif Require Import Num Arrays Libspa Time Core.
Import ListNotations.
Open Scope nat_scope.

Inductive usecase := Sites | RegularGrid | Transect.

Section Usecases.
  Context {F : Type} {O : Ops F}.
  Variable numexpr_available : bool.

  (** A constructed Sunpos instance (_base.py:68-90, 166-168).  [times] are the wall-clock readings
      in [timezone]; [times_utc] the UTC instants. *)
  Record Sunpos := {
    sp_usecase : usecase;
    sp_timezone : string;
    sp_times : list (option Z);
    sp_times_utc : list (option Z);
    sp_latitude : list F;
    sp_longitude : list F;
    sp_algorithm : string;
    sp_engine : string;
    sp_refraction : refr_flag;
    sp_ecf : ndarray F;
    sp_eot : ndarray F;
    sp_declination : ndarray F;
    sp_zenith : ndarray F;
    sp_azimuth : ndarray F }.

  Definition shape_eqb (a b : list nat) : bool :=
    if list_eq_dec Nat.eq_dec a b then true else false.

  (** _base.py:17-168.  The [asserts] are the sanity checks of lines 98-102, 123-126, 146-150.
      latitude and longitude reach the constructor as 1-dim arrays (the check of line 77 is
      vacuous for them). *)
  Definition Sunpos_init (times : times_arg) (lats lons : list F) (algorithm engine : string)
             (refraction : refr_flag) (uc : usecase) (s : solpos F) : res Sunpos :=
    do '(tzname, ws, utc) <- ctor_times times;
    let n_times := List.length utc in
    let n_lats := List.length lats in
    let n_lons := List.length lons in
    let ts := [n_times] in
    let common := shape_eqb (shape (s_ecf s)) ts && shape_eqb (shape (s_eot s)) ts
                  && shape_eqb (shape (s_declination s)) ts in
    let both sh := shape_eqb (shape (s_zenith s)) sh && shape_eqb (shape (s_azimuth s)) sh in
    do _ <- guard (match uc with
                   | Sites => (n_lats =? n_lons) && common && both [n_times; n_lats]
                   | RegularGrid => common && both [n_times; n_lats; n_lons]
                   | Transect => (n_times =? n_lats) && (n_lats =? n_lons) && common && both [n_times]
                   end) AssertionError;
    Ok {| sp_usecase := uc; sp_timezone := tzname; sp_times := ws; sp_times_utc := utc;
          sp_latitude := lats; sp_longitude := lons; sp_algorithm := algorithm;
          sp_engine := engine; sp_refraction := refraction;
          sp_ecf := s_ecf s; sp_eot := s_eot s; sp_declination := s_declination s;
          sp_zenith := s_zenith s; sp_azimuth := s_azimuth s |}.

  (** validate.py:97-105 with required_dims = (1, 1, 1). *)
  Definition check_dimensions (times_dim lats_dim lons_dim : nat) : res unit :=
    guard ((times_dim =? 1) && (lats_dim =? 1) && (lons_dim =? 1)) ValueError.

  (** usecases.py:83-116.  [evaluate] receives the naive UTC datetime64[s] array. *)
  Definition sites (times : times_arg) (latitude longitude : arg F) (algorithm : string)
             (refraction : refr_flag) (engine : string) : res Sunpos :=
    do utc <- to_utc times;
    let times_utc := map (option_map floor_s) utc in
    do _ <- check_dimensions 1 (ndim_of latitude) (ndim_of longitude);
    let lats := elems latitude in
    let lons := elems longitude in
    do _ <- guard (List.length lats =? List.length lons) ValueError;
    do s <- evaluate numexpr_available
              (TNaive false (map (option_map (fun z => (z * NS_PER_S)%Z)) times_utc))
              (Vec lats) (Vec lons) algorithm 1 refraction engine;
    Sunpos_init times lats lons algorithm engine refraction Sites s.

  (** usecases.py:178-204. *)
  Definition regular_grid (times : times_arg) (latitude longitude : arg F) (algorithm : string)
             (refraction : refr_flag) (engine : string) : res Sunpos :=
    do utc <- to_utc times;
    do _ <- check_dimensions 1 (ndim_of latitude) (ndim_of longitude);
    let lats := elems latitude in
    let lons := elems longitude in
    do s <- evaluate numexpr_available times (Vec lats) (Vec lons) algorithm 2 refraction engine;
    Sunpos_init times lats lons algorithm engine refraction RegularGrid s.

  (** usecases.py:266-298. *)
  Definition transect (times : times_arg) (latitude longitude : arg F) (algorithm : string)
             (refraction : refr_flag) (engine : string) : res Sunpos :=
    do utc <- to_utc times;
    let times_utc := map (option_map floor_s) utc in
    do _ <- check_dimensions 1 (ndim_of latitude) (ndim_of longitude);
    let lats := elems latitude in
    let lons := elems longitude in
    do _ <- guard ((List.length lats =? List.length lons) && (List.length lons =? List.length times_utc))
                  ValueError;
    do s <- evaluate numexpr_available times (Vec lats) (Vec lons) algorithm 0 refraction engine;
    Sunpos_init times lats lons algorithm engine refraction Transect s.
End Usecases.
Arguments Sunpos F : clear implicits.
