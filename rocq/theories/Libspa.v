(** * Libspa: the [sunpos] entry points of the libspa modules *)

From Coq Require Import ZArith QArith List Bool Arith.
From Verif Require Import Num Arrays Psa Soltrack Iqbal Nrel.
Import ListNotations.
Open Scope nat_scope.

Section Libspa.
  Context {F : Type} {O : Ops F}.

  (** A libspa module: its location-independent part, the location-dependent part of
      its three _sunpos_* functions, and the dtype the coordinates are cast to. *)
  Record spalib := {
    lib_T : Type;
    lib_time : Z -> lib_T;                     (* from seconds since 1970-01-01 *)
    lib_ecf : lib_T -> F;
    lib_eot : lib_T -> F;
    lib_dec : lib_T -> F;
    lib_cast : F -> F;                         (* dtype=np.float32 / np.float64 *)
    lib_1d : bool -> lib_T -> F -> F -> F * F; (* refraction, time, longitude, latitude *)
    lib_2d : bool -> lib_T -> F -> F -> F * F;
    lib_3d : bool -> lib_T -> F -> F -> F * F
  }.

  (** libspa/ne_psa.py; [unixtime = np.array(unixtime, dtype=np.float64)]. *)
  Definition ne_psa : spalib :=
    {| lib_T := psa_time; lib_time z := ne_psa_time (ofZ z);
       lib_ecf := psa_ecf; lib_eot := psa_eot; lib_dec := psa_delta;
       lib_cast := cast32; lib_1d := ne_psa_1d; lib_2d := ne_psa_2d; lib_3d := ne_psa_3d |}.
  (** libspa/py_psa.py *)
  Definition py_psa : spalib :=
    {| lib_T := psa_time; lib_time z := py_psa_time (ofZ z);
       lib_ecf := psa_ecf; lib_eot := psa_eot; lib_dec := psa_delta;
       lib_cast := cast32; lib_1d := py_psa_1d; lib_2d := py_psa_2d; lib_3d := py_psa_3d |}.
  (** libspa/ne_soltrack.py *)
  Definition ne_soltrack : spalib :=
    {| lib_T := st_time; lib_time z := ne_soltrack_time (ofZ z);
       lib_ecf := st_ecf; lib_eot := st_eot; lib_dec := st_dec;
       lib_cast := cast32; lib_1d := ne_soltrack_1d; lib_2d := ne_soltrack_2d; lib_3d := ne_soltrack_3d |}.
  (** libspa/py_soltrack.py *)
  Definition py_soltrack : spalib :=
    {| lib_T := st_time; lib_time z := py_soltrack_time (ofZ z);
       lib_ecf := st_ecf; lib_eot := st_eot; lib_dec := st_dec;
       lib_cast := cast32; lib_1d := py_soltrack_1d; lib_2d := py_soltrack_2d; lib_3d := py_soltrack_3d |}.
  (** libspa/ne_iqbal.py; [eot = eot * 60  # minutes] at the end of each function. *)
  Definition ne_iqbal : spalib :=
    {| lib_T := iq_time; lib_time := ne_iqbal_time;
       lib_ecf := iq_ecf; lib_eot t := mul (iq_eot t) (lit 60%Q); lib_dec := iq_dec;
       lib_cast := cast32; lib_1d := ne_iqbal_1d; lib_2d := ne_iqbal_2d; lib_3d := ne_iqbal_3d |}.
  (** libspa/py_iqbal.py *)
  Definition py_iqbal : spalib :=
    {| lib_T := iq_time; lib_time := py_iqbal_time;
       lib_ecf := iq_ecf; lib_eot t := mul (iq_eot t) (lit 60%Q); lib_dec := iq_dec;
       lib_cast := cast32; lib_1d := py_iqbal_1d; lib_2d := py_iqbal_2d; lib_3d := py_iqbal_3d |}.
  (** libspa/ne_nrel.py; coordinates stay float64 (ne_nrel.py:40-41). *)
  Definition ne_nrel : spalib :=
    {| lib_T := nrel_time; lib_time z := ne_nrel_time (ofZ z);
       lib_ecf := nrel_ecf; lib_eot := nr_eot; lib_dec := nr_delta;
       lib_cast x := x; lib_1d := ne_nrel_1d; lib_2d := ne_nrel_2d; lib_3d := ne_nrel_3d |}.

  (** The dictionary returned by [sunpos] (raw row-major values). *)
  Record spa_result := {
    r_zenith : list F; r_azimuth : list F;
    r_ecf : list F; r_eot : list F; r_dec : list F }.

  (** [sunpos(unixtime, longitude, latitude, ndim, with_refraction)], identical in all
      modules (e.g. ne_psa.py:17-63).  [refr] is the value of the test
      [with_refraction is True]. *)
  Definition sunpos (m : spalib) (unixtime : list Z) (longitude latitude : list F)
             (ndim : nat) (refr : bool) : res spa_result :=
    let ts := map (lib_time m) unixtime in
    let lons := map (lib_cast m) longitude in
    let lats := map (lib_cast m) latitude in
    let pack zs := {| r_zenith := map fst zs; r_azimuth := map snd zs;
                      r_ecf := map (lib_ecf m) ts; r_eot := map (lib_eot m) ts;
                      r_dec := map (lib_dec m) ts |} in
    match ndim with
    | 0 => do _ <- guard ((length unixtime =? length longitude) && (length longitude =? length latitude))
                         AssertionError;
           Ok (pack (map (fun '(t, (lon, lat)) => lib_1d m refr t lon lat) (combine ts (combine lons lats))))
    | 1 => do _ <- guard (length longitude =? length latitude) AssertionError;
           Ok (pack (outer2 (fun t '(lon, lat) => lib_2d m refr t lon lat) ts (combine lons lats)))
    | 2 => Ok (pack (outer3 (fun t lat lon => lib_3d m refr t lon lat) ts lats lons))
    | _ => Raise AssertionError
    end.
End Libspa.
Arguments spalib F : clear implicits.
Arguments spa_result F : clear implicits.
