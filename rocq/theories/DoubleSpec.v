(** * DoubleSpec: what double and single precision do to the returned values (vocabulary of C69) *)

From Coq Require Import ZArith Reals Bool List String Lra.
From Verif Require Import Num Arrays Libspa Time Core Usecases Spec Ext Sky AstroSpec SingleSpec Double.
Open Scope R_scope.

(** Error of the unit vector towards the sun, at latitude [la] (degrees): nearly all of it comes from float32 coordinates. *)
Definition double_tol (alg eng : string) (la : R) : R :=
  if String.eqb alg "soltrack" && String.eqb eng "numpy"
  then (if Rle_dec (Rabs la) 80 then 5 / 1000000 else 7 / 10000)
  else 3 / 1000000.

(** [z] is, but for the explicit parallax term [k] and 1e-9, an angle whose cosine is within [tol] of the sun's height. *)
Definition near_zenith64 (tol k z phi d h : R) : Prop :=
  exists z0, 0 <= z0 <= PI /\ Rabs (cos z0 - sun_U phi d h) <= tol /\ Rabs (z - (z0 + k * sin z0)) <= / 1000000000.

(** A successful call in double precision and one of its non-NaT times, and one of its places with numerical coordinates. *)
Definition evaluated_time64 (D : Env64) (uc : usecase) (times : times_arg) (lat lon : arg ext) (alg : string) (refr : refr_flag)
    (eng : string) (sp : Sunpos ext) (k : nat) (t : Z) : Prop :=
  call (O := DoubleOps D) true uc times lat lon alg refr eng = Ok sp /\
  nth_error (instants times) k = Some (Some t) /\ representable t.
Definition evaluated_cell64 (D : Env64) (uc : usecase) (times : times_arg) (lat lon : arg ext) (alg : string) (refr : refr_flag)
    (eng : string) (sp : Sunpos ext) (k j i : nat) (t : Z) (la lo : R) : Prop :=
  evaluated_time64 D uc times lat lon alg refr eng sp k t /\
  at_idx uc (elems lat) (elems lon) k j i (Fin la) (Fin lo).
(** The position stored at index [ix] is that of a sun at declination [d] and hour angle [h] over latitude [phi], within [tol];
    azimuths lie between the two floats nearest to -pi and pi; the zenith is NaN only if the sun is within [tol] of the vertical. *)
Definition azimuth_within64 (D : Env64) (tol : R) (sp : Sunpos ext) (ix : list nat) (phi d h : R) : Prop :=
  exists a, value (sp_azimuth sp) ix a /\ - r64 D PI <= a <= r64 D PI /\ near_azimuth tol a phi d h.
Definition zenith_within64 (tol k : R) (sp : Sunpos ext) (ix : list nat) (phi d h : R) : Prop :=
  (exists z, value (sp_zenith sp) ix z /\ near_zenith64 tol k z phi d h)
  \/ (get (sp_zenith sp) ix = Some NaN /\ 1 - tol < Rabs (sun_U phi d h)).
(** The pair that cannot miss the zenith: it rounds the cosine to six decimals. *)
Definition zenith_always64 (alg eng : string) : bool := String.eqb alg "psa" && String.eqb eng "numpy".
