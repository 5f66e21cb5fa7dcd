(** * SingleSpec: what single-precision rounding does to positions (vocabulary of C68) *)

From Coq Require Import ZArith Reals Bool List String Lra.
From Verif Require Import Num Ext Sky AstroSpec.
Open Scope R_scope.

(** What is used of IEEE-754 binary32 rounding: relative error 2^-24 (2^-25 of 1 below 1), monotone, exact on small integers.
    Proved of round-to-nearest-even in Float32L.v. *)
Definition float32_like (E : Env) : Prop :=
  float32_accurate E /\
  (forall x, Rabs (rnd E x - x) <= Rabs x / 16777216 + / 10 ^ 40) /\
  (forall x y, x <= y -> rnd E x <= rnd E y) /\
  (forall n, (Z.abs n <= 16777216)%Z -> rnd E (IZR n) = IZR n).

(** Error of the unit vector towards the sun (radians), at latitude [la] (degrees). *)
Definition single_tol (alg eng : string) (la : R) : R :=
  if String.eqb alg "soltrack" && String.eqb eng "numpy"
  then (if Rle_dec (Rabs la) 80 then 2 / 1000000 else 4 / 10000)
  else 2 / 1000000.

(** [a] is the direction, from south to west, of a horizontal vector within [tol] of the sun's. *)
Definition near_azimuth (tol a phi d h : R) : Prop :=
  exists rho, 0 <= rho /\ Rabs (rho * cos a - sun_S phi d h) <= tol /\ Rabs (rho * sin a - sun_W phi d h) <= tol.
(** [z] is, but for the explicit parallax term [k], an angle whose cosine is within [tol] of the sun's height. *)
Definition near_zenith (tol k z phi d h : R) : Prop :=
  exists z0, 0 <= z0 <= PI /\ Rabs (cos z0 - sun_U phi d h) <= tol /\ z = z0 + k * sin z0.

From Verif Require Import Arrays Libspa Core Usecases Spec AstroSpec.
(** The position stored at index [ix] is that of a sun at declination [d] and hour angle [h] seen from latitude [phi],
    within [tol]; the zenith may be missing (NaN) only if the sun is that close to the zenith or the nadir. *)
Definition azimuth_within (tol : R) (sp : Sunpos ext) (ix : list nat) (phi d h : R) : Prop :=
  exists a, value (sp_azimuth sp) ix a /\ - PI <= a <= PI /\ near_azimuth tol a phi d h.
Definition zenith_within (tol k : R) (sp : Sunpos ext) (ix : list nat) (phi d h : R) : Prop :=
  (exists z, value (sp_zenith sp) ix z /\ 0 <= z <= PI /\ near_zenith tol k z phi d h)
  \/ (get (sp_zenith sp) ix = Some NaN /\ 1 - tol < Rabs (sun_U phi d h)).
(** Pairs that cannot miss the zenith. *)
Definition zenith_always (alg eng : string) : bool :=
  String.eqb alg "psa" || (String.eqb alg "soltrack" && String.eqb eng "numexpr").
