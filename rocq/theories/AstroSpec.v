(** * AstroSpec: vocabulary of the properties about values (reals only, see also Sky.v)

    Angles are radians unless said otherwise; [t] is an instant in ns since 1970 (UTC). *)

From Coq Require Import ZArith Reals Bool List String Lra.
From Verif Require Import Num Arrays Libspa Time Core Usecases Spec Ext Sky.
Import ListNotations.
Open Scope R_scope.

(** ** Instants *)
(** The instants a datetime64[ns] can hold: 1677-09-21 .. 2262-04-11. *)
Definition representable (t : Z) : Prop := (- 9223372036854775807 <= t <= 9223372036854775807)%Z.
(** Time of day in UTC hours, to the whole second. *)
Definition utc_hours (t : Z) : R := IZR ((t / 1000000000) mod 86400) / 3600.
(** The sun's hour angle at longitude [lon] (degrees) when the equation of time is [eot] (minutes):
    15 degrees per hour of true solar time counted from noon. *)
Definition solar_hour_angle (t : Z) (lon eot : R) : R := (15 * (utc_hours t - 12) + lon + eot / 4) * (PI / 180).
(** Equal up to whole turns within [eps]. *)
Definition near_turn (x y eps : R) : Prop := exists k : Z, Rabs (x - y - 2 * PI * IZR k) <= eps.

(** ** Arithmetic *)
(** Pairs whose cell results are proved for every float32 rounding; the others need [ideal] rounding. *)
Definition exact_for (E : Env) (alg eng : string) : Prop :=
  ideal E \/ alg = "nrel"%string \/ (eng = "numexpr"%string /\ (alg = "psa"%string \/ alg = "soltrack"%string)).
(** float32 rounding of numbers in [-1, 1]: at most half an ulp off. *)
Definition float32_accurate (E : Env) : Prop := forall x, -1 <= x <= 1 -> Rabs (rnd E x - x) <= / 33554432.
(** Pairs whose ranges are proved. *)
Definition range_ok_for (E : Env) (alg eng : string) : Prop :=
  exact_for E alg eng \/ (alg = "psa"%string /\ eng = "numpy"%string /\ float32_accurate E).
(** A coordinate as the algorithm receives it: rounded to float32, except for nrel. *)
Definition used (E : Env) (alg : string) (x : R) : R := if String.eqb alg "nrel" then x else rnd E x.

(** ** Position of the sun in the sky *)
(** Accuracy with which the hour angle follows from the equation of time. *)
Definition hour_tol (alg : string) : R :=
  if String.eqb alg "psa" then 37 / 100000 else if String.eqb alg "iqbal" then 0 else 2 / 100000.
(** Coefficient of the explicit parallax term z := z0 + k sin z0 (earth radius / astronomical unit). *)
Definition parallax_coef (alg : string) : R :=
  if String.eqb alg "psa" then 42587565907513806 / 1000000000000000000000
  else if String.eqb alg "soltrack" then 42635 / 1000000000 else 0.
(** psa/numpy rounds cos(zenith) to six decimals. *)
Definition cos_tol (alg eng : string) : R :=
  if String.eqb alg "psa" && String.eqb eng "numpy" then 5 / 10000000 else 0.

(** Geocentric direction (declination [d], hour angle [h]) seen at latitude [phi]. *)
Definition sky_plain (k tol phi d h z a : R) : Prop :=
  exists z0, 0 <= z0 <= PI /\ Rabs (cos z0 - sun_U phi d h) <= tol /\ z = z0 + k * sin z0 /\ is_azimuth a phi d h.
(** nrel: the direction as seen from a point of the ellipsoid (flattening 1 - 0.99664719) at geodetic
    latitude [phi]; the equatorial horizontal parallax is 8.794'' over the distance, and the
    distance is 1/sqrt(ecf). *)
Definition sky_topo (phi d h ecf z a : R) : Prop :=
  exists u rho d' h',
    let sx := sin (8.794 / 3600 * sqrt ecf * (PI / 180)) in
    0 <= cos u /\ 0 <= sin u * sin phi /\ 0.99664719 * sin phi * cos u = sin u * cos phi /\
    0 < rho /\ 0 < cos d' /\
    rho * (cos d' * cos h') = cos d * cos h - sx * cos u /\
    rho * (cos d' * sin h') = cos d * sin h /\
    rho * sin d' = sin d - sx * (0.99664719 * sin u) /\
    is_zenith z phi d' h' /\ is_azimuth a phi d' h'.
Definition sky_position (alg eng : string) (phi d h ecf z a : R) : Prop :=
  if String.eqb alg "nrel" then sky_topo phi d h ecf z a
  else sky_plain (parallax_coef alg) (cos_tol alg eng) phi d h z a.

(** ** Evaluated times and cells *)

(** A successful call and one of its non-NaT times. *)
Definition evaluated_time (E : Env) (uc : usecase) (times : times_arg) (lat lon : arg ext) (alg : string) (refr : refr_flag)
    (eng : string) (sp : Sunpos ext) (k : nat) (t : Z) : Prop :=
  call (O := ExtOps E) true uc times lat lon alg refr eng = Ok sp /\
  nth_error (instants times) k = Some (Some t) /\ representable t.
(** ... and one of its places with numerical (non-NaN) coordinates, in degrees. *)
Definition evaluated_cell (E : Env) (uc : usecase) (times : times_arg) (lat lon : arg ext) (alg : string) (refr : refr_flag)
    (eng : string) (sp : Sunpos ext) (k j i : nat) (t : Z) (la lo : R) : Prop :=
  evaluated_time E uc times lat lon alg refr eng sp k t /\
  at_idx uc (elems lat) (elems lon) k j i (Fin la) (Fin lo).
(** The value of an array at an index is the real number [x]. *)
Definition value (a : ndarray ext) (ix : list nat) (x : R) : Prop := get a ix = Some (Fin x).
