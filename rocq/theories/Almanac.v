(** * Almanac: an independent low-precision ephemeris of the sun (specification)

    J. Meeus, Astronomical Algorithms (2nd ed.), chapters 25 and 28: mean longitude (25.2), mean anomaly (25.3),
    equation of the centre, eccentricity (25.4), radius vector (25.5), mean obliquity (22.2, linear term), equation
    of time (28.1) without nutation.  Nothing here refers to the code.  Angles in radians. *)
From Coq Require Import ZArith Reals String.
From Verif Require Import AstroSpec.
Open Scope R_scope.
Open Scope string_scope.
Open Scope R_scope.

Definition deg (x : R) : R := x * (PI / 180).
(** Julian centuries since J2000.0 of an instant in nanoseconds since 1970, whole seconds. *)
Definition centuries (t : Z) : R := (IZR (t / 1000000000) / 86400 - 10957.5) / 36525.
Section At.
  Variable T : R.
  Definition al_L0 : R := deg (280.46646 + 36000.76983 * T + 0.0003032 * T ^ 2).
  Definition al_M : R := deg (357.52911 + 35999.05029 * T - 0.0001537 * T ^ 2).
  Definition al_C : R := deg ((1.914602 - 0.004817 * T - 0.000014 * T ^ 2) * sin al_M
                              + (0.019993 - 0.000101 * T) * sin (2 * al_M) + 0.000289 * sin (3 * al_M)).
  (** longitude corrected for aberration (not for nutation), and mean obliquity *)
  Definition al_lon : R := al_L0 + al_C - deg 0.00569.
  Definition al_obl : R := deg (23.439291 - 0.0130042 * T).
  (** eccentricity and distance in astronomical units *)
  Definition al_e : R := 0.016708634 - 0.000042037 * T - 0.0000001267 * T ^ 2.
  Definition al_R : R := 1.000001018 * (1 - al_e ^ 2) / (1 + al_e * cos (al_M + al_C)).
  Definition al_dec : R := asin (sin al_obl * sin al_lon).
End At.
(** The point of the celestial sphere with ecliptic longitude [l], latitude [b], for obliquity [e], has right ascension
    [a] and declination [d]. *)
Definition equatorial (l b e a d : R) : Prop :=
  cos d * cos a = cos b * cos l /\ cos d * sin a = cos b * sin l * cos e - sin b * sin e /\
  sin d = sin b * cos e + cos b * sin l * sin e /\ - (PI / 2) <= d <= PI / 2.
(** [m] minutes are an equation of time for mean longitude [L] and right ascension [a]: four minutes per degree,
    up to whole days, with the aberration constant of (28.1). *)
Definition eot_of_ra (L a m : R) : Prop := exists k : Z, m = 4 * ((L - a) * (180 / PI) - 0.0057183) + 1440 * IZR k.
(** The almanac's equation of time. *)
Definition al_eot (T m : R) : Prop :=
  Rabs m <= 20 /\ exists a, equatorial (al_lon T) 0 (al_obl T) a (al_dec T) /\ eot_of_ra (al_L0 T) a m.

(** The declination [d] and equation of time [m] come from an ecliptic position, obliquity and mean longitude within
    the given tolerances of the almanac's. *)
Definition elements (T eta zeta bet mu d m : R) : Prop :=
  exists l b e a L, equatorial l b e a d /\ eot_of_ra L a m /\
    near_turn l (al_lon T) eta /\ Rabs b <= bet /\ Rabs (e - al_obl T) <= zeta /\ Rabs (L - al_L0 T) <= mu.

(** ** Tolerances (radians; minutes for the equation of time; [T] centuries from 2000) *)
(** Ecliptic longitude, latitude, obliquity and mean longitude behind the results, for psa, soltrack and nrel. *)
Definition lon_tol (alg : string) (T : R) : R :=
  if String.eqb alg "psa" then 0.00016 + 0.00032 * Rabs T else if String.eqb alg "soltrack" then 0.0000915 else 0.0005.
Definition lat_tol (alg : string) : R := if String.eqb alg "nrel" then 0.0000055 else 0.
Definition obl_tol (alg : string) : R :=
  if String.eqb alg "psa" then 0.000048 else if String.eqb alg "soltrack" then 0.000045 else 0.000055.
Definition mean_tol (alg : string) (T : R) : R :=
  if String.eqb alg "psa" then 0.00014 + 0.00018 * Rabs T else if String.eqb alg "soltrack" then 0.000084 else 0.000109.
(** Results of the four algorithms. *)
Definition dec_tol (alg : string) (T : R) : R :=
  if String.eqb alg "psa" then 0.00012 + 0.00014 * Rabs T else if String.eqb alg "soltrack" then 0.000086
  else if String.eqb alg "nrel" then 0.00028 else 0.0171.
Definition eot_tol (alg : string) (T : R) : R :=
  if String.eqb alg "psa" then 0.079 + 0.123 * Rabs T else if String.eqb alg "soltrack" then 0.048
  else if String.eqb alg "nrel" then 0.16 else 1.83.
Definition ecf_tol (alg : string) : R :=
  if String.eqb alg "nrel" then 0.00048 else if String.eqb alg "iqbal" then 0.0047 else 0.0000005.
(** Parallax and the rounding of cos(zenith) in psa/numpy. *)
Definition parallax_tol (alg eng : string) : R :=
  if String.eqb alg "nrel" then 0.0001 else if String.eqb alg "iqbal" then 0
  else if String.eqb alg "psa" then (if String.eqb eng "numpy" then 0.00105 else 0.000043) else 0.000043.
(** Accuracy of a position: one minute of time is a quarter of a degree. *)
Definition place_tol (alg eng : string) (T : R) : R :=
  dec_tol alg T + eot_tol alg T * (PI / 720) + hour_tol alg + parallax_tol alg eng.
(** The angle between the directions (zenith [z], azimuth [a]) and ([z'], [a']) is at most [tau]. *)
Definition separation_le (z a z' a' tau : R) : Prop := cos tau <= cos z * cos z' + sin z * sin z' * cos (a - a').
