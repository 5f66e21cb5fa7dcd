(** * TopoSpec: the direction of the sun seen from a place, rather than from the centre of the earth (vocabulary of C72) *)

From Coq Require Import Reals.
Open Scope R_scope.

(** Seen from the geodetic latitude [phi] on the ellipsoid of flattening 1 - 0.99664719, a sun at geocentric declination [d]
    and hour angle [h] stands at declination [d'] and hour angle [h']: the vector towards the sun, minus the observer's
    position in units of the sun's distance.  The equatorial horizontal parallax is 8.794'' over the distance in
    astronomical units, and the distance is 1/sqrt(ecf).  ([u]: reduced latitude.) *)
Definition topocentric (phi d h ecf d' h' : R) : Prop :=
  exists u rho,
    let sx := sin (8.794 / 3600 * sqrt ecf * (PI / 180)) in
    0 <= cos u /\ 0 <= sin u * sin phi /\ 0.99664719 * sin phi * cos u = sin u * cos phi /\
    0 < rho /\ 0 < cos d' /\
    rho * (cos d' * cos h') = cos d * cos h - sx * cos u /\
    rho * (cos d' * sin h') = cos d * sin h /\
    rho * sin d' = sin d - sx * (0.99664719 * sin u).

(** Error of the unit vector towards the sun in nrel, whose coordinates stay in double precision. *)
Definition nrel_tol : R := 1.1 / 100000000.
(** Accuracy with which nrel's hour angle follows from the returned equation of time. *)
Definition nrel_hour_tol : R := 2 / 100000 + 1 / 100000000.
