(** * SunposSpec: vocabulary of the properties of the Sunpos accessors *)

From Coq Require Import ZArith Reals Bool List String Lra.
From Verif Require Import Num Arrays Libspa Time Core Usecases Spec Ext Sky AstroSpec Sunpos.
Import ListNotations.
Open Scope R_scope.

(** The element of a named array for time [k], location/latitude [j] and longitude [i]. *)
Definition at_cell (k j i : nat) (d : dim) : nat :=
  match d with DTime => k | DLocation => j | DLatitude => j | DLongitude => i end.
Definition reads {A} (a : darray A) (k j i : nat) (x : A) : Prop := da_at a (at_cell k j i) = Some x.

(** The documented dimension order. *)
Definition doc_dims (uc : usecase) : list dim :=
  match uc with Sites => [DTime; DLocation] | RegularGrid => [DTime; DLatitude; DLongitude] | Transect => [DTime] end.

(** Degrees to radians. *)
Definition rad (x : R) : R := x * (PI / 180).

(** ** Relative optical air mass: m = 1 / (cos z + a z^p (b - z)^-q), z in degrees.
    Kasten (1965), Kasten and Young (1989), Gueymard (2001), Gueymard (2003). *)
Definition am_table : list (string * (R * R * R * R)) :=
  [("kasten_1965", (0.15, 0, 93.885, 1.253));
   ("kasten_and_young_1989", (0.50572, 0, 96.07995, 1.6364));
   ("gueymard_2001", (0.45665, 0.07, 96.4836, 1.697));
   ("gueymard_2003", (0.48353, 0.095846, 96.741, 1.754))]%string.
(** z^p for z >= 0 (z^0 = 1, 0^p = 0). *)
Definition zpow (z p : R) : R := if Req_EM_T p 0 then 1 else if Req_EM_T z 0 then 0 else Rpower z p.
Definition slant (c : R * R * R * R) (z : R) : R :=
  let '(a, p, b, q) := c in cos (rad z) + a * zpow z p * Rpower (b - z) (- q).

(** ** Clearness-index corrections, as functions of the zenith angle (degrees) and the air mass. *)
Definition perez (m : R) : R := 0.1 + 1.031 * exp (- 1.4 / (0.9 + 9.4 / m)).
Definition skartveit (z : R) : R := 0.83 - 0.56 * exp (- 0.06 * (90 - z)).
Definition gonzalez_calbo (m : R) : R := 0.229 + 0.957 * exp (- 1.74 * m * (0.124 - 0.0285 * ln m)).

(** ** The day at latitude [phi] with declination [d] (radians) *)
(** The sun is at the horizon at some hour angle. *)
Definition has_horizon_crossing (phi d : R) : Prop := exists h, sun_U phi d h = 0.

(** ** Surfaces: slope [b] and azimuth [g] (radians, from south, east positive): the outward normal in
    the frame (south, west, up). *)
Definition normal_S (b g : R) : R := sin b * cos g.
Definition normal_W (b g : R) : R := - (sin b * sin g).
Definition normal_U (b g : R) : R := cos b.
Definition cos_incidence (phi d h b g : R) : R :=
  sun_S phi d h * normal_S b g + sun_W phi d h * normal_W b g + sun_U phi d h * normal_U b g.

(** ** Time of day *)
(** Hours since midnight of an instant given in ns. *)
Definition day_hours (t : Z) : R := IZR (t mod 86400000000000) / 3600000000000.
(** The sun's hour angle at true solar time [t]. *)
Definition hour_angle (t : Z) : R := rad (15 * (day_hours t - 12)).
(** Midnight of the day of [t]. *)
Definition midnight_of (t : Z) : Z := (t - t mod 86400000000000)%Z.
