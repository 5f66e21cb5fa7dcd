(** * SeasonSpec: the sun's year, month by month (specification) *)
From Coq Require Import ZArith Reals.
From Verif Require Import CalendarSpec.
Open Scope R_scope.

(** The instant [t] (ns since 1970, UTC) lies in month [m] of year [y]. *)
Definition in_month (day_number : Z -> Z -> Z -> Z) (y m t : Z) : Prop :=
  (1 <= m <= 12)%Z /\ (86400 * day_number y m 1 <= t / 1000000000 < 86400 * (day_number y m (month_length y m) + 1))%Z.

(** Declination in degrees, equation of time in minutes, eccentricity correction (distance to the sun to the power -2): from - to. *)
Definition dec_range (m : Z) : R * R :=
  match m with
  | 1%Z => ((-23.3), (-16.7))
  | 2%Z => ((-17.8), (-6.8))
  | 3%Z => ((-8.4), 5.3)
  | 4%Z => (3.7, 15.8)
  | 5%Z => (14.4, 22.5)
  | 6%Z => (21.6, 23.6)
  | 7%Z => (17.4, 23.4)
  | 8%Z => (7.5, 18.7)
  | 9%Z => ((-4.0), 9.1)
  | 10%Z => ((-15.2), (-2.4))
  | 11%Z => ((-22.3), (-13.7))
  | 12%Z => ((-23.6), (-21.3))
  | _ => (0, 0)
  end.
Definition eot_range (m : Z) : R * R :=
  match m with
  | 1%Z => ((-15.0), (-1.4))
  | 2%Z => ((-15.5), (-11.1))
  | 3%Z => ((-13.8), (-2.7))
  | 4%Z => ((-5.2), 4.2)
  | 5%Z => (0.8, 4.9)
  | 6%Z => ((-5.4), 3.8)
  | 7%Z => ((-7.8), (-2.0))
  | 8%Z => ((-7.7), 1.5)
  | 9%Z => ((-1.6), 11.5)
  | 10%Z => (8.9, 17.4)
  | 11%Z => (9.0, 17.4)
  | 12%Z => ((-5.6), 12.9)
  | _ => (0, 0)
  end.
Definition ecf_range (m : Z) : R * R :=
  match m with
  | 1%Z => (1.026, 1.037)
  | 2%Z => (1.013, 1.033)
  | 3%Z => (0.995, 1.023)
  | 4%Z => (0.979, 1.007)
  | 5%Z => (0.968, 0.99)
  | 6%Z => (0.965, 0.977)
  | 7%Z => (0.965, 0.975)
  | 8%Z => (0.968, 0.987)
  | 9%Z => (0.977, 1.004)
  | 10%Z => (0.992, 1.021)
  | 11%Z => (1.01, 1.033)
  | 12%Z => (1.024, 1.037)
  | _ => (0, 0)
  end.
