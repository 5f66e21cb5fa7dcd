(** * PropNoon: the sun in the east before noon, in the west after noon, and on the meridian at noon (C86)

    [az] is the azimuth returned in degrees, 0 towards south, negative towards east and positive towards west; [tst] the true solar time returned, in nanoseconds. *)
From Coq Require Import ZArith QArith Reals Bool List String Lra Lia.
From Flocq Require Import Core.Raux.
From Interval Require Import Tactic.
From Verif Require Import Num Arrays Libspa Time Core Usecases Spec GenericLemmas GenericLemmas2 TimeLemmas Ext ExtLemmas Witness
  AstroTac Sky SkyClose AstroSpec Astro AstroCell AstroCall Float32 PropAstro Sunpos SunposSpec SunposLemmas SunposR PropSunpos
  CalendarSpec CalendarLemmas PropCalendar SeasonSpec PropSeasons Almanac AlmanacPos SingleSpec SingleLemmas PropSinglePos
  Double DoubleSpec DoublePos PropDouble PropDoublePos TopoSpec PropNrelD SunposD PropSunposD DayR PropDay PropClimb PropPipeline Float64.
Import ListNotations.
Open Scope R_scope.

(** ** Components of a direction *)
Lemma south_dist s w u s' w' u' : Rabs (s - s') <= dist (s, w, u) (s', w', u').
Proof.
  unfold dist, norm. rewrite <- sqrt_Rsqr_abs. apply sqrt_le_1_alt. cbn. unfold Rsqr.
  assert (0 <= (w - w') * (w - w')) by apply Rle_0_sqr. assert (0 <= (u - u') * (u - u')) by apply Rle_0_sqr. lra.
Qed.
Lemma west_dist s w u s' w' u' : Rabs (w - w') <= dist (s, w, u) (s', w', u').
Proof.
  unfold dist, norm. rewrite <- sqrt_Rsqr_abs. apply sqrt_le_1_alt. cbn. unfold Rsqr.
  assert (0 <= (s - s') * (s - s')) by apply Rle_0_sqr. assert (0 <= (u - u') * (u - u')) by apply Rle_0_sqr. lra.
Qed.
(** From one declination and hour angle to nearby ones. *)
Lemma near_azimuth_move tol e a phi d h d' h' : near_azimuth tol a phi d h -> dist (hor phi d h) (hor phi d' h') <= e -> near_azimuth (tol + e) a phi d' h'.
Proof.
  intros (rho & H0 & H1 & H2) Hd. exists rho. unfold hor in Hd.
  assert (S := Rle_trans _ _ _ (south_dist _ _ _ _ _ _) Hd). assert (W := Rle_trans _ _ _ (west_dist _ _ _ _ _ _) Hd).
  apply Rabs_le_inv in H1, H2, S, W. split; [exact H0|]. split; apply Rabs_le; lra.
Qed.
Lemma near_azimuth_le tol tol' a phi d h : tol <= tol' -> near_azimuth tol a phi d h -> near_azimuth tol' a phi d h.
Proof. intros H (rho & H0 & H1 & H2). exists rho. repeat split; try assumption; lra. Qed.

(** ** The returned azimuth belongs to the returned declination and equation of time (any algorithm) *)
Lemma azimuth64 D uc times lat lon alg refr eng sp k j i t la lo az :
  double_like D -> evaluated_cell64 D uc times lat lon alg refr eng sp k j i t la lo ->
  reads (azimuth (O := DoubleOps D) sp) k j i (Fin az) ->
  exists a dd eot, Rabs (az - a * (180 / PI)) <= 2 / 10 ^ 13 /\ Rabs a <= PI + / 10 ^ 15 /\ Rabs dd <= 23.61 /\ value (sp_eot sp) [k] eot /\ reads (declination (O := DoubleOps D) sp) k j i (Fin dd) /\
    forall H e, near_turn H (solar_hour_angle t lo eot) e -> near_azimuth (e + 0.0008) a (rad la) (rad dd) H.
Proof.
  intros HD C Haz. assert (Hc := proj1 (proj1 C)). assert (PB : 3.14159 <= PI <= 3.1416) by (split; interval).
  destruct (dec64 _ _ _ _ _ _ _ _ _ _ _ HD (proj1 C)) as (d & dd & eot & ecf & V1 & Hd & Ed & Bd & V2 & V3 & Bx).
  assert (RP := rd D HD PI). rewrite (Rabs_pos_eq PI) in RP by lra. apply Rabs_le_inv in RP.
  assert (G : exists a, value (sp_azimuth sp) (idx uc k j i) a /\ - r64 D PI <= a <= r64 D PI /\
    forall H e, near_turn H (solar_hour_angle t lo eot) e -> near_azimuth (e + 0.0008) a (rad la) (rad dd) H).
  { destruct (string_dec alg "nrel") as [->|Hn].
    - destruct (C72_nrel_position _ _ _ _ _ _ _ _ _ _ _ _ _ _ HD C) as (d1 & m1 & x1 & h & d' & h' & W1 & W2 & W3 & N1 & T & (a & A1 & A2 & A3) & _).
      unfold value in *. rewrite V1 in W1. injection W1 as <-. rewrite V2 in W2. injection W2 as <-. rewrite V3 in W3. injection W3 as <-.
      exists a. split; [exact A1|]. split; [exact A2|]. intros H e N. change (la * (PI / 180)) with (rad la) in *.
      assert (M := near_azimuth_move _ _ _ _ _ _ _ _ A3 (topo_geo_dist _ _ _ ecf _ _ ltac:(lra) T)).
      assert (B := dist_hor (rad la) d h (rad dd) H _ (near_turn_add _ _ _ _ _ N1 (near_turn_sym _ _ _ N))).
      assert (M2 := near_azimuth_move _ _ _ _ _ _ _ _ M B). revert M2. apply near_azimuth_le. unfold nrel_tol, nrel_hour_tol. lra.
    - destruct (C69_double_position _ _ _ _ _ _ _ _ _ _ _ _ _ _ _ HD Hn C) as (d1 & m1 & h & W1 & W2 & N1 & (a & A1 & A2 & A3) & _).
      unfold value in *. rewrite V1 in W1. injection W1 as <-. rewrite V2 in W2. injection W2 as <-.
      exists a. split; [exact A1|]. split; [exact A2|]. intros H e N. change (la * (PI / 180)) with (rad la) in *.
      assert (B := dist_hor (rad la) d h (rad dd) H _ (near_turn_add _ _ _ _ _ N1 (near_turn_sym _ _ _ N))).
      assert (M2 := near_azimuth_move _ _ _ _ _ _ _ _ A3 B). revert M2. apply near_azimuth_le. assert (Bh := hour_tol_b alg).
      destruct (sol_cases alg eng la) as [[_ T]|[-> [_ T]]]; [|rewrite sol_hour]; lra. }
  destruct G as (a & A1 & A2 & A3). exists a, dd, eot.
  assert (X : reads (azimuth (O := DoubleOps D) sp) k j i (Fin (r64 D (a * degc D)))).
  { refine (reads_mapv (degrees (Ops := DoubleOps D)) (raw_azimuth sp) k j i (Fin a) _ _ (degrees_fin D HD a ltac:(apply Rabs_le; lra))). unfold reads. now rewrite (raw_azimuth_at (O := DoubleOps D) _ _ _ _ _ _ _ _ _ Hc k j i). }
  assert (Y := reads_fun _ _ _ _ _ _ Haz X). injection Y as ->.
  split; [apply (deg_close64 D a HD); apply Rabs_le; lra|]. split; [apply Rabs_le; lra|]. split; [exact Bd|]. split; [exact V2|]. split; [exact (Hd j i)|exact A3].
Qed.

(** ** Plane geometry *)
Lemma rho_b tol a phi d h rho : 0 <= rho -> tol <= 0.001 -> Rabs (rho * cos a - sun_S phi d h) <= tol -> Rabs (rho * sin a - sun_W phi d h) <= tol -> rho <= 2.01.
Proof.
  intros H0 Ht H1 H2. assert (S := hor_unit phi d h). cbn in S. assert (sun_S phi d h * sun_S phi d h + sun_W phi d h * sun_W phi d h <= 1).
  { assert (0 <= sun_U phi d h * sun_U phi d h) by apply Rle_0_sqr. lra. }
  set (s := sun_S phi d h) in *. set (w := sun_W phi d h) in *. apply Rabs_le_inv in H1, H2. pose proof (sc1 a) as Q. set (x := cos a) in *. set (y := sin a) in *.
  assert (-1 <= s <= 1) by (split; nra). assert (-1 <= w <= 1) by (split; nra).
  assert (R2 : rho * rho = (rho * x) * (rho * x) + (rho * y) * (rho * y)) by (replace (rho * x * (rho * x) + rho * y * (rho * y)) with (rho * rho * (y * y + x * x)) by ring; rewrite Q; ring).
  set (p := rho * x) in *. set (q := rho * y) in *. assert (-1.001 <= p <= 1.001) by lra. assert (-1.001 <= q <= 1.001) by lra. nra.
Qed.
(** Afternoon: at least one degree of hour angle from the meridian. *)
Lemma west_side tol a phi d h : near_azimuth tol a phi d h -> tol <= 0.001 -> 0.916 <= cos d -> rad 1 <= h <= PI - rad 1 -> 0.007 <= sin a.
Proof.
  intros (rho & H0 & H1 & H2) Ht Hd Hh. assert (B := rho_b _ _ _ _ _ _ H0 Ht H1 H2).
  assert (S := sin_mid h (rad 1) ltac:(unfold rad; interval) Hh). assert (Z : 0.0174 <= sin (rad 1)) by (unfold rad; interval).
  unfold sun_W in H2. apply Rabs_le_inv in H2. assert (0.916 * 0.0174 <= cos d * sin h) by (apply Rmult_le_compat; lra). apply Rnot_lt_le. intros L. nra.
Qed.
Lemma mirror tol a phi d h : near_azimuth tol a phi d h -> near_azimuth tol (- a) phi d (- h).
Proof.
  intros (rho & H0 & H1 & H2). exists rho. split; [exact H0|]. unfold sun_S, sun_W in *. rewrite !cos_neg, !sin_neg. split; [exact H1|].
  replace (rho * - sin a - cos d * - sin h) with (- (rho * sin a - cos d * sin h)) by ring. rewrite Rabs_Ropp. exact H2.
Qed.
(** The direction of the horizontal component seen from the other hemisphere. *)
Lemma turn_over tol a phi d h : near_azimuth tol a phi d h -> near_azimuth tol (PI - a) (- phi) (- d) h.
Proof.
  intros (rho & H0 & H1 & H2). exists rho. split; [exact H0|]. unfold sun_S, sun_W in *. rewrite sin_PI_x, !cos_neg, !sin_neg.
  replace (cos (PI - a)) with (- cos a) by (rewrite cos_minus, cos_PI, sin_PI; ring). split; [|exact H2].
  replace (rho * - cos a - (- sin phi * cos d * cos h - cos phi * - sin d)) with (- (rho * cos a - (sin phi * cos d * cos h - cos phi * sin d))) by ring. rewrite Rabs_Ropp. exact H1.
Qed.
Lemma sin_pos_range a : Rabs a <= PI + / 10 ^ 15 -> 0.007 <= sin a -> 0.0069 <= a <= PI - 0.0069.
Proof.
  intros B S. assert (PB : 3.14159 <= PI <= 3.1416) by (split; interval). apply Rabs_le_inv in B. 
  assert (B' : - PI - / 10 ^ 15 <= a <= PI + / 10 ^ 15) by lra. clear B.
  destruct (Rle_dec 0.0069 a) as [L|L].
  - split; [exact L|]. apply Rnot_lt_le. intros M. assert (T := sin_lip a PI). rewrite sin_PI in T.
    assert (Rabs (a - PI) <= 0.0069) by (apply Rabs_le; lra). assert (T2 := Rle_trans _ _ _ T H). apply Rabs_le_inv in T2. lra.
  - exfalso. destruct (Rle_dec 0 a) as [M|M].
    + assert (T := sin_lip a 0). rewrite sin_0 in T. assert (Rabs (a - 0) <= 0.0069) by (apply Rabs_le; lra). assert (T2 := Rle_trans _ _ _ T H). apply Rabs_le_inv in T2. lra.
    + destruct (Rle_dec (- PI) a) as [N|N].
      * assert (0 <= sin (- a)) by (apply sin_ge_0; lra). rewrite sin_neg in H. lra.
      * assert (T := sin_lip a (- PI)). rewrite sin_neg, sin_PI in T. assert (Rabs (a - - PI) <= 0.0069) by (apply Rabs_le; lra). assert (T2 := Rle_trans _ _ _ T H). apply Rabs_le_inv in T2. lra.
Qed.
(** Due south and due north, to 0.087 rad (4.98 degrees). *)
Lemma due_south rho a : 0 <= rho -> Rabs a <= PI + / 10 ^ 15 -> 0.28 <= rho * cos a -> Rabs (rho * sin a) <= 0.019 -> Rabs a <= 0.087.
Proof.
  intros H0 B Hc Hs. assert (PB : 3.14159 <= PI <= 3.1416) by (split; interval). apply Rabs_le_inv in B, Hs.
  assert (Z : 0.0868 <= sin 0.087 <= 0.087) by (split; interval). assert (Y : 0.996 <= cos 0.087 <= 1) by (split; interval).
  apply Rabs_le. split; apply Rnot_lt_le; intros L.
  - assert (P : 0 <= sin (- a - 0.087)) by (apply sin_ge_0; lra). rewrite sin_minus, sin_neg, cos_neg in P.
    assert (X : 0 <= rho * (- sin a * cos 0.087 - cos a * sin 0.087)) by (apply Rmult_le_pos; assumption).
    replace (rho * (- sin a * cos 0.087 - cos a * sin 0.087)) with (- (rho * sin a) * cos 0.087 - (rho * cos a) * sin 0.087) in X by ring. nra.
  - assert (P : 0 <= sin (a - 0.087)) by (apply sin_ge_0; lra). rewrite sin_minus in P.
    assert (X : 0 <= rho * (sin a * cos 0.087 - cos a * sin 0.087)) by (apply Rmult_le_pos; assumption).
    replace (rho * (sin a * cos 0.087 - cos a * sin 0.087)) with ((rho * sin a) * cos 0.087 - (rho * cos a) * sin 0.087) in X by ring. nra.
Qed.
Lemma due_north rho a : 0 <= rho -> Rabs a <= PI + / 10 ^ 15 -> rho * cos a <= -0.28 -> Rabs (rho * sin a) <= 0.019 -> PI - 0.087 <= Rabs a.
Proof.
  intros H0 B Hc Hs. assert (PB : 3.14159 <= PI <= 3.1416) by (split; interval). apply Rabs_le_inv in Hs.
  assert (Z : 0.0868 <= sin 0.087 <= 0.087) by (split; interval). assert (Y : 0.996 <= cos 0.087 <= 1) by (split; interval).
  apply Rnot_lt_le. intros L. unfold Rabs in L. destruct (Rcase_abs a) as [N|N].
  - assert (P : 0 <= sin (- a + 0.087)) by (apply sin_ge_0; lra). rewrite sin_plus, sin_neg, cos_neg in P.
    assert (X : 0 <= rho * (- sin a * cos 0.087 + cos a * sin 0.087)) by (apply Rmult_le_pos; assumption).
    replace (rho * (- sin a * cos 0.087 + cos a * sin 0.087)) with (- (rho * sin a) * cos 0.087 + (rho * cos a) * sin 0.087) in X by ring. nra.
  - assert (P : 0 <= sin (a + 0.087)) by (apply sin_ge_0; lra). rewrite sin_plus in P.
    assert (X : 0 <= rho * (sin a * cos 0.087 + cos a * sin 0.087)) by (apply Rmult_le_pos; assumption).
    replace (rho * (sin a * cos 0.087 + cos a * sin 0.087)) with ((rho * sin a) * cos 0.087 + (rho * cos a) * sin 0.087) in X by ring. nra.
Qed.
(** The sun over a place between 40 degrees north and the pole, at noon and at midnight. *)
Lemma noon_S la dd h : 40 <= la <= 90 -> Rabs dd <= 23.61 -> 0.9998 <= cos h -> 0.2815 <= sun_S (rad la) (rad dd) h.
Proof.
  intros Bl Bd Hc. apply Rabs_le_inv in Bd. assert (PB : 3.14159 <= PI <= 3.1416) by (split; interval).
  assert (E : sun_S (rad la) (rad dd) h = sin (rad la - rad dd) - (1 - cos h) * (sin (rad la) * cos (rad dd))) by (unfold sun_S; rewrite sin_minus; ring). rewrite E.
  assert (M := sin_mid (rad la - rad dd) (rad 16.39) ltac:(unfold rad; interval) ltac:(unfold rad; nra)). assert (Z : 0.2821 <= sin (rad 16.39)) by (unfold rad; interval).
  assert (B1 := SIN_bound (rad la)). assert (B2 := COS_bound (rad dd)). assert (B3 := COS_bound h).
  assert (sin (rad la) * cos (rad dd) <= 1) by nra. nra.
Qed.
Lemma midnight_S la dd h : 40 <= la <= 90 -> Rabs dd <= 23.61 -> cos h <= -0.9998 -> sun_S (rad la) (rad dd) h <= -0.2815.
Proof.
  intros Bl Bd Hc. apply Rabs_le_inv in Bd. assert (PB : 3.14159 <= PI <= 3.1416) by (split; interval).
  assert (E : sun_S (rad la) (rad dd) h = (1 + cos h) * (sin (rad la) * cos (rad dd)) - sin (rad la + rad dd)) by (unfold sun_S; rewrite sin_plus; ring). rewrite E.
  assert (M := sin_mid (rad la + rad dd) (rad 16.39) ltac:(unfold rad; interval) ltac:(unfold rad; nra)). assert (Z : 0.2821 <= sin (rad 16.39)) by (unfold rad; interval).
  assert (B1 := SIN_bound (rad la)). assert (B2 := COS_bound (rad dd)). assert (B3 := COS_bound h).
  assert (sin (rad la) * cos (rad dd) <= 1) by nra. nra.
Qed.
Lemma low_W phi d h : Rabs (sin h) <= 0.0175 -> Rabs (sun_W phi d h) <= 0.0175.
Proof. intros H. unfold sun_W. rewrite Rabs_mult. assert (B := COS_bound d). assert (Rabs (cos d) <= 1) by (apply Rabs_le; lra). pose proof (Rabs_pos (sin h)). nra. Qed.
(** Noon: north from 40 degrees on the sun is south, south of -40 degrees north; at midnight the reverse. *)
Lemma on_meridian tol a la dd h : near_azimuth tol a (rad la) (rad dd) h -> tol <= 0.001 -> Rabs a <= PI + / 10 ^ 15 -> Rabs dd <= 23.61 -> -90 <= la <= 90 -> Rabs (sin h) <= 0.0175 ->
  (0.9998 <= cos h -> (40 <= la -> Rabs a <= 0.087) /\ (la <= -40 -> PI - 0.087 <= Rabs a)) /\
  (cos h <= -0.9998 -> (40 <= la -> PI - 0.087 <= Rabs a) /\ (la <= -40 -> Rabs a <= 0.087)).
Proof.
  intros (rho & H0 & H1 & H2) Ht Ba Bd Bl Hs. assert (W := low_W (rad la) (rad dd) h Hs). apply Rabs_le_inv in W, H1, H2.
  assert (Q : Rabs (rho * sin a) <= 0.019) by (apply Rabs_le; lra). assert (Bd' : Rabs (- dd) <= 23.61) by now rewrite Rabs_Ropp.
  assert (T : sun_S (rad (- la)) (rad (- dd)) h = - sun_S (rad la) (rad dd) h).
  { replace (rad (- la)) with (- rad la) by (unfold rad; ring). replace (rad (- dd)) with (- rad dd) by (unfold rad; ring). unfold sun_S. rewrite !sin_neg, !cos_neg. ring. }
  split; intros Hh; split; intros L.
  - assert (S := noon_S la dd h ltac:(lra) Bd Hh). apply (due_south rho a H0 Ba); [lra|exact Q].
  - assert (S := noon_S (- la) (- dd) h ltac:(lra) Bd' Hh). rewrite T in S. apply (due_north rho a H0 Ba); [lra|exact Q].
  - assert (S := midnight_S la dd h ltac:(lra) Bd Hh). apply (due_north rho a H0 Ba); [lra|exact Q].
  - assert (S := midnight_S (- la) (- dd) h ltac:(lra) Bd' Hh). rewrite T in S. apply (due_south rho a H0 Ba); [lra|exact Q].
Qed.

(** ** C86 *)
(** Four minutes are a fifteenth of an hour. *)
Theorem C86_noon : forall D nf uc times lat lon alg refr eng sp k j i t la lo az tst,
  double_like D -> evaluated_cell64 D uc times lat lon alg refr eng sp k j i t la lo -> nth_error (sp_times_utc sp) k = Some (Some t) ->
  reads (azimuth (O := DoubleOps D) sp) k j i (Fin az) -> reads (true_solar_time (O := DoubleOps D) nf sp) k j i (Some tst) ->
  let hours := day_hours tst in
  (12 + 1 / 15 <= hours <= 24 - 1 / 15 -> 0 < az < 180) /\
  (1 / 15 <= hours <= 12 - 1 / 15 -> -180 < az < 0) /\
  (12 - 1 / 15 <= hours <= 12 + 1 / 15 -> (40 <= la -> Rabs az <= 5) /\ (la <= -40 -> 175 <= Rabs az)) /\
  (hours <= 1 / 15 \/ 24 - 1 / 15 <= hours -> (40 <= la -> 175 <= Rabs az) /\ (la <= -40 -> Rabs az <= 5)).
Proof.
  intros D nf uc times lat lon alg refr eng sp k j i t la lo az tst HD C Hu Haz Ht hours.
  destruct (azimuth64 _ _ _ _ _ _ _ _ _ _ _ _ _ _ _ _ HD C Haz) as (a & dd & eot & Ea & Ba & Bd & V2 & _ & A).
  destruct (cell_data64 _ _ _ _ _ _ _ _ _ _ _ _ _ _ _ HD C) as (_ & _ & Bla & _).
  destruct (C77_true_solar_time D nf _ _ _ _ _ _ _ _ _ _ _ _ _ _ _ _ HD C V2 Hu (proj2 (proj2 (proj1 C)))) as (x & U2 & _ & U3). assert (X := reads_fun _ _ _ _ _ _ Ht U2). injection X as <-.
  assert (N := A _ _ (tst_hour t tst lo eot ltac:(lra))).
  assert (N1 : near_azimuth 0.001 a (rad la) (rad dd) (hour_angle tst)) by (revert N; apply near_azimuth_le; lra). clear N A U3.
  assert (Cd : 0.916 <= cos (rad dd)) by (apply Rabs_le_inv in Bd; clear - Bd; unfold rad; interval).
  assert (PB : 3.14159 <= PI <= 3.1416) by (split; interval). assert (EP : PI * (180 / PI) = 180) by (field; lra). assert (QB : 57.29 <= 180 / PI <= 57.3) by (split; interval).
  assert (Bh : 0 <= hours <= 24).
  { unfold hours, day_hours. assert (Z := Z.mod_pos_bound tst 86400000000000 eq_refl). destruct Z as [Z1 Z2]. apply IZR_le in Z1. apply IZR_lt in Z2. lra. }
  assert (Hr : forall x y, x <= y -> rad x <= rad y) by (intros x y L; unfold rad; apply Rmult_le_compat_r; lra). assert (R180 : rad 180 = PI) by (unfold rad; field).
  assert (Rm : forall x, rad (180 - x) = PI - rad x) by (intros x; unfold rad; field). assert (Ro : forall x, rad (- x) = - rad x) by (intros x; unfold rad; ring).
  assert (Eh : hour_angle tst = rad (15 * (hours - 12))) by reflexivity. set (h := hour_angle tst) in *.
  apply Rabs_le_inv in Ea. set (q := 180 / PI) in *. clearbody q.
  split; [|split; [|split]].
  - intros Hh. assert (S := west_side _ _ _ _ _ N1 ltac:(lra) Cd ltac:(rewrite Eh, <- Rm; split; apply Hr; lra)). assert (R := sin_pos_range a Ba S). split; nra.
  - intros Hh. assert (S := west_side _ _ _ _ _ (mirror _ _ _ _ _ N1) ltac:(lra) Cd ltac:(rewrite Eh, <- Rm, <- Ro; split; apply Hr; lra)).
    assert (R := sin_pos_range (- a) ltac:(now rewrite Rabs_Ropp) S). split; nra.
  - intros Hh. assert (Bv : - (1 / 15) <= hours - 12 <= 1 / 15) by lra. set (v := hours - 12) in *. clearbody v.
    assert (Cs : Rabs (sin h) <= 0.0175 /\ 0.9998 <= cos h) by (rewrite Eh; clear - Bv; unfold rad; split; [apply Rabs_le|]; try split; interval).
    destruct (proj1 (on_meridian _ _ _ _ _ N1 ltac:(lra) Ba Bd Bla (proj1 Cs)) (proj2 Cs)) as [P1 P2]. split; intros L.
    + specialize (P1 L). apply Rabs_le_inv in P1. apply Rabs_le. split; nra.
    + specialize (P2 L). unfold Rabs in *. destruct (Rcase_abs a), (Rcase_abs az); nra.
  - intros Hh.
    assert (Cs : Rabs (sin h) <= 0.0175 /\ cos h <= -0.9998).
    { assert (K : exists v, - (1 / 15) <= v <= 1 / 15 /\ (h = rad (15 * v) + PI \/ h = rad (15 * v) - PI)).
      { destruct Hh as [Hh|Hh]; [exists hours|exists (hours - 24)]; (split; [lra|]); rewrite Eh; [right|left]; unfold rad; lra. }
      destruct K as (v & Bv & K). assert (Z : Rabs (sin (rad (15 * v))) <= 0.0175 /\ 0.9998 <= cos (rad (15 * v))) by (clear - Bv; unfold rad; split; [apply Rabs_le|]; try split; interval).
      assert (S : sin h = - sin (rad (15 * v)) /\ cos h = - cos (rad (15 * v))).
      { destruct K as [-> | ->]; [rewrite neg_sin, neg_cos; auto|]. rewrite sin_minus, cos_minus, sin_PI, cos_PI. split; ring. }
      destruct S as [-> ->]. rewrite Rabs_Ropp. lra. }
    destruct (proj2 (on_meridian _ _ _ _ _ N1 ltac:(lra) Ba Bd Bla (proj1 Cs)) (proj2 Cs)) as [P1 P2]. split; intros L.
    + specialize (P1 L). unfold Rabs in *. destruct (Rcase_abs a), (Rcase_abs az); nra.
    + specialize (P2 L). apply Rabs_le_inv in P2. apply Rabs_le. split; nra.
Qed.

(** ** The hypotheses are met: 15 May 2024, 10:00 UTC; at 29.25 degrees east it is noon to three minutes, at 3 degrees west the sun is in the east *)
Definition n_t : Z := 1715767200000000000.
Example C86_example : forall nf uc refr alg eng m la lo, In (alg, eng, m) (supported (O := DoubleOps float64_env)) -> In la [40; -40] -> In lo [29.25; -3] ->
  double_like float64_env /\ exists sp az tst,
    evaluated_cell64 float64_env uc (at_times [Some n_t]) (Scalar (Fin la)) (Scalar (Fin lo)) alg refr eng sp 0 0 0 n_t la lo /\
    nth_error (sp_times_utc sp) 0 = Some (Some n_t) /\
    reads (azimuth (O := DoubleOps float64_env) sp) 0 0 0 (Fin az) /\ reads (true_solar_time (O := DoubleOps float64_env) nf sp) 0 0 0 (Some tst) /\
    if Rlt_dec 0 lo then 12 - 1 / 15 <= day_hours tst <= 12 + 1 / 15 /\ (if Rlt_dec 0 la then Rabs az <= 5 else 175 <= Rabs az)
    else 1 / 15 <= day_hours tst <= 12 - 1 / 15 /\ -180 < az < 0.
Proof.
  intros nf uc refr alg eng m la lo H Hla Hlo. split; [exact float64_like|].
  assert (Bla : -90 <= la <= 90) by (destruct Hla as [<-|[<-|[]]]; lra). assert (Blo : -180 <= lo < 180) by (destruct Hlo as [<-|[<-|[]]]; lra).
  destruct (one_cell64 float64_env uc n_t la lo alg refr eng m float64_like H ltac:(unfold representable, n_t; lia) Bla Blo) as (sp & C).
  assert (Hu : nth_error (sp_times_utc sp) 0 = Some (Some n_t)) by now rewrite (C14_times_utc_partial _ _ _ _ (at_times [Some n_t]) _ _ _ _ _ _ I (proj1 (proj1 C))).
  assert (My : in_month gregorian 2024 5 n_t) by (split; [lia|]; vm_compute; split; [discriminate|reflexivity]).
  destruct (C82_seasons_double gregorian float64_env _ _ _ _ _ _ _ _ 0%nat 0%nat 0%nat _ _ _ gregorian_calendar My float64_like (proj1 C)) as (dd & e & x & _ & He & _ & _ & Be & _). cbn [eot_range fst snd] in Be.
  destruct (C77_true_solar_time float64_env nf _ _ _ _ _ _ _ _ _ _ _ _ _ _ _ _ float64_like C He Hu ltac:(unfold representable, n_t; lia)) as (tst & Ht & _ & U3).
  assert (Haz : exists az, reads (azimuth (O := DoubleOps float64_env) sp) 0 0 0 (Fin az)).
  { destruct (string_dec alg "nrel") as [->|Hn].
    - destruct (C72_position_ranges _ _ _ _ _ _ _ _ _ _ _ _ _ _ float64_like C) as [(a & A & B) _]. exists (r64 float64_env (a * degc float64_env)).
      refine (reads_mapv (degrees (Ops := DoubleOps float64_env)) (raw_azimuth sp) 0 0 0 (Fin a) _ _ (degrees_fin float64_env float64_like a _)).
      + unfold reads. now rewrite (raw_azimuth_at (O := DoubleOps float64_env) _ _ _ _ _ _ _ _ _ (proj1 (proj1 C)) 0 0 0).
      + assert (RP := rd float64_env float64_like PI). assert (PB : 3.14159 <= PI <= 3.1416) by (split; interval). rewrite (Rabs_pos_eq PI) in RP by lra. apply Rabs_le_inv in RP. apply Rabs_le. lra.
    - destruct (C69_position_ranges _ _ _ _ _ _ _ _ _ _ _ _ _ _ _ float64_like Hn C) as [(a & A & B) _]. exists (r64 float64_env (a * degc float64_env)).
      refine (reads_mapv (degrees (Ops := DoubleOps float64_env)) (raw_azimuth sp) 0 0 0 (Fin a) _ _ (degrees_fin float64_env float64_like a _)).
      + unfold reads. now rewrite (raw_azimuth_at (O := DoubleOps float64_env) _ _ _ _ _ _ _ _ _ (proj1 (proj1 C)) 0 0 0).
      + assert (RP := rd float64_env float64_like PI). assert (PB : 3.14159 <= PI <= 3.1416) by (split; interval). rewrite (Rabs_pos_eq PI) in RP by lra. apply Rabs_le_inv in RP. apply Rabs_le. lra. }
  destruct Haz as (az & Haz). exists sp, az, tst. do 4 (split; [assumption|]).
  destruct (C86_noon float64_env nf _ _ _ _ _ _ _ _ _ _ _ _ _ _ _ _ float64_like C Hu Haz Ht) as (_ & P2 & P3 & _). apply Rabs_le_inv in U3.
  assert (Hd : 12 - 4 / 60 <= day_hours tst <= 12 + 4 / 60 /\ lo = 29.25 \/ 1 <= day_hours tst <= 11 /\ lo = -3).
  { assert (Q : (n_t - 900000000000 <= tst <= n_t + 7500000000000)%Z).
    { rewrite minus_IZR in U3. split; apply le_IZR; rewrite ?minus_IZR, ?plus_IZR; destruct Hlo as [<-|[<-|[]]]; lra. }
    assert (M : (tst mod 86400000000000 = tst - 1715731200000000000)%Z).
    { symmetry. apply (Z.mod_unique_pos tst 86400000000000 19858 (tst - 1715731200000000000)); unfold n_t in Q; lia. }
    unfold day_hours. rewrite M. assert (En : IZR (tst - 1715731200000000000) = IZR (tst - n_t) + 36000000000000) by (rewrite !minus_IZR; unfold n_t; lra). rewrite En.
    destruct Hlo as [<-|[<-|[]]]; [left|right]; (split; [lra|reflexivity]). }
  destruct Hd as [[Hd ->]|[Hd ->]]; destruct (Rlt_dec _ _) as [L|L]; try (exfalso; lra).
  - assert (K : 12 - 1 / 15 <= day_hours tst <= 12 + 1 / 15) by lra. split; [exact K|]. destruct (P3 K) as [K1 K2]. destruct (Rlt_dec 0 la); [apply K1|apply K2]; destruct Hla as [<-|[<-|[]]]; lra.
  - assert (K : 1 / 15 <= day_hours tst <= 12 - 1 / 15) by lra. split; [exact K|]. exact (P2 K).
Qed.
