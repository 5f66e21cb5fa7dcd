(** * PropTrack: the incidence on a surface is that of the returned direction of the sun (C87)

    Surface azimuths are positive towards east, the sun's negative towards east (both as documented): a surface of slope [zd] and azimuth [- ad] faces the sun. *)
From Coq Require Import ZArith QArith Reals Bool List String Lra Lia.
From Flocq Require Import Core.Raux.
From Interval Require Import Tactic.
From Verif Require Import Num Arrays Libspa Time Core Usecases Spec GenericLemmas GenericLemmas2 TimeLemmas Ext ExtLemmas Witness
  AstroTac Sky SkyClose AstroSpec Astro AstroCell AstroCall Float32 PropAstro Sunpos SunposSpec SunposLemmas SunposR PropSunpos
  CalendarSpec CalendarLemmas PropCalendar SeasonSpec PropSeasons Almanac AlmanacPos SingleSpec SingleLemmas PropSinglePos
  Double DoubleSpec DoublePos PropDouble PropDoublePos TopoSpec PropNrelD SunposD PropSunposD DayR PropDay PropClimb PropNoon PropPipeline Float64.
Import ListNotations.
Open Scope R_scope.

(** ** Vectors *)
Lemma dist_az z a a' : dist (sky z a) (sky z a') <= Rabs (a - a').
Proof.
  apply norm_le; [apply Rabs_pos|]. rewrite abs_sq. rewrite <- norm_sq. fold (dist (sky z a) (sky z a')). rewrite dist_unit by apply sky_unit. rewrite dot_sky.
  assert (V := vers (a - a')). pose proof (sc1 z). pose proof (COS_bound (a - a')). assert (0 <= sin z * sin z <= 1) by nra. nra.
Qed.
Lemma dot_dist u v n : dot n n = 1 -> Rabs (dot u n - dot v n) <= dist u v.
Proof.
  intros Hn. apply sq_abs; [apply norm_pos|]. unfold dist. rewrite norm_sq. destruct u as [[a b] c], v as [[x y] z], n as [[p q] r]. cbn in *.
  set (e := a - x). set (f := b - y). set (g := c - z).
  replace (a * p + b * q + c * r - (x * p + y * q + z * r)) with (e * p + f * q + g * r) by (unfold e, f, g; ring).
  assert (L : (e * e + f * f + g * g) * (p * p + q * q + r * r) - (e * p + f * q + g * r) * (e * p + f * q + g * r) =
    (e * q - f * p) * (e * q - f * p) + (e * r - g * p) * (e * r - g * p) + (f * r - g * q) * (f * r - g * q)) by ring.
  rewrite Hn in L. assert (A := Rle_0_sqr (e * q - f * p)). assert (B := Rle_0_sqr (e * r - g * p)). assert (C := Rle_0_sqr (f * r - g * q)). unfold Rsqr in *. lra.
Qed.
Lemma incidence_dot phi d h b g : cos_incidence phi d h b g = dot (hor phi d h) (sky b (- g)).
Proof. unfold cos_incidence, normal_S, normal_W, normal_U, hor, sky. cbn. rewrite cos_neg, sin_neg. ring. Qed.

(** ** How far the returned direction is from that of the declination and hour angle *)
Lemma point_any tol z : 0.000003 <= tol <= 0.000005 -> 0 <= point_tol64 tol z <= 0.0033.
Proof.
  intros Ht. unfold point_tol64. assert (Sq := sqrt_sqrt (2 * tol) ltac:(lra)). set (g := sqrt (2 * tol)) in *. assert (Pg : 0 < g) by (apply sqrt_lt_R0; lra).
  assert (Px : g <= Rmax (sin z) g) by apply Rmax_r.
  assert (0 <= 2.002 * tol / Rmax (sin z) g) by (apply Rle_mult_inv_pos; lra).
  assert (2.002 * tol / Rmax (sin z) g <= 1.001 * g).
  { apply (Rmult_le_reg_r (Rmax (sin z) g)); [lra|]. unfold Rdiv. rewrite Rmult_assoc, Rinv_l, Rmult_1_r by lra. nra. }
  assert (g <= 0.0032) by nra. split; lra.
Qed.
Lemma point_far tol z s : 0 < tol -> 0 < s <= sin z -> point_tol64 tol z <= 4.002 * tol + 2.002 * tol / s.
Proof.
  intros Ht Hs. unfold point_tol64. set (g := sqrt (2 * tol)). assert (M : s <= Rmax (sin z) g) by (eapply Rle_trans; [apply Hs|apply Rmax_l]).
  assert (/ Rmax (sin z) g <= / s) by (apply Rinv_le_contravar; lra). unfold Rdiv. apply Rplus_le_compat_l. apply Rmult_le_compat_l; lra.
Qed.
(** At 80 degrees and beyond the sun is far from the zenith and the nadir. *)
Lemma high_lat la dd zd U : 80 <= Rabs la <= 90 -> Rabs dd <= 23.61 -> - cos (rad (la + dd)) <= U <= cos (rad (la - dd)) -> Rabs (cos (rad zd) - U) <= 0.001 -> Rabs (cos (rad zd)) <= 0.56.
Proof.
  intros Bl Bd BU HU. apply Rabs_le_inv in HU. apply Rabs_le_inv in Bd.
  assert (K : forall x, 56.39 <= x <= 113.61 \/ -113.61 <= x <= -56.39 -> cos (rad x) <= 0.555).
  { intros x [B|B]; clear - B; unfold rad; [|replace (x * (PI / 180)) with (- (- x * (PI / 180))) by ring; rewrite cos_neg; set (y := - x) in *; assert (B' : 56.39 <= y <= 113.61) by (unfold y; lra); clearbody y; clear B]; interval. }
  assert (K1 : cos (rad (la - dd)) <= 0.555) by (apply K; unfold Rabs in Bl; destruct (Rcase_abs la); lra).
  assert (K2 : cos (rad (la + dd)) <= 0.555) by (apply K; unfold Rabs in Bl; destruct (Rcase_abs la); lra).
  apply Rabs_le. lra.
Qed.
Lemma direction64 D uc times lat lon alg refr eng sp k j i t la lo zd ad :
  double_like D -> is_True refr = false -> evaluated_cell64 D uc times lat lon alg refr eng sp k j i t la lo ->
  reads (zenith (O := DoubleOps D) sp) k j i (Fin zd) -> reads (azimuth (O := DoubleOps D) sp) k j i (Fin ad) ->
  exists dd eot, reads (declination (O := DoubleOps D) sp) k j i (Fin dd) /\ value (sp_eot sp) [k] eot /\
    forall H e, near_turn H (solar_hour_angle t lo eot) e ->
      dist (sky (rad zd) (rad ad)) (hor (rad la) (rad dd) H) <= e + 0.0048 /\
      (0.1 <= sin (rad zd) -> Rabs la <= 80 -> dist (sky (rad zd) (rad ad)) (hor (rad la) (rad dd) H) <= e + 0.00075).
Proof.
  intros HD Hr C Hz Haz. assert (Hc := proj1 (proj1 C)). assert (PB : 3.14159 <= PI <= 3.1416) by (split; interval).
  destruct (height64 _ _ _ _ _ _ _ _ _ _ _ _ _ _ _ _ HD Hr C Hz) as (d & dd & eot & Hd & V1 & Ed & Bd & V2 & _ & Bz & HU).
  destruct (C74_elevation_cosz D _ _ _ _ _ _ _ _ _ _ _ _ HD Hc Hz ltac:(apply Rabs_le; lra)) as ((z & Z & Ez) & _ & _).
  destruct (cell_data64 _ _ _ _ _ _ _ _ _ _ _ _ _ _ _ HD C) as (_ & _ & Bla & _).
  assert (Ez' : Rabs (rad zd - z) <= / 10 ^ 14).
  { replace (rad zd - z) with ((zd - z * (180 / PI)) * (PI / 180)) by (unfold rad; field; apply PI_neq0).
    rewrite Rabs_mult, (Rabs_pos_eq (PI / 180)) by interval. assert (P : 0 <= PI / 180 <= 0.02) by (split; interval). pose proof (Rabs_pos (zd - z * (180 / PI))). nra. }
  assert (AZ : forall a, value (sp_azimuth sp) (idx uc k j i) a -> Rabs (rad ad - a) <= / 10 ^ 14).
  { intros a A.
    assert (RP := rd D HD PI). rewrite (Rabs_pos_eq PI) in RP by lra. apply Rabs_le_inv in RP.
    assert (B : - r64 D PI <= a <= r64 D PI).
    { destruct (string_dec alg "nrel") as [->|Hn].
      - destruct (C72_position_ranges _ _ _ _ _ _ _ _ _ _ _ _ _ _ HD C) as [(a' & A' & B') _]. unfold value in *. rewrite A in A'. injection A' as <-. exact B'.
      - destruct (C69_position_ranges _ _ _ _ _ _ _ _ _ _ _ _ _ _ _ HD Hn C) as [(a' & A' & B') _]. unfold value in *. rewrite A in A'. injection A' as <-. exact B'. }
    assert (X : reads (azimuth (O := DoubleOps D) sp) k j i (Fin (r64 D (a * degc D)))).
    { refine (reads_mapv (degrees (Ops := DoubleOps D)) (raw_azimuth sp) k j i (Fin a) _ _ (degrees_fin D HD a ltac:(apply Rabs_le; lra))). unfold reads. now rewrite (raw_azimuth_at (O := DoubleOps D) _ _ _ _ _ _ _ _ _ Hc k j i). }
    assert (Y := reads_fun _ _ _ _ _ _ Haz X). injection Y as ->. assert (Q := deg_close64 D a HD ltac:(apply Rabs_le; lra)). set (v := r64 D (a * degc D)) in *.
    replace (rad v - a) with ((v - a * (180 / PI)) * (PI / 180)) by (unfold rad; field; apply PI_neq0).
    rewrite Rabs_mult, (Rabs_pos_eq (PI / 180)) by interval. assert (P : 0 <= PI / 180 <= 0.02) by (split; interval). pose proof (Rabs_pos (v - a * (180 / PI))). nra. }
  exists dd, eot. split; [exact Hd|]. split; [exact V2|]. intros H e N.
  assert (SZ := Rle_trans _ _ _ (sin_lip (rad zd) z) Ez'). apply Rabs_le_inv in SZ.
  assert (G : forall a c d0 h0 e0, value (sp_azimuth sp) (idx uc k j i) a -> d0 = d -> near_turn h0 (solar_hour_angle t lo eot) e0 -> dist (sky z a) (hor (rad la) d0 h0) <= c ->
    dist (sky (rad zd) (rad ad)) (hor (rad la) (rad dd) H) <= c + e0 + e + 0.000000001).
  { intros a c d0 h0 e0 A -> N0 Hc0. assert (T1 := dist_tri (sky (rad zd) (rad ad)) (sky z (rad ad)) (hor (rad la) (rad dd) H)). assert (T2 := dist_tri (sky z (rad ad)) (sky z a) (hor (rad la) (rad dd) H)).
    assert (T3 := dist_tri (sky z a) (hor (rad la) d h0) (hor (rad la) (rad dd) H)). assert (D1 := Rle_trans _ _ _ (dist_zen (rad zd) z (rad ad)) Ez'). assert (D2 := Rle_trans _ _ _ (dist_az z (rad ad) a) (AZ a A)).
    assert (D3 := dist_hor (rad la) d h0 (rad dd) H _ (near_turn_add _ _ _ _ _ N0 (near_turn_sym _ _ _ N))). lra. }
  destruct (string_dec alg "nrel") as [->|Hn].
  - destruct (call_nrel64_dist _ _ _ _ _ _ _ _ _ _ _ _ _ _ _ HD Hr C Z) as (d1 & m1 & x1 & h & d' & h' & a & W1 & W2 & W3 & _ & _ & N1 & T & _ & A1 & _ & Ds).
    destruct (C72_ranges _ _ _ _ _ _ _ _ _ _ HD (proj1 C)) as (d2 & m2 & x2 & X1 & X2 & X3 & _ & _ & BX).
    unfold value in *. rewrite V1 in W1. injection W1 as <-. rewrite V2 in W2. injection W2 as <-. rewrite W3 in X3. injection X3 as <-. change (la * (PI / 180)) with (rad la) in *.
    assert (Td := topo_geo_dist _ _ _ x1 _ _ ltac:(lra) T). assert (Tr := dist_tri (sky z a) (hor (rad la) d' h') (hor (rad la) d h)). assert (Pb := nrel_point_b z).
    assert (K := G a _ d h _ A1 eq_refl N1 (Rle_trans _ _ _ Tr (Rplus_le_compat _ _ _ _ Ds Td))). unfold nrel_hour_tol in K. split; [lra|]. intros _ _. lra.
  - destruct (call_dist64 _ _ _ _ _ _ _ _ _ _ _ _ _ _ _ _ HD Hn Hr C Z) as (d1 & m1 & h & a & W1 & W2 & A1 & _ & N1 & Ds).
    unfold value in *. rewrite V1 in W1. injection W1 as <-. rewrite V2 in W2. injection W2 as <-. change (la * (PI / 180)) with (rad la) in *.
    assert (K := G a _ d h _ A1 eq_refl N1 Ds). assert (Bk := coef_b alg). assert (Bh := hour_tol_b alg).
    assert (Cases : 0.000003 <= double_tol alg eng la <= 0.000005 \/ alg = "soltrack"%string /\ double_tol alg eng la = 7 / 10000 /\ 80 < Rabs la).
    { unfold double_tol. destruct (String.eqb_spec alg "soltrack") as [He|He]; [|left; cbn; lra]. destruct (String.eqb eng "numpy"); [|left; cbn; lra]. cbn [andb]. destruct (Rle_dec (Rabs la) 80); [left; lra|]. right. split; [exact He|]. split; [reflexivity|lra]. }
    destruct Cases as [Bt|(-> & Et & L)].
    + split; [assert (P := point_any _ z Bt); lra|]. intros Hs _. assert (P := point_far (double_tol alg eng la) z 0.09 ltac:(lra) ltac:(lra)). lra.
    + split; [|intros _ L2; lra]. rewrite sol_hour in K. rewrite Et in K.
      assert (S0 := HU (solar_hour_angle t lo eot) 0). specialize (S0 ltac:(exists 0%Z; rewrite Rmult_0_r, !Rminus_diag_eq, Rabs_R0 by ring; lra)).
      assert (Bd2 := Bd). apply Rabs_le_inv in Bd2. assert (Q := high_lat la dd zd _ ltac:(split; [lra|apply Rabs_le; lra]) Bd (high_sun la dd _ Bla ltac:(lra)) ltac:(eapply Rle_trans; [exact S0|lra])).
      assert (Sn : 0.8 <= sin (rad zd)).
      { assert (S1 := sc1 (rad zd)). assert (A2 := abs_sq (cos (rad zd))). pose proof (Rabs_pos (cos (rad zd))). assert (0.6864 <= sin (rad zd) * sin (rad zd)) by nra.
        assert (-0.0001 <= sin (rad zd)); [|nra]. destruct (Rle_dec 0 (rad zd)) as [P0|P0]; [destruct (Rle_dec (rad zd) PI) as [P1|P1]|].
        - assert (0 <= sin (rad zd)) by (now apply sin_ge_0). lra.
        - assert (T := sin_lip (rad zd) PI). rewrite sin_PI in T. assert (Rabs (rad zd - PI) <= 0.00001) by (unfold rad in *; apply Rabs_le; nra). assert (T2 := Rle_trans _ _ _ T H2). apply Rabs_le_inv in T2. lra.
        - assert (T := sin_lip (rad zd) 0). rewrite sin_0 in T. assert (Rabs (rad zd - 0) <= 0.00001) by (unfold rad in *; apply Rabs_le; nra). assert (T2 := Rle_trans _ _ _ T H2). apply Rabs_le_inv in T2. lra. }
      assert (P := point_far (7 / 10000) z 0.79 ltac:(lra) ltac:(lra)). lra.
Qed.

(** ** C87 *)
Theorem C87_incidence : forall D nf uc times lat lon alg refr eng sp k j i t la lo zd ad slope g c,
  double_like D -> is_True refr = false -> evaluated_cell64 D uc times lat lon alg refr eng sp k j i t la lo -> nth_error (sp_times_utc sp) k = Some (Some t) ->
  reads (zenith (O := DoubleOps D) sp) k j i (Fin zd) -> reads (azimuth (O := DoubleOps D) sp) k j i (Fin ad) ->
  Rabs slope <= 1000 -> Rabs g <= 1000 -> reads (incidence (O := DoubleOps D) nf sp (Fin slope) (Fin g)) k j i (Fin c) ->
  let expected := cos (rad zd) * cos (rad slope) + sin (rad zd) * sin (rad slope) * cos (rad ad + rad g) in
  Rabs (c - expected) <= 0.005 /\
  (0.1 <= sin (rad zd) -> Rabs la <= 80 -> Rabs (c - expected) <= 0.001) /\
  (slope = zd -> g = - ad -> 0.99998 <= c).
Proof.
  intros D nf uc times lat lon alg refr eng sp k j i t la lo zd ad slope g c HD Hr C Hu Hz Haz Bs Bg Hi expected.
  destruct (direction64 _ _ _ _ _ _ _ _ _ _ _ _ _ _ _ _ _ HD Hr C Hz Haz) as (dd & eot & Hd & V2 & HU).
  assert (Ru : utc_representable sp k) by (intros u Hu'; rewrite Hu in Hu'; injection Hu' as <-; exact (proj2 (proj2 (proj1 C)))).
  destruct (C77_incidence D nf _ _ _ _ _ _ _ _ _ _ _ _ _ _ _ HD C Hd Ru) as (tst & Ht & HI). destruct (HI slope g Bs Bg) as (c' & Hc' & Ec).
  assert (X := reads_fun _ _ _ _ _ _ Hi Hc'). injection X as <-. rewrite incidence_dot in Ec.
  destruct (C77_true_solar_time D nf _ _ _ _ _ _ _ _ _ _ _ _ _ _ _ _ HD C V2 Hu (proj2 (proj2 (proj1 C)))) as (x & U2 & _ & U3). assert (X := reads_fun _ _ _ _ _ _ Ht U2). injection X as <-.
  destruct (HU _ _ (tst_hour t tst lo eot ltac:(lra))) as [D1 D2].
  assert (Ex : expected = dot (sky (rad zd) (rad ad)) (sky (rad slope) (- rad g))) by (rewrite dot_sky; unfold expected; replace (rad ad - - rad g) with (rad ad + rad g) by ring; reflexivity).
  assert (Q := dot_dist (sky (rad zd) (rad ad)) (hor (rad la) (rad dd) (hour_angle tst)) (sky (rad slope) (- rad g)) (sky_unit _ _)). rewrite <- Ex in Q.
  assert (K : Rabs (c - expected) <= dist (sky (rad zd) (rad ad)) (hor (rad la) (rad dd) (hour_angle tst)) + / 10 ^ 13) by (apply Rabs_le_inv in Ec, Q; apply Rabs_le; lra).
  split; [lra|]. split; [intros S L; specialize (D2 S L); lra|]. intros -> ->.
  replace (- rad (- ad)) with (rad ad) in Ec by (unfold rad; ring). set (u := sky (rad zd) (rad ad)) in *. set (v := hor (rad la) (rad dd) (hour_angle tst)) in *.
  assert (U := dist_unit v u (hor_unit _ _ _) (sky_unit _ _)). rewrite dist_sym in U. assert (P : 0 <= dist u v) by apply norm_pos. apply Rabs_le_inv in Ec. nra.
Qed.

(** ** Outside the tropics the unrefracted zenith angle is always a number (C74) *)
Lemma low_sun la dd h : 24.5 <= Rabs la <= 90 -> Rabs dd <= 23.61 -> Rabs (sun_U (rad la) (rad dd) h) <= 0.99989.
Proof.
  intros Bl Bd. assert (Bd2 := Bd). apply Rabs_le_inv in Bd2. assert (Ba : -90 <= la <= 90) by (apply Rabs_le_inv; apply Bl). destruct (high_sun la dd h Ba ltac:(lra)) as [H1 H2].
  assert (K : forall x, 0.89 <= x <= 113.61 \/ -113.61 <= x <= -0.89 -> cos (rad x) <= 0.99989).
  { assert (K0 : forall x, 0.89 <= x <= 113.61 -> cos (rad x) <= 0.99989).
    { intros x B. assert (cos (rad x) <= cos (rad 0.89)) by (assert (P := PI_RGT_0); apply cos_decr_1; unfold rad; nra). assert (cos (rad 0.89) <= 0.99989) by (unfold rad; interval). lra. }
    intros x [B|B]; [now apply K0|]. replace (rad x) with (- rad (- x)) by (unfold rad; ring). rewrite cos_neg. apply K0. lra. }
  assert (K1 : cos (rad (la - dd)) <= 0.99989) by (apply K; unfold Rabs in Bl; destruct (Rcase_abs la); lra).
  assert (K2 : cos (rad (la + dd)) <= 0.99989) by (apply K; unfold Rabs in Bl; destruct (Rcase_abs la); lra).
  apply Rabs_le. lra.
Qed.
Theorem C74_number_outside_tropics : forall D uc times lat lon alg refr eng sp k j i t la lo,
  double_like D -> is_True refr = false -> evaluated_cell64 D uc times lat lon alg refr eng sp k j i t la lo -> 24.5 <= Rabs la ->
  exists zd, reads (zenith (O := DoubleOps D) sp) k j i (Fin zd) /\ - / 10 ^ 7 <= zd <= 180 + / 10 ^ 7.
Proof.
  intros D uc times lat lon alg refr eng sp k j i t la lo HD Hr C L. assert (Hc := proj1 (proj1 C)). assert (PB : 3.14159 <= PI <= 3.1416) by (split; interval).
  destruct (dec64 _ _ _ _ _ _ _ _ _ _ _ HD (proj1 C)) as (d & dd & eot & ecf & V1 & Hd & Ed & Bd & V2 & V3 & Bx).
  destruct (cell_data64 _ _ _ _ _ _ _ _ _ _ _ _ _ _ _ HD C) as (_ & _ & Bla & _).
  assert (LU : forall h, Rabs (sun_U (rad la) d h) <= 0.9999).
  { intros h. assert (X := low_sun la dd h ltac:(split; [exact L|apply Rabs_le; lra]) Bd). assert (Y := dec_height (rad la) d (rad dd) h). apply Rabs_le_inv in X, Y. apply Rabs_le. assert (/ 10 ^ 14 <= 0.000001) by lra. lra. }
  assert (G : exists z, value (sp_zenith sp) (idx uc k j i) z).
  { destruct (string_dec alg "nrel") as [->|Hn].
    - destruct (C72_nrel_position _ _ _ _ _ _ _ _ _ _ _ _ _ _ HD C) as (d1 & m1 & x1 & h & d' & h' & W1 & W2 & W3 & N1 & T & _ & Zw). destruct (Zw Hr) as [(z & Y & _)|(Y & B)]; [now exists z|exfalso].
      unfold value in *. rewrite V1 in W1. injection W1 as <-. rewrite V3 in W3. injection W3 as <-. change (la * (PI / 180)) with (rad la) in *.
      assert (M := topo_geo_dist _ _ _ ecf _ _ ltac:(lra) T). unfold hor in M. assert (M2 := Rle_trans _ _ _ (up_dist _ _ _ _ _ _) M). specialize (LU h). unfold nrel_tol in B. apply Rabs_le_inv in M2, LU.
      assert (Rabs (sun_U (rad la) d' h') <= 0.99996) by (apply Rabs_le; lra). lra.
    - destruct (C69_double_position _ _ _ _ _ _ _ _ _ _ _ _ _ _ _ HD Hn C) as (d1 & m1 & h & W1 & W2 & N1 & _ & Zw). destruct (proj1 (Zw Hr)) as [(z & Y & _)|(Y & B)]; [now exists z|exfalso].
      unfold value in *. rewrite V1 in W1. injection W1 as <-. change (la * (PI / 180)) with (rad la) in *. specialize (LU h).
      destruct (Rle_dec (Rabs la) 80) as [L8|L8].
      + assert (double_tol alg eng la <= 0.000005) by (unfold double_tol; destruct (_ && _)%bool; [destruct (Rle_dec _ _); [lra|contradiction]|lra]). lra.
      + assert (Q := high_sun la dd h Bla ltac:(apply Rabs_le_inv in Bd; lra)). assert (Y' := dec_height (rad la) d (rad dd) h).
        assert (K : forall x, 56.39 <= x <= 113.61 \/ -113.61 <= x <= -56.39 -> cos (rad x) <= 0.555).
        { intros x [B'|B']; clear - B'; unfold rad; [|replace (x * (PI / 180)) with (- (- x * (PI / 180))) by ring; rewrite cos_neg; set (y := - x) in *; assert (B2 : 56.39 <= y <= 113.61) by (unfold y; lra); clearbody y; clear B']; interval. }
        assert (Bd2 := Bd). apply Rabs_le_inv in Bd2.
        assert (K1 : cos (rad (la - dd)) <= 0.555) by (apply K; unfold Rabs in L8; destruct (Rcase_abs la); lra).
        assert (K2 : cos (rad (la + dd)) <= 0.555) by (apply K; unfold Rabs in L8; destruct (Rcase_abs la); lra).
        apply Rabs_le_inv in Y'. assert (/ 10 ^ 14 <= 0.000001) by lra. assert (Rabs (sun_U (rad la) d h) <= 0.56) by (apply Rabs_le; lra).
        destruct (sol_cases alg eng la) as [[_ T]|[_ [_ T]]]; lra. }
  destruct G as (z & Z). apply (zenith_raw64 _ _ _ _ _ _ _ _ _ _ _ _ _ Hc) in Z.
  destruct (proj1 (C74_ranges D _ _ _ _ _ _ _ _ _ _ _ _ _ _ HD Hr C)) as [N|(zd & Hz & Bz)].
  { exfalso. apply reads_map_inv in N as (y & Hy & Hx). assert (X := reads_fun _ _ _ _ _ _ Z Hy). subst y. cbn [degrees DoubleOps] in Hx. rewrite fin_mul in Hx. cbn [e_rd] in Hx. unfold fin64 in Hx. repeat destruct (Rlt_dec _ _) in Hx; discriminate Hx. }
  exists zd. split; [exact Hz|exact Bz].
Qed.

(** ** The hypotheses are met: 15 May 2024, 10:00 UTC, 40 degrees north or south: a surface facing the sun, for every algorithm *)
Example C87_example : forall nf uc alg eng m la, In (alg, eng, m) (supported (O := DoubleOps float64_env)) -> In la [40; -40] ->
  double_like float64_env /\ exists sp zd ad c,
    evaluated_cell64 float64_env uc (at_times [Some n_t]) (Scalar (Fin la)) (Scalar (Fin (-3))) alg RFalse eng sp 0 0 0 n_t la (-3) /\
    nth_error (sp_times_utc sp) 0 = Some (Some n_t) /\
    reads (zenith (O := DoubleOps float64_env) sp) 0 0 0 (Fin zd) /\ reads (azimuth (O := DoubleOps float64_env) sp) 0 0 0 (Fin ad) /\
    Rabs zd <= 1000 /\ Rabs ad <= 1000 /\ reads (incidence (O := DoubleOps float64_env) nf sp (Fin zd) (Fin (- ad))) 0 0 0 (Fin c) /\ 0.99998 <= c.
Proof.
  intros nf uc alg eng m la H Hla. split; [exact float64_like|]. assert (R0 : is_True RFalse = false) by reflexivity.
  destruct (C86_example nf uc RFalse alg eng m la (-3) H Hla ltac:(cbn; tauto)) as (_ & sp & ad & tst & C & Hu & Had & _ & HX).
  destruct (C74_number_outside_tropics float64_env _ _ _ _ _ _ _ _ _ _ _ _ _ _ float64_like R0 C ltac:(destruct Hla as [<-|[<-|[]]]; unfold Rabs; destruct (Rcase_abs _); lra)) as (zd & Hz & Bz).
  destruct (C74_ranges float64_env _ _ _ _ _ _ _ _ _ _ _ _ _ _ float64_like R0 C) as (_ & (ad' & Had' & Bad) & (dd & Hd & _)).
  assert (X := reads_fun _ _ _ _ _ _ Had Had'). injection X as <-. apply Rabs_le_inv in Bad.
  assert (B1 : Rabs zd <= 1000) by (apply Rabs_le; lra). assert (B2 : Rabs ad <= 1000) by (apply Rabs_le; lra).
  assert (Ru : utc_representable sp 0) by (intros u Hu'; rewrite Hu in Hu'; injection Hu' as <-; exact (proj2 (proj2 (proj1 C)))).
  assert (B3 : Rabs (- ad) <= 1000) by (rewrite Rabs_Ropp; exact B2).
  destruct (C77_incidence float64_env nf _ _ _ _ _ _ _ _ _ _ _ _ _ _ _ float64_like C Hd Ru) as (t1 & _ & HI). destruct (HI zd (- ad) B1 B3) as (c & Hc & _).
  exists sp, zd, ad, c. do 7 (split; [assumption|]).
  apply (proj2 (proj2 (C87_incidence float64_env nf _ _ _ _ _ _ _ _ _ _ _ _ _ _ _ _ _ _ _ float64_like R0 C Hu Hz Had B1 B3 Hc))); reflexivity.
Qed.
