(** * PropTurn: the azimuth turns with the clock (C93), in double precision *)
From Coq Require Import ZArith QArith Reals Bool List String Lra Lia.
From Flocq Require Import Core.Raux.
From Interval Require Import Tactic.
From Verif Require Import Num Arrays Libspa Time Core Usecases Spec GenericLemmas GenericLemmas2 TimeLemmas Ext ExtLemmas Witness
  AstroTac Sky SkyClose AstroSpec Astro AstroCell AstroCall Float32 PropAstro Sunpos SunposSpec SunposLemmas SunposR PropSunpos
  CalendarSpec CalendarLemmas PropCalendar SeasonSpec PropSeasons Almanac AlmanacPos SingleSpec SingleLemmas PropSinglePos PropSmooth
  Double DoubleSpec DoublePos PropDouble PropDoublePos TopoSpec PropNrelD SunposD PropSunposD DayR PropDay PropClimb PropNoon PropPipeline PropTrack PropAirmass PropEarth Float64.
Import ListNotations.
Open Scope R_scope.

(** ** Two horizontal directions of one sun: the later one lies to the right of the earlier one, seen from the side of the equator *)
Lemma cross phi d m x : sun_S phi d (m - x) * sun_W phi d (m + x) - sun_W phi d (m - x) * sun_S phi d (m + x) =
  2 * cos d * sin x * (sin phi * cos d * cos x - cos phi * sin d * cos m).
Proof.
  unfold sun_S, sun_W. rewrite !sin_plus, !sin_minus, !cos_plus, !cos_minus.
  assert (S := sc1 m). assert (E : sin m * sin m = 1 - cos m * cos m) by lra.
  replace (2 * cos d * sin x * (sin phi * cos d * cos x - cos phi * sin d * cos m)) with
    (2 * cos d * sin x * (sin phi * cos d * cos x * (cos m * cos m + sin m * sin m) - cos phi * sin d * cos m)) by (rewrite (Rplus_comm (cos m * cos m)), S; ring).
  ring.
Qed.
Lemma cross_pos la dd m x : 30 <= la <= 90 -> Rabs dd <= 23.61 -> 0.0327 <= x <= 0.262 ->
  0.0056 <= sun_S (rad la) (rad dd) (m - x) * sun_W (rad la) (rad dd) (m + x) - sun_W (rad la) (rad dd) (m - x) * sun_S (rad la) (rad dd) (m + x).
Proof.
  intros Bl Bd Bx. rewrite cross. apply Rabs_le_inv in Bd.
  assert (Cd : 0.9162 <= cos (rad dd)) by (clear - Bd; unfold rad; interval).
  assert (Sd : Rabs (sin (rad dd)) <= 0.4006) by (apply Rabs_le; clear - Bd; unfold rad; split; interval).
  assert (Sx : 0.0326 <= sin x) by (clear - Bx; interval with (i_bisect x)). assert (Cx : 0.9658 <= cos x) by (clear - Bx; interval with (i_bisect x)).
  assert (P := PI_RGT_0). assert (Sl : 0.5 <= sin (rad la)).
  { replace 0.5 with (sin (PI / 6)) by (rewrite sin_PI6; lra). apply sin_incr_1; unfold rad; nra. }
  assert (Cl : 0 <= cos (rad la) <= 0.86603).
  { split; [apply cos_ge_0; unfold rad; nra|]. assert (S1 := sc1 (rad la)). nra. }
  assert (Cm := COS_bound m). assert (K : cos (rad la) * sin (rad dd) * cos m <= 0.34694).
  { apply Rle_trans with (Rabs (cos (rad la) * sin (rad dd) * cos m)); [apply Rle_abs|]. rewrite !Rabs_mult, (Rabs_pos_eq (cos (rad la))) by apply Cl.
    assert (Rabs (cos m) <= 1) by (apply Rabs_le; lra). pose proof (Rabs_pos (sin (rad dd))). pose proof (Rabs_pos (cos m)).
    apply Rle_trans with (0.86603 * 0.4006 * 1); [|lra]. apply Rmult_le_compat; try lra; [apply Rmult_le_pos; lra|]. apply Rmult_le_compat; lra. }
  assert (L1 : 0.5 * 0.9162 <= sin (rad la) * cos (rad dd)) by (apply Rmult_le_compat; lra). assert (L2 : 0.5 * 0.9162 * 0.9658 <= sin (rad la) * cos (rad dd) * cos x) by (apply Rmult_le_compat; lra).
  assert (L3 : 2 * 0.9162 * 0.0326 <= 2 * cos (rad dd) * sin x) by (apply Rmult_le_compat; lra). assert (L4 : 0.0954 <= sin (rad la) * cos (rad dd) * cos x - cos (rad la) * sin (rad dd) * cos m) by lra.
  apply Rle_trans with (2 * 0.9162 * 0.0326 * 0.0954); [lra|]. apply Rmult_le_compat; lra.
Qed.
(** The same for computed azimuths. *)
Lemma turn_core tol tol' a a' phi d h h' c : near_azimuth tol a phi d h -> near_azimuth tol' a' phi d h' -> 0 <= tol -> 0 <= tol' -> tol <= 0.001 -> tol' <= 0.002 ->
  c <= sun_S phi d h * sun_W phi d h' - sun_W phi d h * sun_S phi d h' ->
  exists r, 0 <= r <= 1.01 /\ c - 1.4143 * (tol + tol') - 2 * tol * tol' <= r * sin (a' - a).
Proof.
  intros (r & Pr & E1 & E2) (r' & Pr' & E1' & E2') T T' L L' Hc.
  assert (N : forall x, sun_S phi d x * sun_S phi d x + sun_W phi d x * sun_W phi d x <= 1).
  { intros x. assert (U := hor_unit phi d x). unfold hor in U. cbn in U. assert (Q := Rle_0_sqr (sun_U phi d x)). unfold Rsqr in Q. lra. }
  assert (N1 := N h). assert (N2 := N h'). set (S := sun_S phi d h) in *. set (W := sun_W phi d h) in *. set (S' := sun_S phi d h') in *. set (W' := sun_W phi d h') in *. clearbody S W S' W'. clear N.
  exists (r * r'). rewrite sin_minus.
  assert (R1 : forall r a S W t, 0 <= r -> 0 <= t <= 0.002 -> Rabs (r * cos a - S) <= t -> Rabs (r * sin a - W) <= t -> S * S + W * W <= 1 -> r <= 1.0045).
  { clear. intros r a S W t Pr Bt H1 H2 N. apply Rabs_le_inv in H1, H2. assert (Q := sc1 a).
    assert (r * r <= 1.009); [|nra]. replace (r * r) with ((r * cos a) * (r * cos a) + (r * sin a) * (r * sin a)) by (replace 1 with 1 by ring; transitivity (r * r * (cos a * cos a + sin a * sin a)); [ring|rewrite (Rplus_comm (cos a * cos a)), Q; ring]).
    set (x := r * cos a) in *. set (y := r * sin a) in *. clearbody x y.
    assert (K : forall u v, -1 <= u <= 1 -> - t <= v - u <= t -> v * v <= u * u + 0.0041).
    { clear - Bt. intros u v Bu Bv. replace (v * v) with (u * u + (v - u) * (2 * u + (v - u))) by ring. set (e := v - u) in *. assert (e * (2 * u + e) <= 0.0041); [|lra].
      apply Rle_trans with (Rabs (e * (2 * u + e))); [apply Rle_abs|]. rewrite Rabs_mult. apply Rle_trans with (0.002 * 2.002); [|lra]. apply Rmult_le_compat; try apply Rabs_pos; apply Rabs_le; lra. }
    assert (-1 <= S <= 1) by (split; nra). assert (-1 <= W <= 1) by (split; nra). assert (K1 := K S x ltac:(assumption) ltac:(lra)). assert (K2 := K W y ltac:(assumption) ltac:(lra)). lra. }
  assert (L0 : tol <= 0.002) by lra. assert (B1 := R1 _ _ _ _ _ Pr (conj T L0) E1 E2 N1). assert (B2 := R1 _ _ _ _ _ Pr' (conj T' L') E1' E2' N2).
  split; [split; [now apply Rmult_le_pos|apply Rle_trans with (1.0045 * 1.0045); [apply Rmult_le_compat; lra|lra]]|].
  replace (r * r' * (sin a' * cos a - cos a' * sin a)) with ((r * cos a) * (r' * sin a') - (r * sin a) * (r' * cos a')) by ring.
  set (p := r * cos a - S) in *. set (q := r * sin a - W) in *. set (p' := r' * cos a' - S') in *. set (q' := r' * sin a' - W') in *.
  replace (r * cos a) with (S + p) by (unfold p; ring). replace (r * sin a) with (W + q) by (unfold q; ring). replace (r' * cos a') with (S' + p') by (unfold p'; ring). replace (r' * sin a') with (W' + q') by (unfold q'; ring).
  clearbody p q p' q'. clear R1 B1 B2 Pr Pr'.
  assert (A1 : forall x y u v t, Rabs u <= t -> Rabs v <= t -> 0 <= t -> x * x + y * y <= 1 -> Rabs (x * u - y * v) <= 1.4143 * t).
  { clear. intros x y u v t Hu Hv Ht H. eapply Rle_trans; [apply Rabs_triang|]. rewrite Rabs_Ropp, !Rabs_mult.
    assert (Hx := Rabs_pos x). assert (Hy := Rabs_pos y). assert (Ex := abs_sq x). assert (Ey := abs_sq y). set (X := Rabs x) in *. set (Y := Rabs y) in *.
    assert (X + Y <= 1.4143). { assert (Q := Rle_0_sqr (X - Y)). unfold Rsqr in Q. nra. }
    apply Rle_trans with (X * t + Y * t); [apply Rplus_le_compat; apply Rmult_le_compat_l; lra|]. nra. }
  assert (F1 := A1 S W q' p' tol' E2' E1' T' N1). assert (F2 := A1 W' S' p q tol E1 E2 T ltac:(lra)).
  assert (F3 : Rabs (p * q' - q * p') <= 2 * tol * tol').
  { eapply Rle_trans; [apply Rabs_triang|]. rewrite Rabs_Ropp, !Rabs_mult. assert (Rabs p * Rabs q' <= tol * tol') by (apply Rmult_le_compat; try apply Rabs_pos; assumption).
    assert (Rabs q * Rabs p' <= tol * tol') by (apply Rmult_le_compat; try apply Rabs_pos; assumption). lra. }
  apply Rabs_le_inv in F1, F2, F3. nra.
Qed.

(** ** C93 *)
(** Between a quarter of an hour and two hours later the azimuth (positive to the west) has turned westward, at less than half a turn, north of 30 degrees north,
    and eastward south of 30 degrees south; at every time of the day and night, with or without refraction. *)
Theorem C93_azimuth_turns : forall day_number D D' uc uc' times times' lat lat' lon lon' alg refr refr' eng eng' sp sp' k k' j j' i i' t t' y y' la lo ad ad',
  calendar day_number -> in_year day_number y t -> in_year day_number y' t' -> (alg = "iqbal"%string -> y = y') -> double_like D -> double_like D' ->
  evaluated_cell64 D uc times lat lon alg refr eng sp k j i t la lo -> evaluated_cell64 D' uc' times' lat' lon' alg refr' eng' sp' k' j' i' t' la lo ->
  (900 <= t' / 1000000000 - t / 1000000000 <= 7200)%Z ->
  reads (azimuth (O := DoubleOps D) sp) k j i (Fin ad) -> reads (azimuth (O := DoubleOps D') sp') k' j' i' (Fin ad') ->
  (30 <= la -> 0.001 <= sin (rad (ad' - ad))) /\ (la <= -30 -> sin (rad (ad' - ad)) <= -0.001).
Proof.
  intros c D D' uc uc' times times' lat lat' lon lon' alg refr refr' eng eng' sp sp' k k' j j' i i' t t' y y' la lo ad ad' Hc Y Y' Hiq HD HD' C C' Hs Ha Ha'.
  destruct (C79_rates_double _ _ _ _ _ _ _ _ _ _ _ _ _ _ _ _ _ _ _ _ _ _ _ _ Hc Y Y' HD HD' (proj1 C) (proj1 C')) as (d & m & x & d' & m' & x' & V1 & V2 & _ & V1' & V2' & _ & D1 & D2 & _).
  set (n := (t' / 1000000000 - t / 1000000000)%Z) in *.
  assert (ES : seconds_apart alg c t y t' y' = IZR n).
  { unfold seconds_apart. replace (Z.abs (t / 1000000000 - t' / 1000000000)) with n by (unfold n in *; lia). destruct (String.eqb_spec alg "iqbal") as [He|He]; [|ring].
    rewrite (Hiq He). replace (c y' 1 1 - c y' 1 1 - 365 * (y' - y'))%Z with 0%Z by lia. cbn [Z.abs]. ring. }
  rewrite ES in D1, D2. assert (Bn : 900 <= IZR n <= 7200) by (split; apply IZR_le; lia).
  destruct (azimuth64 _ _ _ _ _ _ _ _ _ _ _ _ _ _ _ _ HD C Ha) as (a & dd & m1 & Ea & Ba & Bd & W2 & Hd & A).
  destruct (azimuth64 _ _ _ _ _ _ _ _ _ _ _ _ _ _ _ _ HD' C' Ha') as (a' & dd' & m2 & Ea' & Ba' & Bd' & W2' & Hd' & A').
  destruct (dec64 _ _ _ _ _ _ _ _ _ _ _ HD (proj1 C)) as (d1 & dd1 & mm1 & xx1 & W1 & Hd1 & Ed & _).
  destruct (dec64 _ _ _ _ _ _ _ _ _ _ _ HD' (proj1 C')) as (d2 & dd2 & mm2 & xx2 & W1' & Hd2 & Ed' & _).
  assert (X := reads_fun _ _ _ _ _ _ Hd (Hd1 j i)). injection X as <-. assert (X := reads_fun _ _ _ _ _ _ Hd' (Hd2 j' i')). injection X as <-.
  unfold value in *. rewrite V1 in W1. injection W1 as <-. rewrite V2 in W2. injection W2 as <-. rewrite V1' in W1'. injection W1' as <-. rewrite V2' in W2'. injection W2' as <-.
  destruct (cell_data64 _ _ _ _ _ _ _ _ _ _ _ _ _ _ _ HD C) as (_ & _ & Bla & _).
  assert (PB : 3.14159 <= PI <= 3.1416) by (split; interval). assert (QB : 57.29 <= 180 / PI <= 57.3) by (split; interval). assert (PQ : 0.017453 <= PI / 180 <= 0.0174534) by (split; interval).
  assert (Dd : Rabs (rad dd' - rad dd) <= 0.00067) by (apply Rabs_le_inv in Ed, Ed', D1; apply Rabs_le; assert (/ 10 ^ 14 <= / 10000000000) by lra; split; lra).
  (* the two hour angles *)
  set (dl := rad (IZR n / 480)). assert (Bdl : 0.0327 <= dl <= 0.262) by (unfold dl, rad; nra).
  assert (N : near_turn (solar_hour_angle t lo m + 2 * dl) (solar_hour_angle t' lo m') 0.00021).
  { assert (O : Rabs (off_track t t' (lo + IZR n / 240) lo 0) <= 0) by (unfold off_track; fold n; replace (lo - (lo + IZR n / 240 - IZR n / 240 + 360 * 0)) with 0 by lra; rewrite Rabs_R0; lra).
    assert (T := turned _ _ _ _ _ _ _ _ _ O D2). apply near_turn_sym in T.
    replace (solar_hour_angle t lo m + 2 * dl) with (solar_hour_angle t (lo + IZR n / 240) m) by (unfold solar_hour_angle, dl, rad; field).
    destruct T as (q & T). exists q. eapply Rle_trans; [exact T|]. nra. }
  set (h := solar_hour_angle t lo m) in *. set (M := h + dl).
  assert (A1 := A (M - dl) 0). assert (E1 : M - dl = h) by (unfold M; ring). rewrite E1 in A1. specialize (A1 (near_turn_refl _)). rewrite <- E1 in A1.
  assert (A2 := A' _ _ N). replace (h + 2 * dl) with (M + dl) in A2 by (unfold M; ring).
  assert (A3 := near_azimuth_move _ _ _ _ _ _ _ _ A2 (Rle_trans _ _ _ (dist_hor (rad la) (rad dd') (M + dl) (rad dd) (M + dl) 0 (near_turn_refl _)) (Rplus_le_compat_r 0 _ _ Dd))).
  clearbody dl M. clear A A' A2 N E1 h D1 D2 Ed Ed' V1 V2 V1' V2'.
  assert (Es : forall xa, Rabs (xa - (a' - a)) <= / 1000000000000 -> Rabs (sin xa - sin (a' - a)) <= / 1000000000000) by (intros xa Hx; eapply Rle_trans; [apply sin_lip|exact Hx]).
  assert (Ex : Rabs (rad (ad' - ad) - (a' - a)) <= / 1000000000000).
  { replace (rad (ad' - ad) - (a' - a)) with (((ad' - a' * (180 / PI)) - (ad - a * (180 / PI))) * (PI / 180)) by (unfold rad; field; lra).
    rewrite Rabs_mult, (Rabs_pos_eq (PI / 180)) by lra. apply Rabs_le_inv in Ea, Ea'.
    assert (Q : Rabs (ad' - a' * (180 / PI) - (ad - a * (180 / PI))) <= 4 / 10 ^ 13) by (apply Rabs_le; lra). assert (P := Rabs_pos (ad' - a' * (180 / PI) - (ad - a * (180 / PI)))).
    apply Rle_trans with (4 / 10 ^ 13 * 0.0174534); [apply Rmult_le_compat; lra|lra]. }
  specialize (Es _ Ex). apply Rabs_le_inv in Es. split; intros L.
  - destruct (turn_core _ _ _ _ _ _ _ _ _ A1 A3 ltac:(lra) ltac:(lra) ltac:(lra) ltac:(lra) (cross_pos la dd M dl ltac:(lra) Bd Bdl)) as (r & Br & K).
    assert (0.002 <= r * sin (a' - a)) by lra. nra.
  - apply turn_over in A1, A3. replace (- rad la) with (rad (- la)) in A1, A3 by (unfold rad; ring). replace (- rad dd) with (rad (- dd)) in A1, A3 by (unfold rad; ring).
    destruct (turn_core _ _ _ _ _ _ _ _ _ A1 A3 ltac:(lra) ltac:(lra) ltac:(lra) ltac:(lra) (cross_pos (- la) (- dd) M dl ltac:(lra) ltac:(now rewrite Rabs_Ropp) Bdl)) as (r & Br & K).
    replace (PI - a' - (PI - a)) with (- (a' - a)) in K by ring. rewrite sin_neg in K.
    assert (0.002 <= r * - sin (a' - a)) by lra. nra.
Qed.

(** ** The hypotheses are met: 21 June 2024, 40 degrees north and south, half an hour, for every algorithm and engine *)
Example C93_example : forall uc alg eng m la, In (alg, eng, m) (supported (O := DoubleOps float64_env)) -> In la [40; -40] ->
  let t' := (w_t + 1800 * 1000000000)%Z in
  exists sp sp' ad ad', double_like float64_env /\ calendar gregorian /\ in_year gregorian 2024 w_t /\ in_year gregorian 2024 t' /\
    evaluated_cell64 float64_env uc (at_times [Some w_t]) (Scalar (Fin la)) (Scalar (Fin (-3))) alg RFalse eng sp 0 0 0 w_t la (-3) /\
    evaluated_cell64 float64_env uc (at_times [Some t']) (Scalar (Fin la)) (Scalar (Fin (-3))) alg RFalse eng sp' 0 0 0 t' la (-3) /\
    (900 <= t' / 1000000000 - w_t / 1000000000 <= 7200)%Z /\
    reads (azimuth (O := DoubleOps float64_env) sp) 0 0 0 (Fin ad) /\ reads (azimuth (O := DoubleOps float64_env) sp') 0 0 0 (Fin ad') /\
    (la = 40 -> 0.001 <= sin (rad (ad' - ad))) /\ (la = -40 -> sin (rad (ad' - ad)) <= -0.001).
Proof.
  intros uc alg eng m la H Hla t'. assert (B : -90 <= la <= 90) by (destruct Hla as [<-|[<-|[]]]; lra).
  assert (Yt : in_year gregorian 2024 t') by (unfold in_year, t', w_t; split; vm_compute; congruence).
  assert (Bn : (900 <= t' / 1000000000 - w_t / 1000000000 <= 7200)%Z) by (unfold t'; rewrite Z.div_add by discriminate; lia).
  assert (Rt : representable t') by (unfold representable, t', w_t; lia). clearbody t'.
  destruct (one_cell64 float64_env uc w_t la (-3) alg RFalse eng m float64_like H w_t_representable B ltac:(lra)) as (sp & C).
  destruct (one_cell64 float64_env uc t' la (-3) alg RFalse eng m float64_like H Rt B ltac:(lra)) as (sp' & C').
  destruct (C74_ranges float64_env _ _ _ _ _ _ _ _ _ _ _ _ _ _ float64_like (eq_refl : is_True RFalse = false) C) as (_ & (ad & Ha & _) & _).
  destruct (C74_ranges float64_env _ _ _ _ _ _ _ _ _ _ _ _ _ _ float64_like (eq_refl : is_True RFalse = false) C') as (_ & (ad' & Ha' & _) & _).
  exists sp, sp', ad, ad'. do 2 (split; [exact float64_like || exact gregorian_calendar|]). split; [apply w_year|]. do 6 (split; [assumption|]).
  assert (T : (30 <= la -> 0.001 <= sin (rad (ad' - ad))) /\ (la <= -30 -> sin (rad (ad' - ad)) <= -0.001)).
  { eapply (C93_azimuth_turns gregorian) with (7 := C) (8 := C'); try eassumption; [exact gregorian_calendar|exact (proj1 w_year)|reflexivity|exact float64_like|exact float64_like]. }
  split; intros E; apply T; lra.
Qed.
