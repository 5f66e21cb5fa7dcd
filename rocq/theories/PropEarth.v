(** * PropEarth: moving along with the turning Earth, antipodes and poles (C91, C92), in double precision *)
From Coq Require Import ZArith QArith Reals Bool List String Lra Lia.
From Flocq Require Import Core.Raux.
From Interval Require Import Tactic.
From Verif Require Import Num Arrays Libspa Time Core Usecases Spec GenericLemmas GenericLemmas2 TimeLemmas Ext ExtLemmas Witness
  AstroTac Sky SkyClose AstroSpec Astro AstroCell AstroCall Float32 PropAstro Sunpos SunposSpec SunposLemmas SunposR PropSunpos
  CalendarSpec CalendarLemmas PropCalendar SeasonSpec PropSeasons Almanac AlmanacPos SingleSpec SingleLemmas PropSinglePos PropSmooth
  Double DoubleSpec DoublePos PropDouble PropDoublePos TopoSpec PropNrelD SunposD PropSunposD DayR PropDay PropClimb PropNoon PropPipeline PropTrack PropAirmass Float64.
Import ListNotations.
Open Scope R_scope.

(** ** Specification *)
(** Degrees of longitude by which [lo'] misses the place that has, at [t'], the clock's solar time of [lo] at [t] ([n] whole turns):
    the Earth turns one degree in 240 seconds. *)
Definition off_track (t t' : Z) (lo lo' : R) (n : Z) : R :=
  lo' - (lo - IZR (t' / 1000000000 - t / 1000000000) / 240 + 360 * IZR n).

(** ** The hour angle of the clock *)
Lemma near_turn_refl x : near_turn x x 0.
Proof. exists 0%Z. replace (x - x - 2 * PI * 0) with 0 by ring. rewrite Rabs_R0. apply Rle_refl. Qed.
Lemma turned t t' lo lo' m m' n w e : Rabs (off_track t t' lo lo' n) <= w -> Rabs (m - m') <= e ->
  near_turn (solar_hour_angle t' lo' m') (solar_hour_angle t lo m) ((w + e / 4) * (PI / 180)).
Proof.
  unfold off_track, solar_hour_angle, utc_hours. intros Hw Hm. set (a := (t / 1000000000)%Z) in *. set (b := (t' / 1000000000)%Z) in *.
  assert (Ea := Z_div_mod_eq_full a 86400). assert (Eb := Z_div_mod_eq_full b 86400).
  set (p := (a mod 86400)%Z) in *. set (q := (b mod 86400)%Z) in *. set (u := (a / 86400)%Z) in *. set (v := (b / 86400)%Z) in *.
  rewrite minus_IZR, Ea, Eb, !plus_IZR, !mult_IZR in Hw. clearbody p q u v. clear Ea Eb a b.
  exists (n - v + u)%Z. rewrite plus_IZR, minus_IZR.
  set (x := lo' - (lo - (86400 * IZR v + IZR q - (86400 * IZR u + IZR p)) / 240 + 360 * IZR n)) in *.
  replace ((15 * (IZR q / 3600 - 12) + lo' + m' / 4) * (PI / 180) - (15 * (IZR p / 3600 - 12) + lo + m / 4) * (PI / 180) - 2 * PI * (IZR n - IZR v + IZR u))
    with ((x + (m' - m) / 4) * (PI / 180)) by (unfold x; field).
  rewrite Rabs_mult, (Rabs_pos_eq (PI / 180)) by interval. apply Rmult_le_compat_r; [interval|].
  apply Rabs_le_inv in Hw, Hm. apply Rabs_le. lra.
Qed.

(** ** C91: moving west with the clock, the sun stands still but for the season *)
Theorem C91_turning_earth : forall day_number D D' uc uc' times times' lat lat' lon lon' alg refr refr' eng eng' sp sp' k k' j j' i i' t t' y y' la lo lo' n zd zd',
  calendar day_number -> in_year day_number y t -> in_year day_number y' t' -> double_like D -> double_like D' ->
  is_True refr = false -> is_True refr' = false ->
  evaluated_cell64 D uc times lat lon alg refr eng sp k j i t la lo ->
  evaluated_cell64 D' uc' times' lat' lon' alg refr' eng' sp' k' j' i' t' la lo' ->
  reads (zenith (O := DoubleOps D) sp) k j i (Fin zd) -> reads (zenith (O := DoubleOps D') sp') k' j' i' (Fin zd') ->
  let s := seconds_apart alg day_number t y t' y' in let w := Rabs (off_track t t' lo lo' n) in
  Rabs (cos (rad zd) - cos (rad zd')) <= 0.00155 + 0.00000012 * s + 0.01746 * w /\
  forall ad ad', reads (azimuth (O := DoubleOps D) sp) k j i (Fin ad) -> reads (azimuth (O := DoubleOps D') sp') k' j' i' (Fin ad') ->
    dist (sky (rad zd) (rad ad)) (sky (rad zd') (rad ad')) <= 0.0097 + 0.00000012 * s + 0.01746 * w /\
    (0.1 <= sin (rad zd) -> 0.1 <= sin (rad zd') -> Rabs la <= 80 ->
     dist (sky (rad zd) (rad ad)) (sky (rad zd') (rad ad')) <= 0.00151 + 0.00000012 * s + 0.01746 * w).
Proof.
  intros c D D' uc uc' times times' lat lat' lon lon' alg refr refr' eng eng' sp sp' k k' j j' i i' t t' y y' la lo lo' n zd zd' Hc Y Y' HD HD' Hr Hr' C C' Hz Hz' s w.
  destruct (C79_rates_double _ _ _ _ _ _ _ _ _ _ _ _ _ _ _ _ _ _ _ _ _ _ _ _ Hc Y Y' HD HD' (proj1 C) (proj1 C')) as (d & m & x & d' & m' & x' & V1 & V2 & _ & V1' & V2' & _ & D1 & D2 & _).
  assert (S0 : 0 <= s).
  { unfold s, seconds_apart. assert (K : forall z, 0 <= IZR (Z.abs z)) by (intros z; apply IZR_le; lia). assert (K1 := K (t / 1000000000 - t' / 1000000000)%Z).
    destruct (String.eqb alg "iqbal"); [assert (K2 := K (c y 1 1 - c y' 1 1 - 365 * (y - y'))%Z)|]; lra. }
  fold s in D1, D2. clearbody s. assert (W0 : 0 <= w) by apply Rabs_pos.
  assert (N := turned t t' lo lo' m m' n w _ (Rle_refl _) D2). clearbody w. assert (PB : 3.14159 <= PI <= 3.1416) by (split; interval).
  set (e := (w + (0.0000064 * s + 800 / 1000000000) / 4) * (PI / 180)) in *. assert (Be : e <= 0.01746 * w + 0.00000002794 * s + 0.00000001).
  { unfold e. assert (PI / 180 <= 0.0174534) by (clear; interval). assert (0 <= w + (0.0000064 * s + 800 / 1000000000) / 4) by lra. nra. }
  clearbody e. split.
  - destruct (height64 _ _ _ _ _ _ _ _ _ _ _ _ _ _ _ _ HD Hr C Hz) as (d1 & dd & m1 & _ & W1 & Ed & _ & W2 & _ & _ & HU).
    destruct (height64 _ _ _ _ _ _ _ _ _ _ _ _ _ _ _ _ HD' Hr' C' Hz') as (d2 & dd' & m2 & _ & W1' & Ed' & _ & W2' & _ & _ & HU').
    unfold value in *. rewrite V1 in W1. injection W1 as <-. rewrite V2 in W2. injection W2 as <-. rewrite V1' in W1'. injection W1' as <-. rewrite V2' in W2'. injection W2' as <-.
    assert (A := HU _ _ (near_turn_refl _)). assert (A' := HU' _ _ (near_turn_refl _)).
    assert (B := dist_hor (rad la) (rad dd) _ (rad dd') _ _ (near_turn_sym _ _ _ N)). unfold hor in B. assert (B2 := Rle_trans _ _ _ (up_dist _ _ _ _ _ _) B).
    assert (Dd : Rabs (rad dd - rad dd') <= 0.0000000915 * s + 3 / 1000000000) by (apply Rabs_le_inv in Ed, Ed', D1; apply Rabs_le; assert (/ 10 ^ 14 <= / 10000000000) by lra; split; lra).
    apply Rabs_le_inv in A, A', B2. apply Rabs_le. lra.
  - intros ad ad' Ha Ha'.
    destruct (direction64 _ _ _ _ _ _ _ _ _ _ _ _ _ _ _ _ _ HD Hr C Hz Ha) as (dd & m1 & Hd & W2 & HU).
    destruct (direction64 _ _ _ _ _ _ _ _ _ _ _ _ _ _ _ _ _ HD' Hr' C' Hz' Ha') as (dd' & m2 & Hd' & W2' & HU').
    destruct (HU _ _ (near_turn_refl _)) as [HU1 HU2]. destruct (HU' _ _ (near_turn_refl _)) as [HU1' HU2'].
    unfold value in *. rewrite V2 in W2. injection W2 as <-. rewrite V2' in W2'. injection W2' as <-.
    destruct (dec64 _ _ _ _ _ _ _ _ _ _ _ HD (proj1 C)) as (d1 & dd1 & m1 & x1 & W1 & Hd1 & Ed & _).
    destruct (dec64 _ _ _ _ _ _ _ _ _ _ _ HD' (proj1 C')) as (d2 & dd2 & m2 & x2 & W1' & Hd2 & Ed' & _).
    assert (X := reads_fun _ _ _ _ _ _ Hd (Hd1 j i)). injection X as <-. assert (X := reads_fun _ _ _ _ _ _ Hd' (Hd2 j' i')). injection X as <-.
    unfold value in *. rewrite V1 in W1. injection W1 as <-. rewrite V1' in W1'. injection W1' as <-.
    assert (B := dist_hor (rad la) (rad dd) _ (rad dd') _ _ (near_turn_sym _ _ _ N)).
    assert (Dd : Rabs (rad dd - rad dd') <= 0.0000000915 * s + 3 / 1000000000) by (apply Rabs_le_inv in Ed, Ed', D1; apply Rabs_le; assert (/ 10 ^ 14 <= / 10000000000) by lra; split; lra).
    assert (T1 := dist_tri (sky (rad zd) (rad ad)) (hor (rad la) (rad dd) (solar_hour_angle t lo m)) (sky (rad zd') (rad ad'))).
    assert (T2 := dist_tri (hor (rad la) (rad dd) (solar_hour_angle t lo m)) (hor (rad la) (rad dd') (solar_hour_angle t' lo' m')) (sky (rad zd') (rad ad'))).
    rewrite (dist_sym (hor (rad la) (rad dd') (solar_hour_angle t' lo' m'))) in T2. split; [lra|].
    intros S1 S2 L. specialize (HU2 S1 L). specialize (HU2' S2 L). lra.
Qed.

(** ** C92: antipodes *)
Lemma U_antipode phi d h : sun_U (- phi) d (h + PI) = - sun_U phi d h.
Proof. unfold sun_U. rewrite sin_neg, cos_neg, neg_cos. ring. Qed.
(** Where the sun is overhead in one place it is underfoot at the opposite one: one height is the other's negative.  *)
Theorem C92_antipodes : forall day_number D D' uc uc' times times' lat lat' lon lon' alg refr refr' eng eng' sp sp' k k' j j' i i' t y la lo la' lo' zd zd',
  calendar day_number -> in_year day_number y t -> double_like D -> double_like D' -> is_True refr = false -> is_True refr' = false ->
  evaluated_cell64 D uc times lat lon alg refr eng sp k j i t la lo ->
  evaluated_cell64 D' uc' times' lat' lon' alg refr' eng' sp' k' j' i' t la' lo' -> la' = - la -> lo' = lo + 180 \/ lo' = lo - 180 ->
  reads (zenith (O := DoubleOps D) sp) k j i (Fin zd) -> reads (zenith (O := DoubleOps D') sp') k' j' i' (Fin zd') ->
  Rabs (cos (rad zd) + cos (rad zd')) <= 0.00155.
Proof.
  intros c D D' uc uc' times times' lat lat' lon lon' alg refr refr' eng eng' sp sp' k k' j j' i i' t y la lo la' lo' zd zd' Hc Y HD HD' Hr Hr' C C' -> Hl Hz Hz'.
  destruct (C79_rates_double _ _ _ _ _ _ _ _ _ _ _ _ _ _ _ _ _ _ _ _ _ _ _ _ Hc Y Y HD HD' (proj1 C) (proj1 C')) as (d & m & x & d' & m' & x' & V1 & V2 & _ & V1' & V2' & _ & D1 & D2 & _).
  assert (S0 : seconds_apart alg c t y t y = 0).
  { unfold seconds_apart. rewrite Z.sub_diag. replace (c y 1 1 - c y 1 1 - 365 * (y - y))%Z with 0%Z by lia. cbn [Z.abs]. destruct (String.eqb alg "iqbal"); ring. }
  rewrite S0 in D1, D2.
  destruct (height64 _ _ _ _ _ _ _ _ _ _ _ _ _ _ _ _ HD Hr C Hz) as (d1 & dd & m1 & _ & W1 & Ed & _ & W2 & _ & _ & HU).
  destruct (height64 _ _ _ _ _ _ _ _ _ _ _ _ _ _ _ _ HD' Hr' C' Hz') as (d2 & dd' & m2 & _ & W1' & Ed' & _ & W2' & _ & _ & HU').
  unfold value in *. rewrite V1 in W1. injection W1 as <-. rewrite V2 in W2. injection W2 as <-. rewrite V1' in W1'. injection W1' as <-. rewrite V2' in W2'. injection W2' as <-.
  assert (A := HU _ _ (near_turn_refl _)).
  assert (N : near_turn (solar_hour_angle t lo m + PI) (solar_hour_angle t lo' m') 0.00000001).
  { assert (P : 0 <= PI / 180 <= 0.02) by (clear; split; interval). unfold solar_hour_angle. destruct Hl as [-> | ->]; [exists 0%Z|exists 1%Z];
    [replace (_ - _ - 2 * PI * 0) with ((m - m') / 4 * (PI / 180)) by field|replace (_ - _ - 2 * PI * 1) with ((m - m') / 4 * (PI / 180)) by field];
    apply Rabs_le_inv in D2; apply Rabs_le; nra. }
  assert (A' := HU' _ _ N).
  assert (Bd := dec_height (rad (- la)) (rad dd') (rad dd) (solar_hour_angle t lo m + PI)). replace (rad (- la)) with (- rad la) in * by (unfold rad; ring).
  rewrite (U_antipode (rad la) (rad dd)) in Bd.
  assert (Dd : Rabs (rad dd' - rad dd) <= 3 / 1000000000) by (apply Rabs_le_inv in Ed, Ed', D1; apply Rabs_le; assert (/ 10 ^ 14 <= / 10000000000) by lra; split; lra).
  apply Rabs_le_inv in A, A', Bd. apply Rabs_le. lra.
Qed.

(** ** C92: at the poles the height of the sun is its declination (degrees), all day long and whatever the longitude *)
Lemma height_of_sine x dd : Rabs dd <= 23.61 -> -90.0001 <= x <= 90.0001 -> Rabs (sin (rad x) - sin (rad dd)) <= 0.00078 -> Rabs (x - dd) <= 0.05.
Proof.
  intros Bd Bx Hs. apply Rabs_le_inv in Bd.
  assert (K : forall x y, - 90.0001 <= x <= 24 -> x + 0.05 <= y <= 90.0001 -> -24 <= x -> 0.00079 <= sin (rad y) - sin (rad x)).
  { clear. intros x y Bx By Bx2. assert (E : sin (rad (x + 0.05)) - sin (rad x) = 2 * sin (rad 0.025) * cos (rad (x + 0.025))).
    { replace (rad (x + 0.05)) with (rad (x + 0.025) + rad 0.025) by (unfold rad; lra). replace (rad x) with (rad (x + 0.025) - rad 0.025) by (unfold rad; lra). rewrite sin_plus, sin_minus. ring. }
    assert (Q : 0.00087 <= 2 * sin (rad 0.025)) by (unfold rad; interval). assert (Q2 : 0.912 <= cos (rad (x + 0.025))) by (unfold rad; clear - Bx Bx2; interval).
    assert (Q3 : 0.00079 <= sin (rad (x + 0.05)) - sin (rad x)) by (rewrite E; nra).
    destruct (Rle_dec y 90) as [L|L].
    - assert (sin (rad (x + 0.05)) <= sin (rad y)); [|lra]. assert (P := PI_RGT_0). apply sin_incr_1; unfold rad; nra.
    - assert (0.99 <= sin (rad y)) by (assert (B : 90 <= y <= 90.0001) by lra; clear - B; unfold rad; interval). assert (sin (rad x) <= 0.41) by (clear - Bx Bx2; unfold rad; interval). lra. }
  apply Rabs_le_inv in Hs. apply Rabs_le. split.
  - apply Rnot_lt_le. intros L. assert (Q := K (- dd) (- x) ltac:(lra) ltac:(lra) ltac:(lra)). replace (rad (- dd)) with (- rad dd) in Q by (unfold rad; ring). replace (rad (- x)) with (- rad x) in Q by (unfold rad; ring). rewrite !sin_neg in Q. lra.
  - apply Rnot_lt_le. intros L. assert (Q := K dd x ltac:(lra) ltac:(lra) ltac:(lra)). lra.
Qed.
Theorem C92_poles : forall D uc times lat lon alg refr eng sp k j i t la lo zd, double_like D -> is_True refr = false ->
  evaluated_cell64 D uc times lat lon alg refr eng sp k j i t la lo -> reads (zenith (O := DoubleOps D) sp) k j i (Fin zd) ->
  exists dd, reads (declination (O := DoubleOps D) sp) k j i (Fin dd) /\
    (la = 90 -> Rabs (90 - zd - dd) <= 0.05) /\ (la = -90 -> Rabs (90 - zd + dd) <= 0.05).
Proof.
  intros D uc times lat lon alg refr eng sp k j i t la lo zd HD Hr C Hz.
  destruct (height64 _ _ _ _ _ _ _ _ _ _ _ _ _ _ _ _ HD Hr C Hz) as (d1 & dd & m1 & Hd & W1 & Ed & Bd & W2 & _ & Bz & HU).
  exists dd. split; [exact Hd|]. assert (A := HU _ _ (near_turn_refl _)). assert (E : cos (rad zd) = sin (rad (90 - zd))).
  { rewrite <- cos_shift. f_equal. unfold rad. field. }
  rewrite E in A. unfold sun_U in A. split; intros ->.
  - replace (rad 90) with (PI / 2) in A by (unfold rad; field). rewrite sin_PI2, cos_PI2 in A. apply height_of_sine; [exact Bd|lra|]. apply Rabs_le_inv in A. apply Rabs_le. lra.
  - replace (rad (-90)) with (- (PI / 2)) in A by (unfold rad; field). rewrite sin_neg, cos_neg, sin_PI2, cos_PI2 in A. replace (90 - zd + dd) with (90 - zd - - dd) by ring.
    apply height_of_sine; [now rewrite Rabs_Ropp|lra|]. replace (rad (- dd)) with (- rad dd) by (unfold rad; ring). rewrite sin_neg. apply Rabs_le_inv in A. apply Rabs_le. lra.
Qed.

(** ** The hypotheses are met: 21 June 2024, 40 degrees north, for every algorithm: six hours later the sun is as high 90 degrees to the west *)
Lemma w_year : in_year gregorian 2024 w_t /\ in_year gregorian 2024 (w_t + 21600 * 1000000000).
Proof. unfold in_year, w_t. split; split; vm_compute; congruence. Qed.
Lemma cell_zenith uc t la lo alg eng m : In (alg, eng, m) (supported (O := DoubleOps float64_env)) -> representable t -> -90 <= la <= 90 -> 24.5 <= Rabs la -> -180 <= lo < 180 ->
  exists sp zd, evaluated_cell64 float64_env uc (at_times [Some t]) (Scalar (Fin la)) (Scalar (Fin lo)) alg RFalse eng sp 0 0 0 t la lo /\ reads (zenith (O := DoubleOps float64_env) sp) 0 0 0 (Fin zd).
Proof.
  intros H Ht B1 B2 B3. destruct (one_cell64 float64_env uc t la lo alg RFalse eng m float64_like H Ht B1 B3) as (sp & C). exists sp.
  destruct (C74_number_outside_tropics _ _ _ _ _ _ _ _ _ _ _ _ _ _ _ float64_like (eq_refl : is_True RFalse = false) C B2) as (zd & Hz & _). now exists zd.
Qed.
Example C91_example : forall uc alg eng m, In (alg, eng, m) (supported (O := DoubleOps float64_env)) ->
  exists sp sp' zd zd', double_like float64_env /\ calendar gregorian /\ in_year gregorian 2024 w_t /\ in_year gregorian 2024 (w_t + 21600 * 1000000000) /\
    evaluated_cell64 float64_env uc (at_times [Some w_t]) (Scalar (Fin 40)) (Scalar (Fin (-3))) alg RFalse eng sp 0 0 0 w_t 40 (-3) /\
    evaluated_cell64 float64_env uc (at_times [Some (w_t + 21600 * 1000000000)%Z]) (Scalar (Fin 40)) (Scalar (Fin (-93))) alg RFalse eng sp' 0 0 0 (w_t + 21600 * 1000000000) 40 (-93) /\
    reads (zenith (O := DoubleOps float64_env) sp) 0 0 0 (Fin zd) /\ reads (zenith (O := DoubleOps float64_env) sp') 0 0 0 (Fin zd') /\
    off_track w_t (w_t + 21600 * 1000000000) (-3) (-93) 0 = 0 /\ Rabs (cos (rad zd) - cos (rad zd')) <= 0.0042.
Proof.
  intros uc alg eng m H. assert (A40 : 24.5 <= Rabs 40) by (rewrite Rabs_pos_eq; lra).
  destruct (cell_zenith uc w_t 40 (-3) alg eng m H w_t_representable ltac:(lra) A40 ltac:(lra)) as (sp & zd & C & Hz).
  destruct (cell_zenith uc (w_t + 21600 * 1000000000) 40 (-93) alg eng m H ltac:(unfold representable, w_t; lia) ltac:(lra) A40 ltac:(lra)) as (sp' & zd' & C' & Hz').
  assert (O : off_track w_t (w_t + 21600 * 1000000000) (-3) (-93) 0 = 0) by (unfold off_track; rewrite Z.div_add by discriminate; replace (w_t / 1000000000 + 21600 - w_t / 1000000000)%Z with 21600%Z by lia; lra).
  exists sp, sp', zd, zd'. do 2 (split; [exact float64_like || exact gregorian_calendar|]). split; [apply w_year|]. split; [apply w_year|]. do 5 (split; [assumption|]).
  assert (T := proj1 (C91_turning_earth gregorian _ _ _ _ _ _ _ _ _ _ _ _ _ _ _ _ _ _ _ _ _ _ _ _ _ 2024%Z 2024%Z _ _ _ 0%Z _ _ gregorian_calendar (proj1 w_year) (proj2 w_year) float64_like float64_like (eq_refl : is_True RFalse = false) (eq_refl : is_True RFalse = false) C C' Hz Hz')).
  rewrite O, Rabs_R0 in T. assert (S : seconds_apart alg gregorian w_t 2024 (w_t + 21600 * 1000000000) 2024 = 21600).
  { unfold seconds_apart. rewrite Z.div_add by discriminate. replace (w_t / 1000000000 - (w_t / 1000000000 + 21600))%Z with (-21600)%Z by lia. replace (gregorian 2024 1 1 - gregorian 2024 1 1 - 365 * (2024 - 2024))%Z with 0%Z by reflexivity. cbn [Z.abs]. destruct (String.eqb alg "iqbal"); lra. }
  rewrite S in T. lra.
Qed.
(** Madrid and the opposite point; the poles. *)
Example C92_example : forall uc alg eng m, In (alg, eng, m) (supported (O := DoubleOps float64_env)) ->
  exists sp sp' zd zd', double_like float64_env /\ calendar gregorian /\ in_year gregorian 2024 w_t /\
    evaluated_cell64 float64_env uc (at_times [Some w_t]) (Scalar (Fin 40)) (Scalar (Fin (-3))) alg RFalse eng sp 0 0 0 w_t 40 (-3) /\
    evaluated_cell64 float64_env uc (at_times [Some w_t]) (Scalar (Fin (-40))) (Scalar (Fin 177)) alg RFalse eng sp' 0 0 0 w_t (-40) 177 /\
    reads (zenith (O := DoubleOps float64_env) sp) 0 0 0 (Fin zd) /\ reads (zenith (O := DoubleOps float64_env) sp') 0 0 0 (Fin zd') /\ Rabs (cos (rad zd) + cos (rad zd')) <= 0.00155.
Proof.
  intros uc alg eng m H.
  destruct (cell_zenith uc w_t 40 (-3) alg eng m H w_t_representable ltac:(lra) ltac:(rewrite Rabs_pos_eq; lra) ltac:(lra)) as (sp & zd & C & Hz).
  destruct (cell_zenith uc w_t (-40) 177 alg eng m H w_t_representable ltac:(lra) ltac:(rewrite Rabs_left; lra) ltac:(lra)) as (sp' & zd' & C' & Hz').
  exists sp, sp', zd, zd'. do 2 (split; [exact float64_like || exact gregorian_calendar|]). split; [apply w_year|]. do 4 (split; [assumption|]).
  eapply (C92_antipodes gregorian) with (7 := C) (8 := C'); try eassumption; [exact gregorian_calendar|exact (proj1 w_year)|exact float64_like|exact float64_like|reflexivity|reflexivity|lra|left; lra].
Qed.
Example C92_pole_example : forall uc alg eng m la, In (alg, eng, m) (supported (O := DoubleOps float64_env)) -> In la [90; -90] ->
  exists sp zd, double_like float64_env /\ evaluated_cell64 float64_env uc (at_times [Some w_t]) (Scalar (Fin la)) (Scalar (Fin (-3))) alg RFalse eng sp 0 0 0 w_t la (-3) /\
    reads (zenith (O := DoubleOps float64_env) sp) 0 0 0 (Fin zd).
Proof.
  intros uc alg eng m la H Hla. assert (B : -90 <= la <= 90 /\ 24.5 <= Rabs la) by (destruct Hla as [<-|[<-|[]]]; (split; [lra|]); unfold Rabs; destruct (Rcase_abs _); lra).
  destruct (cell_zenith uc w_t la (-3) alg eng m H w_t_representable (proj1 B) (proj2 B) ltac:(lra)) as (sp & zd & C & Hz).
  exists sp, zd. split; [exact float64_like|]. now split.
Qed.
