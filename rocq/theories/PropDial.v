(** * PropDial: the sundial (C96), in double precision: the direction of the sun is a function of latitude, season and true solar time, with mornings and afternoons mirror images *)
From Coq Require Import ZArith QArith Reals Bool List String Lra Lia.
From Flocq Require Import Core.Raux.
From Interval Require Import Tactic.
From Verif Require Import Num Arrays Libspa Time Core Usecases Spec GenericLemmas GenericLemmas2 TimeLemmas Ext ExtLemmas Witness
  AstroTac Sky SkyClose AstroSpec Astro AstroCell AstroCall Float32 PropAstro Sunpos SunposSpec SunposLemmas SunposR PropSunpos
  CalendarSpec CalendarLemmas PropCalendar SeasonSpec PropSeasons Almanac AlmanacPos SingleSpec SingleLemmas PropSinglePos PropSmooth
  Double DoubleSpec DoublePos PropDouble PropDoublePos TopoSpec PropNrelD SunposE SunposD PropSunposD DayR PropDay PropClimb PropNoon PropPipeline PropTrack PropAirmass PropEarth Float64.
Import ListNotations.
Open Scope R_scope.

(** Degrees by which two true solar times differ, days aside; and by which the second differs from the mirror image of the first about noon
    (09:00 and 15:00, 01:00 and 23:00 are mirror images). *)
Definition dial_apart (mirrored : bool) (tst tst' n : Z) : R :=
  IZR ((if mirrored then tst' + tst else tst' - tst) - 86400000000000 * n) / 240000000000.
(** The direction mirrored in the meridian. *)
Definition reflected (mirrored : bool) (az : R) : R := if mirrored then - az else az.

Lemma hour_turn (b : bool) tst tst' n : near_turn (hour_angle tst') (if b then - hour_angle tst else hour_angle tst) (Rabs (dial_apart b tst tst' n) * (PI / 180)).
Proof.
  unfold hour_angle, day_hours, rad, dial_apart.
  assert (M : forall x, IZR (x mod 86400000000000) = IZR x - 86400000000000 * IZR (x / 86400000000000)) by (intros x; rewrite <- mult_IZR, <- minus_IZR; f_equal; pose proof (Z.div_mod x 86400000000000 ltac:(lia)); lia).
  rewrite !M. assert (P : 0 <= PI / 180) by (clear; interval). set (q := (tst / 86400000000000)%Z). set (q' := (tst' / 86400000000000)%Z). clearbody q q'. destruct b.
  - exists (n - q - q' - 1)%Z. rewrite !minus_IZR, plus_IZR, mult_IZR.
    match goal with |- Rabs ?x <= Rabs ?y * _ => replace x with (y * (PI / 180)) by field end. rewrite Rabs_mult, (Rabs_pos_eq (PI / 180)) by exact P. lra.
  - exists (n + q - q')%Z. rewrite !minus_IZR, plus_IZR, mult_IZR.
    match goal with |- Rabs ?x <= Rabs ?y * _ => replace x with (y * (PI / 180)) by field end. rewrite Rabs_mult, (Rabs_pos_eq (PI / 180)) by exact P. lra.
Qed.
Lemma reflect_dist (b : bool) z a phi d h : dist (sky z (reflected b a)) (hor phi d (if b then - h else h)) = dist (sky z a) (hor phi d h).
Proof.
  destruct b; [|reflexivity]. unfold reflected, dist, norm. f_equal. unfold sky, hor, sun_S, sun_W, sun_U. cbn. rewrite !sin_neg, !cos_neg. ring.
Qed.
Lemma reflected_rad b a : rad (reflected b a) = reflected b (rad a).
Proof. destruct b; unfold reflected, rad; [ring|reflexivity]. Qed.

(** ** C96 *)
Theorem C96_sundial : forall (b : bool) day_number D D' nf nf' uc uc' times times' lat lat' lon lon' alg refr refr' eng eng' sp sp' k k' j j' i i' t t' y y' la lo lo' n zd zd' tst tst',
  calendar day_number -> in_year day_number y t -> in_year day_number y' t' -> double_like D -> double_like D' -> is_True refr = false -> is_True refr' = false ->
  evaluated_cell64 D uc times lat lon alg refr eng sp k j i t la lo -> nth_error (sp_times_utc sp) k = Some (Some t) ->
  evaluated_cell64 D' uc' times' lat' lon' alg refr' eng' sp' k' j' i' t' la lo' -> nth_error (sp_times_utc sp') k' = Some (Some t') ->
  reads (true_solar_time (O := DoubleOps D) nf sp) k j i (Some tst) -> reads (true_solar_time (O := DoubleOps D') nf' sp') k' j' i' (Some tst') ->
  reads (zenith (O := DoubleOps D) sp) k j i (Fin zd) -> reads (zenith (O := DoubleOps D') sp') k' j' i' (Fin zd') ->
  let s := seconds_apart alg day_number t y t' y' in let w := Rabs (dial_apart b tst tst' n) in
  Rabs (cos (rad zd) - cos (rad zd')) <= 0.0017 + 0.000000092 * s + 0.01746 * w /\
  forall ad ad', reads (azimuth (O := DoubleOps D) sp) k j i (Fin ad) -> reads (azimuth (O := DoubleOps D') sp') k' j' i' (Fin ad') ->
    dist (sky (rad zd) (rad (reflected b ad))) (sky (rad zd') (rad ad')) <= 0.0098 + 0.000000092 * s + 0.01746 * w /\
    (0.1 <= sin (rad zd) -> 0.1 <= sin (rad zd') -> Rabs la <= 80 ->
     dist (sky (rad zd) (rad (reflected b ad))) (sky (rad zd') (rad ad')) <= 0.00166 + 0.000000092 * s + 0.01746 * w).
Proof.
  intros b c D D' nf nf' uc uc' times times' lat lat' lon lon' alg refr refr' eng eng' sp sp' k k' j j' i i' t t' y y' la lo lo' n zd zd' tst tst' Hc Y Y' HD HD' Hr Hr' C Hu C' Hu' Ht Ht' Hz Hz' s w.
  destruct (C79_rates_double _ _ _ _ _ _ _ _ _ _ _ _ _ _ _ _ _ _ _ _ _ _ _ _ Hc Y Y' HD HD' (proj1 C) (proj1 C')) as (d & m & x & d' & m' & x' & V1 & V2 & _ & V1' & V2' & _ & D1 & _ & _).
  fold s in D1. clearbody s.
  assert (N := hour_turn b tst tst' n). fold w in N. assert (W0 : 0 <= w) by apply Rabs_pos. clearbody w.
  assert (PQ : PI / 180 <= 0.0174534) by (clear; interval). assert (Bw : w * (PI / 180) <= 0.01746 * w) by nra. set (e := w * (PI / 180)) in *. clearbody e.
  destruct (C77_true_solar_time D nf _ _ _ _ _ _ _ _ _ _ _ _ _ _ _ _ HD C V2 Hu (proj2 (proj2 (proj1 C)))) as (v & T1 & _ & T2). assert (X := reads_fun _ _ _ _ _ _ Ht T1). injection X as <-.
  destruct (C77_true_solar_time D' nf' _ _ _ _ _ _ _ _ _ _ _ _ _ _ _ _ HD' C' V2' Hu' (proj2 (proj2 (proj1 C')))) as (v & T1' & _ & T2'). assert (X := reads_fun _ _ _ _ _ _ Ht' T1'). injection X as <-.
  assert (H1 : near_turn (hour_angle tst) (solar_hour_angle t lo m) 0.00007273) by (apply tst_hour; lra).
  assert (H1' : near_turn (hour_angle tst') (solar_hour_angle t' lo' m') 0.00007273) by (apply tst_hour; lra). set (h := hour_angle tst) in *. set (h' := hour_angle tst') in *. clearbody h h'.
  split.
  - destruct (height64 _ _ _ _ _ _ _ _ _ _ _ _ _ _ _ _ HD Hr C Hz) as (d1 & dd & m1 & _ & W1 & Ed & _ & W2 & _ & _ & HU).
    destruct (height64 _ _ _ _ _ _ _ _ _ _ _ _ _ _ _ _ HD' Hr' C' Hz') as (d2 & dd' & m2 & _ & W1' & Ed' & _ & W2' & _ & _ & HU').
    unfold value in *. rewrite V1 in W1. injection W1 as <-. rewrite V2 in W2. injection W2 as <-. rewrite V1' in W1'. injection W1' as <-. rewrite V2' in W2'. injection W2' as <-.
    assert (A := HU _ _ H1). assert (A' := HU' _ _ H1').
    assert (B := dist_hor (rad la) (rad dd') _ (rad dd) _ _ N). unfold hor in B. assert (B2 := Rle_trans _ _ _ (up_dist _ _ _ _ _ _) B).
    assert (Ev : sun_U (rad la) (rad dd) (if b then - h else h) = sun_U (rad la) (rad dd) h) by (destruct b; [apply U_even|reflexivity]). rewrite Ev in B2.
    assert (Dd : Rabs (rad dd' - rad dd) <= 0.0000000915 * s + 3 / 1000000000) by (apply Rabs_le_inv in Ed, Ed', D1; apply Rabs_le; assert (/ 10 ^ 14 <= / 10000000000) by lra; split; lra).
    assert (S0 : 0 <= 0.0000000915 * s + 3 / 1000000000) by (eapply Rle_trans; [apply Rabs_pos|exact Dd]). apply Rabs_le_inv in A, A', B2. apply Rabs_le. lra.
  - intros ad ad' Ha Ha'.
    destruct (direction64 _ _ _ _ _ _ _ _ _ _ _ _ _ _ _ _ _ HD Hr C Hz Ha) as (dd & m1 & Hd & W2 & HU).
    destruct (direction64 _ _ _ _ _ _ _ _ _ _ _ _ _ _ _ _ _ HD' Hr' C' Hz' Ha') as (dd' & m2 & Hd' & W2' & HU').
    unfold value in *. rewrite V2 in W2. injection W2 as <-. rewrite V2' in W2'. injection W2' as <-.
    destruct (HU _ _ H1) as [HU1 HU2]. destruct (HU' _ _ H1') as [HU1' HU2'].
    destruct (dec64 _ _ _ _ _ _ _ _ _ _ _ HD (proj1 C)) as (d1 & dd1 & m1 & x1 & W1 & Hd1 & Ed & _).
    destruct (dec64 _ _ _ _ _ _ _ _ _ _ _ HD' (proj1 C')) as (d2 & dd2 & m2 & x2 & W1' & Hd2 & Ed' & _).
    assert (X := reads_fun _ _ _ _ _ _ Hd (Hd1 j i)). injection X as <-. assert (X := reads_fun _ _ _ _ _ _ Hd' (Hd2 j' i')). injection X as <-.
    unfold value in *. rewrite V1 in W1. injection W1 as <-. rewrite V1' in W1'. injection W1' as <-.
    assert (B := dist_hor (rad la) (rad dd') _ (rad dd) _ _ N). rewrite dist_sym in B.
    assert (Dd : Rabs (rad dd' - rad dd) <= 0.0000000915 * s + 3 / 1000000000) by (apply Rabs_le_inv in Ed, Ed', D1; apply Rabs_le; assert (/ 10 ^ 14 <= / 10000000000) by lra; split; lra).
    assert (S0 : 0 <= 0.0000000915 * s + 3 / 1000000000) by (eapply Rle_trans; [apply Rabs_pos|exact Dd]).
    rewrite <- (reflect_dist b) in HU1, HU2. rewrite reflected_rad.
    assert (T3 := dist_tri (sky (rad zd) (reflected b (rad ad))) (hor (rad la) (rad dd) (if b then - h else h)) (sky (rad zd') (rad ad'))).
    assert (T4 := dist_tri (hor (rad la) (rad dd) (if b then - h else h)) (hor (rad la) (rad dd') h') (sky (rad zd') (rad ad'))).
    rewrite (dist_sym (hor (rad la) (rad dd') h')) in T4. split; [lra|].
    intros S1 S2 L. specialize (HU2 S1 L). specialize (HU2' S2 L). lra.
Qed.

(** ** The hypotheses are met: 21 June 2024, 40 degrees north, every algorithm and engine: the same hour six hours later 90 degrees to the west;
    10:00 UTC three degrees west of Greenwich and, on its other side of noon, 63 degrees east *)
Lemma dial_cell nf uc t lo alg eng m : In (alg, eng, m) (supported (O := DoubleOps float64_env)) -> representable t -> -180 <= lo < 180 ->
  exists sp zd tst eot, evaluated_cell64 float64_env uc (at_times [Some t]) (Scalar (Fin 40)) (Scalar (Fin lo)) alg RFalse eng sp 0 0 0 t 40 lo /\ nth_error (sp_times_utc sp) 0 = Some (Some t) /\
    reads (zenith (O := DoubleOps float64_env) sp) 0 0 0 (Fin zd) /\ reads (true_solar_time (O := DoubleOps float64_env) nf sp) 0 0 0 (Some tst) /\ value (sp_eot sp) [0%nat] eot /\
    Rabs eot <= 20 /\ Rabs (IZR (tst - t) - (4 * lo + eot) * 60000000000) <= 2050.
Proof.
  intros H R B. assert (A40 : 24.5 <= Rabs 40) by (rewrite Rabs_pos_eq; lra).
  destruct (cell_zenith uc t 40 lo alg eng m H R ltac:(lra) A40 B) as (sp & zd & C & Hz).
  destruct (cell_data64 _ _ _ _ _ _ _ _ _ _ _ _ _ _ _ float64_like C) as (_ & _ & _ & _ & _ & (eot & He & Be) & _).
  assert (Hu : nth_error (sp_times_utc sp) 0 = Some (Some t)) by now rewrite (C14_times_utc_partial _ _ _ _ (at_times [Some t]) _ _ _ _ _ _ I (proj1 (proj1 C))).
  destruct (C77_true_solar_time float64_env nf _ _ _ _ _ _ _ _ _ _ _ _ _ _ _ _ float64_like C He Hu R) as (tst & T1 & _ & T2).
  exists sp, zd, tst, eot. do 4 (split; [assumption|]). split; [exact He|]. split; [lra|exact T2].
Qed.
Example C96_example : forall nf uc alg eng m, In (alg, eng, m) (supported (O := DoubleOps float64_env)) ->
  let t6 := (w_t + 21600 * 1000000000)%Z in
  calendar gregorian /\ in_year gregorian 2024 w_t /\ in_year gregorian 2024 t6 /\ double_like float64_env /\
  exists sp1 sp2 sp3 z1 z2 z3 h1 h2 h3,
    evaluated_cell64 float64_env uc (at_times [Some w_t]) (Scalar (Fin 40)) (Scalar (Fin (-3))) alg RFalse eng sp1 0 0 0 w_t 40 (-3) /\ nth_error (sp_times_utc sp1) 0 = Some (Some w_t) /\
    evaluated_cell64 float64_env uc (at_times [Some t6]) (Scalar (Fin 40)) (Scalar (Fin (-93))) alg RFalse eng sp2 0 0 0 t6 40 (-93) /\ nth_error (sp_times_utc sp2) 0 = Some (Some t6) /\
    evaluated_cell64 float64_env uc (at_times [Some w_t]) (Scalar (Fin 40)) (Scalar (Fin 63)) alg RFalse eng sp3 0 0 0 w_t 40 63 /\ nth_error (sp_times_utc sp3) 0 = Some (Some w_t) /\
    reads (true_solar_time (O := DoubleOps float64_env) nf sp1) 0 0 0 (Some h1) /\ reads (true_solar_time (O := DoubleOps float64_env) nf sp2) 0 0 0 (Some h2) /\ reads (true_solar_time (O := DoubleOps float64_env) nf sp3) 0 0 0 (Some h3) /\
    reads (zenith (O := DoubleOps float64_env) sp1) 0 0 0 (Fin z1) /\ reads (zenith (O := DoubleOps float64_env) sp2) 0 0 0 (Fin z2) /\ reads (zenith (O := DoubleOps float64_env) sp3) 0 0 0 (Fin z3) /\
    Rabs (cos (rad z1) - cos (rad z2)) <= 0.005 /\ Rabs (cos (rad z1) - cos (rad z3)) <= 0.18.
Proof.
  intros nf uc alg eng m H t6. assert (R6 : representable t6) by (unfold representable, t6, w_t; lia). assert (Y := w_year). fold t6 in Y. destruct Y as [Y Y6].
  split; [exact gregorian_calendar|]. do 2 (split; [assumption|]). split; [exact float64_like|].
  destruct (dial_cell nf uc w_t (-3) alg eng m H w_t_representable ltac:(lra)) as (sp1 & z1 & h1 & m1 & C1 & U1 & Z1 & T1 & V1 & B1 & E1).
  destruct (dial_cell nf uc t6 (-93) alg eng m H R6 ltac:(lra)) as (sp2 & z2 & h2 & m2 & C2 & U2 & Z2 & T2 & V2 & B2 & E2).
  destruct (dial_cell nf uc w_t 63 alg eng m H w_t_representable ltac:(lra)) as (sp3 & z3 & h3 & m3 & C3 & U3 & Z3 & T3 & V3 & B3 & E3).
  exists sp1, sp2, sp3, z1, z2, z3, h1, h2, h3. do 12 (split; [assumption|]).
  destruct (C79_rates_double _ _ _ _ _ _ _ _ _ _ _ _ _ _ _ _ _ _ _ _ _ _ _ _ gregorian_calendar Y Y6 float64_like float64_like (proj1 C1) (proj1 C2)) as (d & mm & x & d' & m' & x' & _ & W1 & _ & _ & W2 & _ & _ & D2 & _).
  unfold value in *. rewrite V1 in W1. injection W1 as <-. rewrite V2 in W2. injection W2 as <-.
  assert (S : forall v, seconds_apart alg gregorian w_t 2024 v 2024 = IZR (Z.abs (w_t / 1000000000 - v / 1000000000))).
  { intros v. unfold seconds_apart. replace (gregorian 2024 1 1 - gregorian 2024 1 1 - 365 * (2024 - 2024))%Z with 0%Z by lia. cbn [Z.abs]. destruct (String.eqb alg "iqbal"); ring. }
  assert (S6 : seconds_apart alg gregorian w_t 2024 t6 2024 = 21600) by (rewrite S; unfold t6; rewrite Z.div_add by discriminate; f_equal; lia).
  assert (S0 : seconds_apart alg gregorian w_t 2024 w_t 2024 = 0) by (rewrite S, Z.sub_diag; reflexivity).
  assert (Q2 := proj1 (C96_sundial false gregorian _ _ nf nf _ _ _ _ _ _ _ _ _ _ _ _ _ _ _ _ _ _ _ _ _ _ _ _ _ _ _ _ 0 _ _ _ _ gregorian_calendar Y Y6 float64_like float64_like
    (eq_refl : is_True RFalse = false) (eq_refl : is_True RFalse = false) C1 U1 C2 U2 T1 T2 Z1 Z2)). cbv zeta in Q2.
  assert (Q3 := proj1 (C96_sundial true gregorian _ _ nf nf _ _ _ _ _ _ _ _ _ _ _ _ _ _ _ _ _ _ _ _ _ _ _ _ _ _ _ _ 39791 _ _ _ _ gregorian_calendar Y Y float64_like float64_like
    (eq_refl : is_True RFalse = false) (eq_refl : is_True RFalse = false) C1 U1 C3 U3 T1 T3 Z1 Z3)). cbv zeta in Q3.
  rewrite S6 in Q2, D2. rewrite S0 in Q3. apply Rabs_le_inv in E1, E2, E3, B1, B3, D2. rewrite !minus_IZR in E1, E2, E3.
  assert (E6 : IZR t6 = IZR w_t + 21600000000000) by (unfold t6; rewrite plus_IZR, mult_IZR; lra). rewrite E6 in E2. assert (Ew : IZR w_t = 1718964000123456789) by (apply f_equal; reflexivity).
  assert (K2 : Rabs (dial_apart false h1 h2 0) <= 0.04) by (unfold dial_apart; rewrite !minus_IZR, mult_IZR; apply Rabs_le; lra).
  assert (K3 : Rabs (dial_apart true h1 h3 39791) <= 10.1) by (unfold dial_apart; rewrite !minus_IZR, plus_IZR, mult_IZR; apply Rabs_le; rewrite Ew in *; lra).
  split; lra.
Qed.
