(** * PropDay: day and night, sunrise and sunset (C80, C81)

    [t] is the instant of a request (ns since 1970, UTC), [ru] and [su] the sunrise and sunset returned for it in UTC, [zd] the returned
    zenith angle in degrees. *)
From Coq Require Import ZArith QArith Reals Bool List String Lra Lia.
From Flocq Require Import Core.Raux.
From Interval Require Import Tactic.
From Verif Require Import Num Arrays Libspa Time Core Usecases Spec GenericLemmas GenericLemmas2 TimeLemmas Ext ExtLemmas Witness
  AstroTac Sky SkyClose AstroSpec Astro AstroCell AstroCall AstroRefute Float32 PropAstro Sunpos SunposSpec SunposLemmas SunposR SunposCells PropSunpos
  CalendarSpec CalendarLemmas PropCalendar Almanac AlmanacPos SingleSpec SingleLemmas PropSingle PropSinglePos SmoothR SmoothI PropSmooth
  Double DoubleSpec PropDouble PropDoublePos TopoSpec PropNrelD SunposD PropSunposD DayR PropPipeline.
Import ListNotations.
Open Scope R_scope.

(** ** Heights of the sun *)
Lemma shift_height a phi d h z c e : Rabs (cos z - sun_U phi d h) <= c -> near_turn h a e ->
  forall H e', near_turn H a e' -> Rabs (cos z - sun_U phi d H) <= c + (e + e').
Proof.
  intros Hc N H e' N'. assert (B := dist_hor phi d h d H (e + e') (near_turn_add _ _ _ _ _ N (near_turn_sym _ _ _ N'))).
  rewrite Rminus_diag_eq, Rabs_R0 in B by reflexivity. assert (U := up_dist (sun_S phi d h) (sun_W phi d h) (sun_U phi d h) (sun_S phi d H) (sun_W phi d H) (sun_U phi d H)).
  unfold hor in B. replace (cos z - sun_U phi d H) with ((cos z - sun_U phi d h) + (sun_U phi d h - sun_U phi d H)) by ring. eapply Rle_trans; [apply Rabs_triang|]. lra.
Qed.
Lemma parallax_cos z0 k : 0 <= k -> Rabs (cos (z0 + k * sin z0) - cos z0) <= k.
Proof.
  intros Hk. eapply Rle_trans; [apply cos_lip|]. replace (z0 + k * sin z0 - z0) with (k * sin z0) by ring. rewrite Rabs_mult, (Rabs_pos_eq k) by exact Hk.
  assert (Rabs (sin z0) <= 1) by (apply Rabs_le; apply SIN_bound). pose proof (Rabs_pos (sin z0)). nra.
Qed.
Lemma coef_b alg : 0 <= parallax_coef alg <= 0.000043.
Proof. unfold parallax_coef. destruct (String.eqb alg "psa"); [lra|]. destruct (String.eqb alg "soltrack"); lra. Qed.
Lemma hour_tol_b alg : 0 <= hour_tol alg <= 0.00037.
Proof. unfold hour_tol. destruct (String.eqb alg "psa"); [lra|]. destruct (String.eqb alg "iqbal"); lra. Qed.
Lemma sol_cases alg eng la : (single_tol alg eng la <= 0.000002 /\ double_tol alg eng la <= 0.000003) \/ alg = "soltrack"%string /\ (single_tol alg eng la <= 0.0004 /\ double_tol alg eng la <= 0.0007).
Proof.
  unfold single_tol, double_tol. destruct (String.eqb_spec alg "soltrack"); [|left; cbn; lra]. destruct (String.eqb eng "numpy"); [|left; cbn; lra]. right. split; [assumption|].
  cbn. destruct (Rle_dec _ _); lra.
Qed.
Lemma sol_hour : hour_tol "soltrack" = 2 / 100000. Proof. reflexivity. Qed.

(** The returned zenith angle is that of the returned declination and equation of time (any algorithm). *)
Lemma height E uc times lat lon alg refr eng sp k j i t la lo zd :
  float32_like E -> is_True refr = false -> evaluated_cell E uc times lat lon alg refr eng sp k j i t la lo ->
  reads (zenith (O := ExtOps E) sp) k j i (Fin zd) ->
  exists dd eot, reads (declination (O := ExtOps E) sp) k j i (Fin dd) /\ value (sp_declination sp) [k] (rad dd) /\ value (sp_eot sp) [k] eot /\
    reads (Sunpos.eot sp) k j i (Fin eot) /\ -0.0001 <= zd <= 180.0001 /\
    forall H e, near_turn H (solar_hour_angle t lo eot) e -> Rabs (cos (rad zd) - sun_U (rad la) (rad dd) H) <= e + 0.00077.
Proof.
  intros HE Hr C Hz. assert (Hc := proj1 (proj1 C)). apply (zenith_raw E _ _ _ _ _ _ _ _ k j i Hc) in Hz.
  destruct (call_dist _ _ _ _ _ _ _ _ _ _ _ _ _ _ _ _ HE Hr C Hz) as (d & eot & h & a & V1 & V2 & V3 & Bz & N & Hd).
  exists (d * (180 / PI)), eot. rewrite deg_rad. split; [apply (declination_raw E sp k j i); now rewrite deg_rad|]. split; [exact V1|]. split; [exact V2|].
  split; [exact V2|]. pose proof PI_RGT_0. split.
  { unfold rad in Bz. assert (0 < PI / 180) by lra. split; [nra|]. assert (zd * (PI / 180) <= 180 * (PI / 180)) by lra. nra. }
  change (la * (PI / 180)) with (rad la) in Hd. intros H0 e N0. destruct (String.eqb_spec alg "nrel") as [->|Hn].
  - assert (U := up_dist (sin (rad zd) * cos a) (sin (rad zd) * sin a) (cos (rad zd)) (sun_S (rad la) d h) (sun_W (rad la) d h) (sun_U (rad la) d h)).
    unfold sky, hor in Hd. assert (S := shift_height _ _ _ _ _ _ _ (Rle_trans _ _ _ U Hd) N H0 e N0). change (hour_tol "nrel") with (2 / 100000) in S. lra.
  - destruct (C68_single_precision _ _ _ _ _ _ _ _ _ _ _ _ _ _ _ HE Hn C) as (d1 & m1 & h1 & W1 & W2 & N1 & _ & Z). destruct (Z Hr) as [Z1 _].
    unfold value in *. rewrite V1 in W1. injection W1 as <-. rewrite V2 in W2. injection W2 as <-.
    destruct Z1 as [(z1 & Y1 & _ & z0 & B0 & H1 & E1)|(Y1 & _)]; [|rewrite Hz in Y1; discriminate Y1]. unfold value in Y1. rewrite Hz in Y1. injection Y1 as <-.
    assert (Bk := coef_b alg). assert (P := parallax_cos z0 (parallax_coef alg) ltac:(lra)). rewrite <- E1 in P.
    assert (Q : Rabs (cos (rad zd) - sun_U (la * (PI / 180)) d h1) <= parallax_coef alg + single_tol alg eng la).
    { replace (cos (rad zd) - sun_U (la * (PI / 180)) d h1) with ((cos (rad zd) - cos z0) + (cos z0 - sun_U (la * (PI / 180)) d h1)) by ring. eapply Rle_trans; [apply Rabs_triang|]. lra. }
    assert (S := shift_height _ _ _ _ _ _ _ Q N1 H0 e N0). change (la * (PI / 180)) with (rad la) in S. assert (Bh := hour_tol_b alg).
    destruct (sol_cases alg eng la) as [[T _]|[-> [T _]]]; [lra|]. rewrite sol_hour in S. lra.
Qed.

(** ** The day of an instant *)
(** What sunrise and sunset have in common with [DayR.Core]: the half-day [w] in degrees, its length [dl] in hours, true solar times. *)
Definition day_facts (phi d lo eot e : R) (t ru su : Z) : Prop := exists w dl tst rt st,
  0 <= w <= 180.1 /\ Rabs (dl - 2 * w / 15) <= / 10 ^ 13 /\
  Rabs (IZR (tst - t) - (4 * lo + eot) * 60000000000) < 3000 /\ Rabs (IZR (rt - ru) - (4 * lo + eot) * 60000000000) < 3 /\
  (su - ru = st - rt)%Z /\
  Rabs (IZR rt - (IZR (midnight_of tst) + (12 - dl / 2) * 3600000000000)) < 3 /\
  Rabs (IZR st - (IZR (midnight_of tst) + (12 + dl / 2) * 3600000000000)) < 3 /\
  Rabs (sun_U phi d (rad w)) <= e /\
  (forall h, Rabs h <= PI -> (Rabs h <= rad w -> - e <= sun_U phi d h) /\ (rad w <= Rabs h -> sun_U phi d h <= e)).

(** The sunrise is missing only if the day length is. *)
Lemma daylight_cases E nf uc times lat lon alg refr eng sp k j i t la lo :
  evaluated_cell E uc times lat lon alg refr eng sp k j i t la lo ->
  (instant_of (sunrise (O := ExtOps E) nf sp "utc") k j i None /\ exists dd, reads (declination (O := ExtOps E) sp) k j i (Fin dd) /\ wsr_value la dd = NaN) \/
  exists dd dl, reads (declination (O := ExtOps E) sp) k j i (Fin dd) /\ reads (daylight_length (O := ExtOps E) sp) k j i (Fin dl).
Proof.
  intros C. destruct (cell_data E _ _ _ _ _ _ _ _ _ _ _ _ _ _ C) as (Hla & Hlo & Bla & _ & (dd & Hd & Bd) & _).
  assert (Hr := sunrise_rad_at E sp k j i la dd Hla Hd Bla ltac:(lra)).
  destruct (wsr_value la dd) as [| | |x] eqn:Ev.
  - left. assert (Hdg := reads_map (degrees (Ops := ExtOps E)) _ k j i _ Hr).
    assert (N : reads (daylight_length (O := ExtOps E) sp) k j i NaN).
    { assert (H1 := reads_map (mul (Ops := ExtOps E) (div (Ops := ExtOps E) (lit (Ops := ExtOps E) 2.0) (lit (Ops := ExtOps E) 15.0))) _ k j i _ Hdg).
      ext_ops. cbn [degrees] in H1. ext_ops. rewrite ?nan_mul_r, ?nan_mul_l in H1. exact H1. }
    split; [exact (proj1 (C40_polar E nf _ _ _ _ _ _ _ _ _ _ _ _ _ _ "utc" C N ltac:(cbn; tauto)))|]. exists dd. now split.
  - exfalso. unfold wsr_value in Ev. repeat (destruct (Rlt_dec _ _) in Ev; try discriminate Ev); repeat (destruct (Rle_dec _ _) in Ev; try discriminate Ev).
  - exfalso. unfold wsr_value in Ev. repeat (destruct (Rlt_dec _ _) in Ev; try discriminate Ev); repeat (destruct (Rle_dec _ _) in Ev; try discriminate Ev).
  - right. assert (Hdg := reads_map (degrees (Ops := ExtOps E)) _ k j i _ Hr). exists dd. eexists. split; [exact Hd|]. exact (daylight_at E sp k j i _ Hdg).
Qed.
Lemma day_ext E nf uc times lat lon alg refr eng sp k j i t la lo ru su dd eot :
  evaluated_cell E uc times lat lon alg refr eng sp k j i t la lo -> nth_error (sp_times_utc sp) k = Some (Some t) ->
  instant_of (sunrise (O := ExtOps E) nf sp "utc") k j i (Some ru) -> instant_of (sunset (O := ExtOps E) nf sp "utc") k j i (Some su) ->
  reads (declination (O := ExtOps E) sp) k j i (Fin dd) -> reads (Sunpos.eot sp) k j i (Fin eot) ->
  day_facts (rad la) (rad dd) lo eot 0 t ru su.
Proof.
  intros C Hu Hr Hs Hd He.
  assert (I1 : forall r x y, instant_of r k j i x -> instant_of r k j i y -> x = y).
  { intros r x y (a & A1 & A2) (b & B1 & B2). rewrite A1 in B1. injection B1 as <-. exact (reads_fun _ _ _ _ _ _ A2 B2). }
  destruct (daylight_cases E nf _ _ _ _ _ _ _ _ _ _ _ _ _ _ C) as [[N _]|(dd' & dl & Hd' & Hdl)]; [discriminate (I1 _ _ _ Hr N)|].
  assert (Ed := reads_fun _ _ _ _ _ _ Hd Hd'). injection Ed as <-.
  destruct (daylight_value E _ _ _ _ _ _ _ _ _ _ _ _ _ _ _ _ C Hd Hdl) as (Bl & Bx & Ew).
  destruct (C40_sunrise_sunset_times E nf _ _ _ _ _ _ _ _ _ _ _ _ _ _ _ C Hdl) as (u & wt & tst & rt & ru' & rl & st & su' & sl & T1 & _ & T3 & _ & _ & T6 & T7 & _ & _ & _ & T11 & _ & T13 & _ & T15 & T16).
  rewrite Hu in T1. injection T1 as <-. assert (X := I1 _ _ _ Hr T6). injection X as <-. assert (X := I1 _ _ _ Hs T7). injection X as <-.
  destruct (C42_true_solar_time E nf _ _ _ _ _ _ _ _ _ _ _ _ _ _ _ C He) as (u & tst' & T1 & T3' & T17). rewrite Hu in T1. injection T1 as <-.
  assert (X := reads_fun _ _ _ _ _ _ T3 T3'). injection X as <-.
  destruct (cell_data E _ _ _ _ _ _ _ _ _ _ _ _ _ _ C) as (Hla & Hlo & Bla & _). assert (Bd := cell_dec E _ _ _ _ _ _ _ _ _ _ _ _ _ _ _ C Hd).
  destruct (wsr_crossing la dd Bla ltac:(lra) ltac:(left; lra)) as [[Ev _]|(w & Ev & Bw & U1 & U2 & U3)].
  { exfalso. unfold wsr_value in Ev. destruct (Rlt_dec (-90) la); [|lra]. destruct (Rlt_dec la 90); [|lra]. destruct (Rle_dec (-1) _) in Ev; [|lra]. destruct (Rle_dec _ 1) in Ev; [discriminate Ev|lra]. }
  assert (Ea : acos (- tan (rad dd) * tan (rad la)) = w).
  { unfold wsr_value in Ev. destruct (Rlt_dec (-90) la); [|lra]. destruct (Rlt_dec la 90); [|lra]. destruct (Rle_dec (-1) _) in Ev; [|lra]. destruct (Rle_dec _ 1) in Ev; [now injection Ev|lra]. }
  rewrite Ea in Ew. assert (Rw := rad_range _ Bw). exists (w * (180 / PI)), dl, tst, rt, st. rewrite deg_rad.
  split; [lra|]. split; [rewrite Ew; replace (2 / 15 * (w * (180 / PI)) - 2 * (w * (180 / PI)) / 15) with 0 by (field; apply PI_neq); rewrite Rabs_R0; lra|].
  split; [lra|]. split. { apply Rabs_lt_inv in T13. apply Rabs_lt_inv in T17. apply Rabs_lt. lra. }
  split; [exact T11|]. split; [lra|]. split; [lra|]. split; [rewrite U1, Rabs_R0; lra|].
  intros h Bh. apply Rabs_le_inv in Bh. specialize (U3 h Bh). split; intros Hh.
  - destruct (Rle_or_lt 0 (sun_U (rad la) (rad dd) h)) as [L|L]; [lra|]. destruct Hh as [Hh|Hh]; [apply U3 in Hh; lra|].
    assert (sun_U (rad la) (rad dd) h = 0) by (unfold Rabs in Hh; destruct (Rcase_abs h); [replace h with (- w) by lra|replace h with w by lra]; assumption). lra.
  - apply Rnot_lt_le. intros L. apply U3 in L. lra.
Qed.

(** ** C80: the sun is up between the returned sunrise and sunset, and down outside (0.05 degrees around the horizon left open) *)
Lemma cos_day zd : -0.0001 <= zd <= 180.0001 -> (zd <= 89.95 -> 0.000872 <= cos (rad zd)) /\ (90.05 <= zd -> cos (rad zd) <= -0.000872).
Proof.
  assert (N1 : forall x, -0.0001 <= x -> x <= 0 -> 0.000872 <= cos (rad x)) by (intros x H1 H2; unfold rad; interval).
  assert (N2 : forall x, 180 <= x -> x <= 180.0001 -> cos (rad x) <= -0.000872) by (intros x H1 H2; unfold rad; interval).
  assert (A1 : 0.000872 <= cos (rad 89.95)) by (clear; unfold rad; interval). assert (A2 : cos (rad 90.05) <= -0.000872) by (clear; unfold rad; interval).
  intros B. pose proof PI_RGT_0. split; intros H0.
  - destruct (Rle_or_lt zd 0) as [L|L]; [apply N1; lra|]. assert (cos (rad 89.95) <= cos (rad zd)) by (apply cos_decr_1; unfold rad; nra). lra.
  - destruct (Rle_or_lt 180 zd) as [L|L]; [apply N2; lra|]. assert (cos (rad zd) <= cos (rad 90.05)) by (apply cos_decr_1; unfold rad; nra). lra.
Qed.
Lemma day_night zd phi d lo eot e t ru su : -0.0001 <= zd <= 180.0001 -> 0 <= e <= / 10 ^ 10 -> day_facts phi d lo eot e t ru su ->
  (forall H e, near_turn H (solar_hour_angle t lo eot) e -> Rabs (cos (rad zd) - sun_U phi d H) <= e + 0.00077) ->
  (zd <= 89.95 -> (ru <= t <= su)%Z) /\ (90.05 <= zd -> (t < ru \/ su < t)%Z).
Proof.
  intros B Be (w & dl & tst & rt & st & Bw & F1 & F2 & F3 & F4 & F5 & F6 & F7 & F8) HU.
  assert (S := HU _ _ (tst_hour t tst lo eot F2)). apply Rabs_le_inv in S. destruct (cos_day zd B) as [K1 K2]. split; intros Hz.
  - assert (O : (t < ru \/ su < t)%Z -> sun_U phi d (hour_angle tst) <= e + / 10 ^ 8) by (apply (outside phi d w dl lo eot e t tst rt ru st su); assumption || apply Be || apply Bw).
    specialize (K1 Hz). destruct (Z_lt_dec t ru) as [L|L]; [specialize (O (or_introl L)); lra|]. destruct (Z_lt_dec su t) as [L2|L2]; [specialize (O (or_intror L2)); lra|]. lia.
  - assert (I : (ru <= t <= su)%Z -> - e - / 10 ^ 8 <= sun_U phi d (hour_angle tst)) by (apply (inside phi d w dl lo eot e t tst rt ru st su); assumption || apply Be || apply Bw).
    specialize (K2 Hz). destruct (Z_lt_dec t ru) as [L|L]; [now left|]. destruct (Z_lt_dec su t) as [L2|L2]; [now right|]. specialize (I ltac:(lia)). lra.
Qed.
Theorem C80_daylight : forall E nf uc times lat lon alg refr eng sp k j i t la lo zd ru su,
  float32_like E -> is_True refr = false -> evaluated_cell E uc times lat lon alg refr eng sp k j i t la lo ->
  nth_error (sp_times_utc sp) k = Some (Some t) -> reads (zenith (O := ExtOps E) sp) k j i (Fin zd) ->
  instant_of (sunrise (O := ExtOps E) nf sp "utc") k j i (Some ru) -> instant_of (sunset (O := ExtOps E) nf sp "utc") k j i (Some su) ->
  (zd <= 89.95 -> (ru <= t <= su)%Z) /\ (90.05 <= zd -> (t < ru \/ su < t)%Z).
Proof.
  intros E nf uc times lat lon alg refr eng sp k j i t la lo zd ru su HE Hr C Hu Hz Hru Hsu.
  destruct (height _ _ _ _ _ _ _ _ _ _ _ _ _ _ _ _ HE Hr C Hz) as (dd & eot & V1 & _ & _ & V2 & B & HU).
  exact (day_night _ _ _ _ _ 0 _ _ _ B ltac:(split; [lra|interval]) (day_ext _ _ _ _ _ _ _ _ _ _ _ _ _ _ _ _ _ _ _ _ C Hu Hru Hsu V1 V2) HU).
Qed.
(** Without a sunrise the sun stays up (summer: latitude and declination of the same sign) or down. *)
Lemma polar_height la dd h : -90 <= la <= 90 -> -23.7 <= dd <= 23.7 -> wsr_value la dd = NaN ->
  (0 < la * dd -> 0 <= sun_U (rad la) (rad dd) h) /\ (la * dd < 0 -> sun_U (rad la) (rad dd) h <= 0).
Proof.
  intros Ba Bd Ev. assert (Cd := cos_lat_pos dd ltac:(lra)). pose proof PI_RGT_0 as HP.
  assert (S1 : forall x, -90 <= x <= 90 -> (0 < x -> 0 < sin (rad x)) /\ (x < 0 -> sin (rad x) < 0)).
  { intros x Bx. split; intros Hx; [apply sin_gt_0; unfold rad; nra|apply sin_lt_0_var; unfold rad; nra]. }
  assert (SS : (0 < la * dd -> 0 < sin (rad la) * sin (rad dd)) /\ (la * dd < 0 -> sin (rad la) * sin (rad dd) < 0)).
  { destruct (S1 la Ba) as [P1 P2], (S1 dd ltac:(lra)) as [P3 P4].
    assert (Q1 : 0 < la -> 0 < sin (rad la)) by exact P1. clear S1.
    split; intros Hx; destruct (Rtotal_order la 0) as [L|[L|L]]; [|subst la; rewrite Rmult_0_l in Hx; lra| | |subst la; rewrite Rmult_0_l in Hx; lra|].
    - assert (dd < 0) by nra. specialize (P2 L). specialize (P4 H). nra.
    - assert (0 < dd) by nra. specialize (P1 L). specialize (P3 H). nra.
    - assert (0 < dd) by nra. specialize (P2 L). specialize (P3 H). nra.
    - assert (dd < 0) by nra. specialize (P1 L). specialize (P4 H). nra. }
  unfold sun_U.
  assert (Ca : 0 <= cos (rad la)) by (apply cos_ge_0; unfold rad; nra).
  assert (Q : (0 < la * dd -> cos (rad la) * cos (rad dd) <= sin (rad la) * sin (rad dd)) /\ (la * dd < 0 -> sin (rad la) * sin (rad dd) <= - (cos (rad la) * cos (rad dd)))).
  { destruct (Rlt_dec (-90) la) as [L1|L1]; [destruct (Rlt_dec la 90) as [L2|L2]|].
    - assert (Ca' := cos_lat_pos la ltac:(lra)). assert (Et : sin (rad la) * sin (rad dd) = tan (rad dd) * tan (rad la) * (cos (rad la) * cos (rad dd))) by (unfold tan; field; lra).
      assert (Cp : 0 < cos (rad la) * cos (rad dd)) by (apply Rmult_lt_0_compat; lra). rewrite Et.
      assert (T : tan (rad dd) * tan (rad la) < -1 \/ 1 < tan (rad dd) * tan (rad la)).
      { unfold wsr_value in Ev. destruct (Rlt_dec (-90) la); [|lra]. destruct (Rlt_dec la 90); [|lra]. destruct (Rle_dec (-1) _) in Ev; [destruct (Rle_dec _ 1) in Ev; [discriminate Ev|]|]; lra. }
      rewrite Et in SS. set (c := cos (rad la) * cos (rad dd)) in *. set (x := tan (rad dd) * tan (rad la)) in *. clearbody c x. destruct SS as [SS1 SS2].
      split; intros Hx; [specialize (SS1 Hx)|specialize (SS2 Hx)]; destruct T; nra.
    - replace (cos (rad la)) with 0; [destruct SS; split; intros Hx; lra || (specialize (H Hx); lra) || (specialize (H0 Hx); lra)|]. replace la with 90 by lra. unfold rad. replace (90 * (PI / 180)) with (PI / 2) by field. now rewrite cos_PI2.
    - replace (cos (rad la)) with 0; [destruct SS; split; intros Hx; lra || (specialize (H Hx); lra) || (specialize (H0 Hx); lra)|]. replace la with (-90) by lra. unfold rad. replace (-90 * (PI / 180)) with (- (PI / 2)) by field. now rewrite cos_neg, cos_PI2. }
  assert (Bh := COS_bound h). assert (Cp : 0 <= cos (rad la) * cos (rad dd)) by (apply Rmult_le_pos; lra).
  set (c := cos (rad la) * cos (rad dd)) in *. replace (cos (rad la) * cos (rad dd) * cos h) with (c * cos h) by reflexivity.
  destruct Q as [Q1 Q2]. split; intros Hx; [specialize (Q1 Hx)|specialize (Q2 Hx)]; nra.
Qed.
Theorem C80_polar : forall E nf uc times lat lon alg refr eng sp k j i t la lo zd dd,
  float32_like E -> is_True refr = false -> evaluated_cell E uc times lat lon alg refr eng sp k j i t la lo ->
  reads (zenith (O := ExtOps E) sp) k j i (Fin zd) -> reads (declination (O := ExtOps E) sp) k j i (Fin dd) ->
  instant_of (sunrise (O := ExtOps E) nf sp "utc") k j i None ->
  (0 < la * dd -> zd < 90.05) /\ (la * dd < 0 -> 89.95 < zd).
Proof.
  intros E nf uc times lat lon alg refr eng sp k j i t la lo zd dd HE Hr C Hz Hd Hn.
  destruct (height _ _ _ _ _ _ _ _ _ _ _ _ _ _ _ _ HE Hr C Hz) as (d1 & eot & V1 & _ & _ & V2 & B & HU).
  assert (Ed := reads_fun _ _ _ _ _ _ Hd V1). injection Ed as <-. destruct (cos_day zd B) as [K1 K2].
  destruct (cell_data E _ _ _ _ _ _ _ _ _ _ _ _ _ _ C) as (_ & _ & Bla & _). assert (Bd := cell_dec E _ _ _ _ _ _ _ _ _ _ _ _ _ _ _ C Hd).
  destruct (daylight_cases E nf _ _ _ _ _ _ _ _ _ _ _ _ _ _ C) as [(_ & d2 & D2 & Ev)|(d2 & dl & _ & Hdl)].
  - assert (Ed := reads_fun _ _ _ _ _ _ Hd D2). injection Ed as <-. assert (S := HU (solar_hour_angle t lo eot) 0). apply Rabs_le_inv in S; [|exists 0%Z; rewrite Rmult_0_r, !Rminus_diag_eq, Rabs_R0 by ring; lra].
    destruct (polar_height la dd (solar_hour_angle t lo eot) Bla ltac:(lra) Ev) as [P1 P2]. split; intros Hx; apply Rnot_le_lt; intros L; [specialize (P1 Hx); specialize (K2 L)|specialize (P2 Hx); specialize (K1 L)]; lra.
  - exfalso. destruct (C40_sunrise_sunset_times E nf _ _ _ _ _ _ _ _ _ _ _ _ _ _ _ C Hdl) as (u & wt & tst & rt & ru' & rl & st & su' & sl & _ & _ & _ & _ & _ & (a & A1 & A2) & _).
    destruct Hn as (a' & A1' & A2'). rewrite A1 in A1'. injection A1' as <-. discriminate (reads_fun _ _ _ _ _ _ A2 A2').
Qed.

(** ** C81: at the returned sunrise and sunset the sun is at the horizon *)
Lemma sin_ratio v : 0 <= v <= 1.5708 -> sin v <= 0.0296 -> v * 0.9995 <= sin v.
Proof.
  assert (N1 : 0.0299 <= sin 0.03) by interval. assert (N4 : 0.9995 <= cos 0.03) by (clear; interval). assert (N5 : 1.57 <= PI / 2) by (clear; interval).
  assert (N7 : forall u, 1.57 < u -> u <= 1.5708 -> 0.9 <= sin u) by (clear; intros u H1 H2; interval). intros Bv Hs.
  assert (V : v <= 0.03).
  { apply Rnot_lt_le. intros L. destruct (Rle_or_lt v 1.57) as [M|M].
    - assert (sin 0.03 <= sin v) by (apply sin_incr_1; lra). lra.
    - assert (0.9 <= sin v) by (apply N7; lra). lra. }
  destruct Bv as [[P|<-] _]; [|rewrite sin_0; lra].
  destruct (MVT_cor2 sin cos 0 v P ltac:(intros c _; apply derivable_pt_lim_sin)) as (c & Ec & Bc). rewrite sin_0, !Rminus_0_r in Ec. rewrite Ec.
  assert (cos 0.03 <= cos c) by (apply cos_decr_1; lra). nra.
Qed.
Lemma horizon_angle zd x : -0.0001 <= zd <= 180.0001 -> Rabs (cos (rad zd)) <= x -> x <= 0.0296 -> Rabs (zd - 90) <= 57.3247 * x.
Proof.
  intros B Hc Bx. assert (E1 : cos (rad zd) = sin (rad (90 - zd))) by (rewrite <- cos_shift; f_equal; unfold rad; field). rewrite E1 in Hc.
  assert (Q : 180 / PI <= 57.2959) by interval. assert (P0 : 3.1415926 <= PI <= 3.1415927) by (split; interval). set (y := rad (90 - zd)) in *.
  assert (By : Rabs y <= 1.5708) by (unfold y, rad; apply Rabs_le; nra).
  rewrite Rabs_minus_sym. replace (Rabs (90 - zd)) with (Rabs y * (180 / PI)). 2:{ unfold y, rad. rewrite Rabs_mult, (Rabs_pos_eq (PI / 180)) by lra. field. lra. }
  assert (S : Rabs (sin y) = sin (Rabs y)).
  { unfold Rabs at 2. unfold Rabs in By. destruct (Rcase_abs y) as [L|L].
    - rewrite sin_neg. apply Rabs_left1. left. apply sin_lt_0_var; lra.
    - apply Rabs_pos_eq. apply sin_ge_0; lra. }
  rewrite S in Hc. pose proof (Rabs_pos y). assert (K := sin_ratio (Rabs y) (conj H By) ltac:(lra)).
  assert (0 < 180 / PI) by (apply Rdiv_lt_0_compat; lra). set (q := 180 / PI) in *. clearbody q. set (v := Rabs y) in *. clearbody v.
  assert (v <= 1.000501 * x) by lra. assert (v * q <= 1.000501 * x * 57.2959) by (apply Rmult_le_compat; lra). lra.
Qed.
(** Instants a day apart lie in the same year or in consecutive ones. *)
Lemma day_apart alg c t y t' y' : calendar c -> in_year c y t -> in_year c y' t' -> (Z.abs (t' - t) <= 86450000000000)%Z ->
  0 <= seconds_apart alg c t y t' y' <= 86451 + (if String.eqb alg "iqbal" then 86400 else 0).
Proof.
  intros Hc Y Y' G. unfold in_year in *.
  assert (G1 : (Z.abs (t / 1000000000 - t' / 1000000000) <= 86451)%Z).
  { pose proof (Z.div_mod t 1000000000 ltac:(lia)). pose proof (Z.mod_pos_bound t 1000000000 ltac:(lia)). pose proof (Z.div_mod t' 1000000000 ltac:(lia)). pose proof (Z.mod_pos_bound t' 1000000000 ltac:(lia)). lia. }
  set (s := (t / 1000000000)%Z) in *. set (s' := (t' / 1000000000)%Z) in *.
  assert (L1 : (y' <= y + 1)%Z). { destruct (Z_le_dec y' (y + 1)) as [L|L]; [exact L|]. exfalso. assert (M := year_mono c (y + 1) (y' - y - 1) Hc ltac:(lia)). replace (y + 1 + (y' - y - 1))%Z with y' in M by lia. lia. }
  assert (L2 : (y <= y' + 1)%Z). { destruct (Z_le_dec y (y' + 1)) as [L|L]; [exact L|]. exfalso. assert (M := year_mono c (y' + 1) (y - y' - 1) Hc ltac:(lia)). replace (y' + 1 + (y - y' - 1))%Z with y in M by lia. lia. }
  assert (L3 : (Z.abs (c y 1 1 - c y' 1 1 - 365 * (y - y')) <= 1)%Z).
  { assert (K : forall z, (365 <= year_length z <= 366)%Z) by (intros z; unfold year_length; destruct (leap z); lia).
    assert (y' = y - 1 \/ y' = y \/ y' = y + 1)%Z as [-> | [-> | ->]] by lia.
    - assert (S := year_step c (y - 1) Hc). replace (y - 1 + 1)%Z with y in S by lia. specialize (K (y - 1)%Z). lia.
    - lia.
    - rewrite (year_step c y Hc). specialize (K y). lia. }
  unfold seconds_apart. fold s s'. assert (R1 : 0 <= IZR (Z.abs (s - s')) <= 86451) by (split; apply IZR_le; lia).
  destruct (String.eqb alg "iqbal"); [|lra]. assert (R2 : 0 <= IZR (Z.abs (c y 1%Z 1%Z - c y' 1%Z 1%Z - 365 * (y - y'))) <= 1) by (split; apply IZR_le; lia). lra.
Qed.
(** The sun of another instant at the hour angle of the horizon. *)
Lemma horizon_core phi d d' w lo eot eot' e v zd D : -0.0001 <= zd <= 180.0001 -> 0 <= e <= / 10 ^ 10 -> Rabs (sun_U phi d w) <= e -> 0 <= D <= 172900 ->
  near_turn (solar_hour_angle v lo eot) w 0.00007274 ->
  Rabs (d - d') <= 0.0000000915 * D + 3 / 1000000000 -> Rabs (eot - eot') <= 0.0000064 * D + 900 / 1000000000 ->
  (forall H e, near_turn H (solar_hour_angle v lo eot') e -> Rabs (cos (rad zd) - sun_U phi d' H) <= e + 0.00077) ->
  Rabs (zd - 90) <= 0.05 + 0.00000685 * D.
Proof.
  intros B Be HU BD N Hd Hm HH.
  assert (N' : near_turn w (solar_hour_angle v lo eot') (0.00007274 + (0.0000064 * D + 900 / 1000000000) * 0.0043634)).
  { eapply near_turn_add; [exact (near_turn_sym _ _ _ N)|]. exists 0%Z. unfold solar_hour_angle.
    replace (_ - _ - _) with ((eot - eot') * (PI / 720)) by field. rewrite Rabs_mult, (Rabs_pos_eq (PI / 720)) by interval. apply Rmult_le_compat; [apply Rabs_pos|interval|exact Hm|interval]. }
  specialize (HH _ _ N').
  assert (A : Rabs (sun_U phi d w - sun_U phi d' w) <= Rabs (d - d')).
  { assert (H := dist_hor phi d w d' w 0). rewrite Rplus_0_r in H. eapply Rle_trans; [apply (up_dist (sun_S phi d w) (sun_W phi d w) _ (sun_S phi d' w) (sun_W phi d' w))|]. apply H. exists 0%Z. rewrite Rmult_0_r, !Rminus_diag_eq, Rabs_R0 by ring. lra. }
  assert (C : Rabs (cos (rad zd)) <= 0.00086 + 0.0000001195 * D).
  { apply Rabs_le_inv in HH, A, HU. pose proof (Rabs_pos (d - d')). apply Rabs_le. assert (/ 10 ^ 10 = 0.0000000001) by lra. split; lra. }
  assert (X := horizon_angle zd _ B C ltac:(lra)). lra.
Qed.
Theorem C81_horizon : forall day_number E E' nf uc uc' times times' lat lat' lon lon' alg refr refr' eng eng' sp sp' k k' j j' i i' t v y y' la lo ru su zd,
  calendar day_number -> in_year day_number y t -> in_year day_number y' v ->
  float32_like E' -> is_True refr' = false ->
  evaluated_cell E uc times lat lon alg refr eng sp k j i t la lo -> nth_error (sp_times_utc sp) k = Some (Some t) ->
  instant_of (sunrise (O := ExtOps E) nf sp "utc") k j i (Some ru) -> instant_of (sunset (O := ExtOps E) nf sp "utc") k j i (Some su) ->
  v = ru \/ v = su ->
  evaluated_cell E' uc' times' lat' lon' alg refr' eng' sp' k' j' i' v la lo -> reads (zenith (O := ExtOps E') sp') k' j' i' (Fin zd) ->
  Rabs (zd - 90) <= 0.05 + 0.00000685 * seconds_apart alg day_number t y v y' /\ Rabs (zd - 90) <= (if String.eqb alg "iqbal" then 1.24 else 0.65).
Proof.
  intros c E E' nf uc uc' times times' lat lat' lon lon' alg refr refr' eng eng' sp sp' k k' j j' i i' t v y y' la lo ru su zd Hc Y Y' HE' Hr' C Hu Hru Hsu Hv C' Hz.
  destruct (height _ _ _ _ _ _ _ _ _ _ _ _ _ _ _ _ HE' Hr' C' Hz) as (dd' & eot' & _ & W1 & W2 & _ & B & HU).
  destruct (C79_rates _ _ _ _ _ _ _ _ _ _ _ _ _ _ _ _ _ _ _ _ _ _ _ _ Hc Y Y' (proj1 C) (proj1 C')) as (d & m & x & d' & m' & x' & V1 & V2 & _ & V1' & V2' & _ & D1 & D2 & _).
  unfold value in *. rewrite V1' in W1. injection W1 as ->. rewrite V2' in W2. injection W2 as ->.
  assert (Hd : reads (declination (O := ExtOps E) sp) k j i (Fin (d * (180 / PI)))) by (apply (declination_raw E sp k j i); rewrite deg_rad; exact V1).
  destruct (day_ext E nf _ _ _ _ _ _ _ _ _ _ _ _ _ _ _ _ _ _ C Hu Hru Hsu Hd V2) as (w & dl & tst & rt & st & Bw & F1 & F2 & F3 & F4 & F5 & F6 & F7 & F8). rewrite deg_rad in F7.
  assert (G := gaps w dl lo m t tst rt ru st su). do 8 (specialize (G ltac:(assumption || apply Bw))). destruct G as [G1 G2].
  assert (Ga : (Z.abs (v - t) <= 86450000000000)%Z) by (destruct Hv as [-> | ->]; assumption).
  assert (BD := day_apart alg c t y v y' Hc Y Y' Ga). set (D := seconds_apart alg c t y v y') in *.
  assert (K : Rabs (zd - 90) <= 0.05 + 0.00000685 * D).
  { assert (BD' : 0 <= D <= 172900) by (destruct (String.eqb alg "iqbal"); lra).
    destruct Hv as [-> | ->].
    - apply (horizon_core (rad la) d (rad dd') (- rad w) lo m eot' 0 ru zd D B ltac:(split; [lra|interval]) ltac:(rewrite U_even; exact F7) BD'); try assumption; try lra.
      apply (at_rise w dl lo m tst rt ru); assumption.
    - apply (horizon_core (rad la) d (rad dd') (rad w) lo m eot' 0 su zd D B ltac:(split; [lra|interval]) F7 BD'); try assumption; try lra.
      apply (at_set w dl lo m tst rt ru st su); assumption. }
  split; [exact K|]. destruct (String.eqb alg "iqbal"); lra.
Qed.

(** ** In double precision *)
Lemma near_any h x e : Rabs x <= e -> near_turn (h + x) h e.
Proof. intros Hx. exists 0%Z. replace (h + x - h - 2 * PI * 0) with x by ring. exact Hx. Qed.
Lemma dec_height phi d d' h : Rabs (sun_U phi d h - sun_U phi d' h) <= Rabs (d - d').
Proof.
  assert (H := dist_hor phi d h d' h 0). rewrite Rplus_0_r in H. eapply Rle_trans; [apply (up_dist (sun_S phi d h) (sun_W phi d h) _ (sun_S phi d' h) (sun_W phi d' h))|].
  apply H. exists 0%Z. rewrite Rmult_0_r, !Rminus_diag_eq, Rabs_R0 by ring. lra.
Qed.
(** The declination in degrees and the stored one. *)
Lemma dec64 D uc times lat lon alg refr eng sp k t : double_like D -> evaluated_time64 D uc times lat lon alg refr eng sp k t ->
  exists d dd eot ecf, value (sp_declination sp) [k] d /\ (forall j i, reads (declination (O := DoubleOps D) sp) k j i (Fin dd)) /\ Rabs (d - rad dd) <= / 10 ^ 14 /\ Rabs dd <= 23.61 /\
    value (sp_eot sp) [k] eot /\ value (sp_ecf sp) [k] ecf /\ 0.9599 <= ecf <= 1.0401.
Proof.
  intros HD C. destruct (time_values64 _ _ _ _ _ _ _ _ _ _ _ HD C) as (d & m & x & V1 & V2 & V3 & B1 & B2 & B3).
  assert (B : Rabs d <= 5). { assert (E : d = d * (180 / PI) * (PI / 180)) by (field; apply PI_neq0). rewrite E, Rabs_mult. assert (Rabs (PI / 180) <= 0.02) by interval.
    apply Rle_trans with (23.6 * 0.02); [apply Rmult_le_compat; try apply Rabs_pos; assumption|lra]. }
  exists d, (r64 D (d * degc D)), m, x. split; [exact V1|]. split; [intros j i; exact (reads_mapv (degrees (Ops := DoubleOps D)) (raw_declination sp) k j i _ _ V1 (degrees_fin D HD d ltac:(lra)))|].
  split; [|split; [assert (Q := angle_range64 D d 23.6 HD B B1); lra|now repeat split]].
  assert (Q := deg_close64 D d HD ltac:(lra)). assert (E : d - rad (r64 D (d * degc D)) = - ((r64 D (d * degc D) - d * (180 / PI)) * (PI / 180))) by (unfold rad; field; apply PI_neq0).
  rewrite E, Rabs_Ropp, Rabs_mult, (Rabs_pos_eq (PI / 180)) by interval. assert (P : 0 <= PI / 180 <= 0.02) by (split; interval). pose proof (Rabs_pos (r64 D (d * degc D) - d * (180 / PI))). nra.
Qed.
Lemma height64 D uc times lat lon alg refr eng sp k j i t la lo zd :
  double_like D -> is_True refr = false -> evaluated_cell64 D uc times lat lon alg refr eng sp k j i t la lo ->
  reads (zenith (O := DoubleOps D) sp) k j i (Fin zd) ->
  exists d dd eot, reads (declination (O := DoubleOps D) sp) k j i (Fin dd) /\ value (sp_declination sp) [k] d /\ Rabs (d - rad dd) <= / 10 ^ 14 /\ Rabs dd <= 23.61 /\
    value (sp_eot sp) [k] eot /\ reads (Sunpos.eot sp) k j i (Fin eot) /\ -0.0001 <= zd <= 180.0001 /\
    forall H e, near_turn H (solar_hour_angle t lo eot) e -> Rabs (cos (rad zd) - sun_U (rad la) (rad dd) H) <= e + 0.00077.
Proof.
  intros HD Hr C Hz. assert (Hc := proj1 (proj1 C)).
  destruct (dec64 _ _ _ _ _ _ _ _ _ _ _ HD (proj1 C)) as (d & dd & eot & ecf & V1 & Hd & Ed & Bd & V2 & V3 & Bx).
  destruct (proj1 (C74_ranges D _ _ _ _ _ _ _ _ _ _ _ _ _ _ HD Hr C)) as [N|(zd' & Z' & Bz)]; [discriminate (reads_fun _ _ _ _ _ _ Hz N)|].
  assert (X := reads_fun _ _ _ _ _ _ Hz Z'). injection X as <-.
  destruct (C74_elevation_cosz D _ _ _ _ _ _ _ _ _ _ _ _ HD Hc Hz ltac:(apply Rabs_le; lra)) as ((z & Z & Ez) & _ & _).
  exists d, dd, eot. split; [apply Hd|]. split; [exact V1|]. split; [exact Ed|]. split; [exact Bd|]. split; [exact V2|]. split; [exact V2|]. split; [lra|].
  assert (Cz : Rabs (cos (rad zd) - cos z) <= / 10 ^ 14).
  { eapply Rle_trans; [apply cos_lip|]. replace (rad zd - z) with ((zd - z * (180 / PI)) * (PI / 180)) by (unfold rad; field; apply PI_neq0).
    rewrite Rabs_mult, (Rabs_pos_eq (PI / 180)) by interval. assert (P : 0 <= PI / 180 <= 0.02) by (split; interval). pose proof (Rabs_pos (zd - z * (180 / PI))). nra. }
  intros H e N.
  assert (G : Rabs (cos z - sun_U (rad la) d H) <= e + 0.00076999).
  { destruct (string_dec alg "nrel") as [->|Hn].
    - destruct (C72_nrel_position _ _ _ _ _ _ _ _ _ _ _ _ _ _ HD C) as (d1 & m1 & x1 & h & d' & h' & W1 & W2 & W3 & N1 & T & _ & Zw). destruct (Zw Hr) as [(z1 & Y1 & z0 & B0 & H1 & H2)|(Y1 & _)].
      + unfold value in *. rewrite V1 in W1. injection W1 as <-. rewrite V2 in W2. injection W2 as <-. rewrite V3 in W3. injection W3 as <-. rewrite Z in Y1. injection Y1 as <-.
        assert (L := topo_geo_dist _ _ _ ecf _ _ ltac:(lra) T). unfold hor in L. assert (L0 := Rle_trans _ _ _ (up_dist _ _ _ _ _ _) L). clear L. rename L0 into L.
        assert (Lc : Rabs (cos z - cos z0) <= / 1000000000) by (eapply Rle_trans; [apply cos_lip|]; replace (z - z0) with (z - (z0 + 0 * sin z0)) by ring; exact H2).
        change (la * (PI / 180)) with (rad la) in *. unfold nrel_tol in H1.
        assert (Q : Rabs (cos z - sun_U (rad la) d h) <= 0.0001) by (apply Rabs_le_inv in L, Lc, H1; apply Rabs_le; lra).
        assert (S := shift_height _ _ _ _ _ _ _ Q N1 H e N). unfold nrel_hour_tol in S. lra.
      + unfold value in Z. rewrite Z in Y1. discriminate Y1.
    - destruct (C69_double_position _ _ _ _ _ _ _ _ _ _ _ _ _ _ _ HD Hn C) as (d1 & m1 & h & W1 & W2 & N1 & _ & Zw). destruct (proj1 (Zw Hr)) as [(z1 & Y1 & z0 & B0 & H1 & H2)|(Y1 & _)].
      + unfold value in *. rewrite V1 in W1. injection W1 as <-. rewrite V2 in W2. injection W2 as <-. rewrite Z in Y1. injection Y1 as <-.
        assert (Lc : Rabs (cos z - cos (z0 + parallax_coef alg * sin z0)) <= / 1000000000) by (eapply Rle_trans; [apply cos_lip|exact H2]).
        assert (Bk := coef_b alg). assert (P := parallax_cos z0 (parallax_coef alg) ltac:(lra)). change (la * (PI / 180)) with (rad la) in *.
        assert (Q : Rabs (cos z - sun_U (rad la) d h) <= parallax_coef alg + double_tol alg eng la + / 1000000000) by (apply Rabs_le_inv in P, Lc, H1; apply Rabs_le; lra).
        assert (S := shift_height _ _ _ _ _ _ _ Q N1 H e N). assert (Bh := hour_tol_b alg).
        destruct (sol_cases alg eng la) as [[_ T]|[-> [_ T]]]; [lra|]. rewrite sol_hour in S. lra.
      + unfold value in Z. rewrite Z in Y1. discriminate Y1. }
  assert (Dh := dec_height (rad la) d (rad dd) H). apply Rabs_le_inv in G, Cz. apply Rabs_le_inv in Dh. apply Rabs_le. assert (/ 10 ^ 14 <= 0.000000001) by lra. split; lra.
Qed.
Lemma day64 D nf uc times lat lon alg refr eng sp k j i t la lo ru su dd eot :
  double_like D -> evaluated_cell64 D uc times lat lon alg refr eng sp k j i t la lo -> nth_error (sp_times_utc sp) k = Some (Some t) ->
  instant_of (sunrise (O := DoubleOps D) nf sp "utc") k j i (Some ru) -> instant_of (sunset (O := DoubleOps D) nf sp "utc") k j i (Some su) ->
  reads (declination (O := DoubleOps D) sp) k j i (Fin dd) -> reads (Sunpos.eot sp) k j i (Fin eot) ->
  day_facts (rad la) (rad dd) lo eot (/ 10 ^ 14) t ru su.
Proof.
  intros HD C Hu Hr Hs Hd He.
  assert (I1 : forall r x y, instant_of r k j i x -> instant_of r k j i y -> x = y).
  { intros r x y (a & A1 & A2) (b & B1 & B2). rewrite A1 in B1. injection B1 as <-. exact (reads_fun _ _ _ _ _ _ A2 B2). }
  destruct (C76_sunrise D nf _ _ _ _ _ _ _ _ _ _ _ _ _ _ _ HD C Hd) as (a & ar & _ & _ & [(w & wr & dl & _ & _ & Hdl & Bw & _ & _ & F1 & F7 & F8)|(_ & _ & N & _)]).
  2:{ destruct (C76_polar D nf _ _ _ _ _ _ _ _ _ _ _ _ _ _ "utc" HD C N ltac:(cbn; tauto)) as [X _]. discriminate (I1 _ _ _ Hr X). }
  destruct (C76_times D nf _ _ _ _ _ _ _ _ _ _ _ _ _ _ _ _ HD C Hdl He ltac:(intros u' Hu'; rewrite Hu in Hu'; injection Hu' as <-; exact (proj2 (proj2 (proj1 C))))) as (u & wt & tst & rt & ru' & rl & st & su' & sl & T1 & _ & T3 & _ & _ & T6 & T7 & _ & _ & _ & T11 & _ & T13 & _ & T15 & T16).
  rewrite Hu in T1. injection T1 as <-. assert (X := I1 _ _ _ Hr T6). injection X as <-. assert (X := I1 _ _ _ Hs T7). injection X as <-.
  destruct (C77_true_solar_time D nf _ _ _ _ _ _ _ _ _ _ _ _ _ _ _ _ HD C He Hu (proj2 (proj2 (proj1 C)))) as (tst' & T3' & _ & T17).
  assert (X := reads_fun _ _ _ _ _ _ T3 T3'). injection X as <-.
  exists w, dl, tst, rt, st. split; [lra|]. split; [lra|]. split; [lra|]. split; [lra|]. split; [exact T11|]. split; [lra|]. split; [lra|]. split; [exact F7|exact F8].
Qed.
Theorem C80_daylight_double : forall D nf uc times lat lon alg refr eng sp k j i t la lo zd ru su,
  double_like D -> is_True refr = false -> evaluated_cell64 D uc times lat lon alg refr eng sp k j i t la lo ->
  nth_error (sp_times_utc sp) k = Some (Some t) -> reads (zenith (O := DoubleOps D) sp) k j i (Fin zd) ->
  instant_of (sunrise (O := DoubleOps D) nf sp "utc") k j i (Some ru) -> instant_of (sunset (O := DoubleOps D) nf sp "utc") k j i (Some su) ->
  (zd <= 89.95 -> (ru <= t <= su)%Z) /\ (90.05 <= zd -> (t < ru \/ su < t)%Z).
Proof.
  intros D nf uc times lat lon alg refr eng sp k j i t la lo zd ru su HD Hr C Hu Hz Hru Hsu.
  destruct (height64 _ _ _ _ _ _ _ _ _ _ _ _ _ _ _ _ HD Hr C Hz) as (d & dd & eot & V1 & _ & _ & _ & _ & V2 & B & HU).
  exact (day_night _ _ _ _ _ (/ 10 ^ 14) _ _ _ B ltac:(split; [interval|interval]) (day64 _ _ _ _ _ _ _ _ _ _ _ _ _ _ _ _ _ _ _ _ HD C Hu Hru Hsu V1 V2) HU).
Qed.
Lemma polar64 la dd e h : -90 <= la <= 90 -> -24 <= dd <= 24 -> 0 <= e -> (forall h, - e <= sun_U (rad la) (rad dd) h) \/ (forall h, sun_U (rad la) (rad dd) h <= e) ->
  (0 < la * dd -> - e <= sun_U (rad la) (rad dd) h) /\ (la * dd < 0 -> sun_U (rad la) (rad dd) h <= e).
Proof.
  intros Ba Bd Be F. pose proof PI_RGT_0.
  assert (S0 : forall x, -90 <= x <= 90 -> 0 <= x * sin (rad x) /\ (x <> 0 -> 0 < x * sin (rad x)) /\ 0 <= cos (rad x)).
  { intros x Bx. split; [|split; [|apply cos_ge_0; unfold rad; nra]].
    - destruct (Rle_or_lt 0 x); [assert (0 <= sin (rad x)) by (apply sin_ge_0; unfold rad; nra); nra|assert (sin (rad x) < 0) by (apply sin_lt_0_var; unfold rad; nra); nra].
    - intros Hx. destruct (Rtotal_order x 0) as [L|[L|L]]; [assert (sin (rad x) < 0) by (apply sin_lt_0_var; unfold rad; nra); nra|lra|assert (0 < sin (rad x)) by (apply sin_gt_0; unfold rad; nra); nra]. }
  destruct (S0 la Ba) as (A1 & A2 & A3), (S0 dd ltac:(lra)) as (D1 & D2 & D3). clear S0.
  assert (Cp : 0 <= cos (rad la) * cos (rad dd)) by (apply Rmult_le_pos; assumption). assert (Bh := COS_bound h).
  unfold sun_U in *. set (s := sin (rad la)) in *. set (r := sin (rad dd)) in *. set (c := cos (rad la) * cos (rad dd)) in *. fold c in F.
  assert (P : 0 <= (la * dd) * (s * r)) by (replace ((la * dd) * (s * r)) with ((la * s) * (dd * r)) by ring; apply Rmult_le_pos; assumption). set (p := la * dd) in *. set (q := s * r) in *. clearbody p q c.
  split; intros Hp.
  - assert (0 <= q) by nra. destruct F as [F|F]; [apply F|]. specialize (F 0). rewrite cos_0 in F. nra.
  - assert (q <= 0) by nra. destruct F as [F|F]; [|apply F]. specialize (F PI). rewrite cos_PI in F. nra.
Qed.
Theorem C80_polar_double : forall D nf uc times lat lon alg refr eng sp k j i t la lo zd dd,
  double_like D -> is_True refr = false -> evaluated_cell64 D uc times lat lon alg refr eng sp k j i t la lo ->
  reads (zenith (O := DoubleOps D) sp) k j i (Fin zd) -> reads (declination (O := DoubleOps D) sp) k j i (Fin dd) ->
  utc_representable sp k -> instant_of (sunrise (O := DoubleOps D) nf sp "utc") k j i None ->
  (0 < la * dd -> zd < 90.05) /\ (la * dd < 0 -> 89.95 < zd).
Proof.
  intros D nf uc times lat lon alg refr eng sp k j i t la lo zd dd HD Hr C Hz Hd Ru0 Hn.
  destruct (height64 _ _ _ _ _ _ _ _ _ _ _ _ _ _ _ _ HD Hr C Hz) as (d & d1 & eot & V1 & _ & _ & Bd & _ & V2 & B & HU).
  assert (Ed := reads_fun _ _ _ _ _ _ Hd V1). injection Ed as <-. destruct (cos_day zd B) as [K1 K2]. apply Rabs_le_inv in Bd.
  destruct (cell_data64 _ _ _ _ _ _ _ _ _ _ _ _ _ _ _ HD C) as (_ & _ & Bla & _).
  destruct (C76_sunrise D nf _ _ _ _ _ _ _ _ _ _ _ _ _ _ _ HD C Hd) as (a & ar & _ & _ & [(w & wr & dl & _ & _ & Hdl & _)|(_ & _ & _ & F)]).
  - exfalso. destruct (C76_times D nf _ _ _ _ _ _ _ _ _ _ _ _ _ _ _ _ HD C Hdl V2 Ru0) as (u & wt & tst & rt & ru' & rl & st & su' & sl & _ & _ & _ & _ & _ & (b & A1 & A2) & _).
    destruct Hn as (a' & A1' & A2'). rewrite A1 in A1'. injection A1' as <-. discriminate (reads_fun _ _ _ _ _ _ A2 A2').
  - assert (S := HU (solar_hour_angle t lo eot) 0). apply Rabs_le_inv in S; [|exists 0%Z; rewrite Rmult_0_r, !Rminus_diag_eq, Rabs_R0 by ring; lra].
    destruct (polar64 la dd (/ 10 ^ 14) (solar_hour_angle t lo eot) Bla ltac:(lra) ltac:(lra) F) as [P1 P2].
    split; intros Hx; apply Rnot_le_lt; intros L; [specialize (P1 Hx); specialize (K2 L)|specialize (P2 Hx); specialize (K1 L)]; lra.
Qed.
(** The speed limits of C79 in double precision. *)
Lemma twin64 D uc times lat lon alg refr eng sp k t : double_like D -> evaluated_time64 D uc times lat lon alg refr eng sp k t ->
  exists sp0 d m x d' m' x', evaluated_time ideal_env Sites (at_times [Some t]) (Scalar (Fin 0)) (Scalar (Fin 0)) alg refr eng sp0 0 t /\
    value (sp_declination sp) [k] d /\ value (sp_eot sp) [k] m /\ value (sp_ecf sp) [k] x /\
    value (sp_declination sp0) [0%nat] d' /\ value (sp_eot sp0) [0%nat] m' /\ value (sp_ecf sp0) [0%nat] x' /\
    Rabs (d - d') <= / 1000000000 /\ Rabs (m - m') <= 400 / 1000000000 /\ Rabs (x - x') <= / 1000000000.
Proof.
  intros HD C. destruct (call_supported (O := DoubleOps D) _ _ _ _ _ _ _ _ _ (proj1 C)) as (q & Hq).
  assert (Hs : exists q', In (alg, eng, q') (supported (O := ExtOps ideal_env))).
  { clear - Hq. unfold supported in *. cbn [In] in *. repeat (destruct Hq as [Hq|Hq]; [injection Hq as <- <- <-; eexists; tauto|]). destruct Hq. }
  destruct Hs as (q' & Hq'). destruct (one_cell ideal_env Sites t 0 0 alg refr eng q' Hq' (proj2 (proj2 C)) ltac:(lra) ltac:(lra)) as (sp0 & C0).
  exists sp0. destruct (string_dec alg "nrel") as [->|Hn].
  - destruct (C72_nrel_time _ _ _ _ _ _ _ _ _ _ _ _ _ _ _ _ _ _ _ HD C (proj1 C0)) as (d & m & x & d' & m' & x' & V). exists d, m, x, d', m', x'. split; [exact (proj1 C0)|]. exact V.
  - destruct (C69_double_time _ _ _ _ _ _ _ _ _ _ _ _ _ _ _ _ _ _ _ _ HD Hn C (proj1 C0)) as (d & m & x & d' & m' & x' & V1 & V2 & V3 & V4 & V5 & V6 & B1 & B2 & B3). exists d, m, x, d', m', x'.
    split; [exact (proj1 C0)|]. repeat (split; [assumption|]). split; [lra|exact B3].
Qed.
Theorem C79_rates_double : forall day_number D D' uc uc' times times' lat lat' lon lon' alg refr refr' eng eng' sp sp' k k' t t' y y',
  calendar day_number -> in_year day_number y t -> in_year day_number y' t' -> double_like D -> double_like D' ->
  evaluated_time64 D uc times lat lon alg refr eng sp k t ->
  evaluated_time64 D' uc' times' lat' lon' alg refr' eng' sp' k' t' ->
  exists d m x d' m' x', let s := seconds_apart alg day_number t y t' y' in
    value (sp_declination sp) [k] d /\ value (sp_eot sp) [k] m /\ value (sp_ecf sp) [k] x /\
    value (sp_declination sp') [k'] d' /\ value (sp_eot sp') [k'] m' /\ value (sp_ecf sp') [k'] x' /\
    Rabs (d - d') <= 0.0000000915 * s + 2 / 1000000000 /\ Rabs (m - m') <= 0.0000064 * s + 800 / 1000000000 /\ Rabs (x - x') <= 0.0000000083 * s + 2 / 1000000000.
Proof.
  intros c D D' uc uc' times times' lat lat' lon lon' alg refr refr' eng eng' sp sp' k k' t t' y y' Hc Y Y' HD HD' C C'.
  destruct (twin64 _ _ _ _ _ _ _ _ _ _ _ HD C) as (s1 & d & m & x & d1 & m1 & x1 & C1 & V1 & V2 & V3 & U1 & U2 & U3 & A1 & A2 & A3).
  destruct (twin64 _ _ _ _ _ _ _ _ _ _ _ HD' C') as (s2 & d' & m' & x' & d2 & m2 & x2 & C2 & V1' & V2' & V3' & U1' & U2' & U3' & A1' & A2' & A3').
  destruct (C79_rates _ _ _ _ _ _ _ _ _ _ _ _ _ _ _ _ _ _ _ _ _ _ _ _ Hc Y Y' C1 C2) as (e1 & f1 & g1 & e2 & f2 & g2 & W1 & W2 & W3 & W1' & W2' & W3' & B1 & B2 & B3).
  unfold value in *. rewrite U1 in W1. injection W1 as <-. rewrite U2 in W2. injection W2 as <-. rewrite U3 in W3. injection W3 as <-.
  rewrite U1' in W1'. injection W1' as <-. rewrite U2' in W2'. injection W2' as <-. rewrite U3' in W3'. injection W3' as <-.
  exists d, m, x, d', m', x'. cbv zeta. repeat (split; [assumption|]). apply Rabs_le_inv in A1, A2, A3, A1', A2', A3', B1, B2, B3. repeat split; apply Rabs_le; lra.
Qed.
Theorem C81_horizon_double : forall day_number D D' nf uc uc' times times' lat lat' lon lon' alg refr refr' eng eng' sp sp' k k' j j' i i' t v y y' la lo ru su zd,
  calendar day_number -> in_year day_number y t -> in_year day_number y' v ->
  double_like D -> double_like D' -> is_True refr' = false ->
  evaluated_cell64 D uc times lat lon alg refr eng sp k j i t la lo -> nth_error (sp_times_utc sp) k = Some (Some t) ->
  instant_of (sunrise (O := DoubleOps D) nf sp "utc") k j i (Some ru) -> instant_of (sunset (O := DoubleOps D) nf sp "utc") k j i (Some su) ->
  v = ru \/ v = su ->
  evaluated_cell64 D' uc' times' lat' lon' alg refr' eng' sp' k' j' i' v la lo -> reads (zenith (O := DoubleOps D') sp') k' j' i' (Fin zd) ->
  Rabs (zd - 90) <= 0.05 + 0.00000685 * seconds_apart alg day_number t y v y' /\ Rabs (zd - 90) <= (if String.eqb alg "iqbal" then 1.24 else 0.65).
Proof.
  intros c D D' nf uc uc' times times' lat lat' lon lon' alg refr refr' eng eng' sp sp' k k' j j' i i' t v y y' la lo ru su zd Hc Y Y' HD HD' Hr' C Hu Hru Hsu Hv C' Hz.
  destruct (height64 _ _ _ _ _ _ _ _ _ _ _ _ _ _ _ _ HD' Hr' C' Hz) as (d' & dd' & m' & _ & W1 & Ed' & _ & W2 & _ & B & HU).
  destruct (dec64 _ _ _ _ _ _ _ _ _ _ _ HD (proj1 C)) as (d & dd & m & xx & W3 & Hd & Ed & _ & W4 & _).
  destruct (C79_rates_double _ _ _ _ _ _ _ _ _ _ _ _ _ _ _ _ _ _ _ _ _ _ _ _ Hc Y Y' HD HD' (proj1 C) (proj1 C')) as (d1 & m1 & x1 & d2 & m2 & x2 & V1 & V2 & _ & V1' & V2' & _ & D1 & D2 & _).
  unfold value in *. rewrite V1' in W1. injection W1 as ->. rewrite V2' in W2. injection W2 as ->. rewrite V1 in W3. injection W3 as ->. rewrite V2 in W4. injection W4 as ->.
  destruct (day64 D nf _ _ _ _ _ _ _ _ _ _ _ _ _ _ _ _ _ _ HD C Hu Hru Hsu (Hd j i) V2) as (w & dl & tst & rt & st & Bw & F1 & F2 & F3 & F4 & F5 & F6 & F7 & F8).
  assert (G := gaps w dl lo m t tst rt ru st su). do 8 (specialize (G ltac:(assumption || apply Bw))). destruct G as [G1 G2].
  assert (Ga : (Z.abs (v - t) <= 86450000000000)%Z) by (destruct Hv as [-> | ->]; assumption).
  assert (BD := day_apart alg c t y v y' Hc Y Y' Ga). set (s := seconds_apart alg c t y v y') in *.
  assert (Dd : Rabs (rad dd - rad dd') <= 0.0000000915 * s + 3 / 1000000000) by (apply Rabs_le_inv in Ed, Ed', D1; apply Rabs_le; assert (/ 10 ^ 14 <= / 10000000000) by lra; split; lra).
  assert (Dm : Rabs (m - m') <= 0.0000064 * s + 900 / 1000000000) by lra.
  assert (K : Rabs (zd - 90) <= 0.05 + 0.00000685 * s).
  { assert (BD' : 0 <= s <= 172900) by (destruct (String.eqb alg "iqbal"); lra).
    destruct Hv as [-> | ->].
    - apply (horizon_core (rad la) (rad dd) (rad dd') (- rad w) lo m m' (/ 10 ^ 14) ru zd s B ltac:(split; interval) ltac:(rewrite U_even; exact F7) BD'); try assumption.
      apply (at_rise w dl lo m tst rt ru); assumption.
    - apply (horizon_core (rad la) (rad dd) (rad dd') (rad w) lo m m' (/ 10 ^ 14) su zd s B ltac:(split; interval) F7 BD'); try assumption.
      apply (at_set w dl lo m tst rt ru st su); assumption. }
  split; [exact K|]. destruct (String.eqb alg "iqbal"); lra.
Qed.

(** ** The hypotheses are met *)
(** Every supported algorithm and engine: at the equator at 10:00 UTC the sun is up at 3W and down at 177E, with a sunrise and a sunset at both. *)
Example C80_example : forall nf uc alg eng m, In (alg, eng, m) (supported (O := ExtOps ideal_env)) ->
  float32_like ideal_env /\ forall night : bool, let lo := if night then 177 else -3 in
  exists sp zd ru su, evaluated_cell ideal_env uc (at_times [Some w_t]) (Scalar (Fin 0)) (Scalar (Fin lo)) alg RFalse eng sp 0 0 0 w_t 0 lo /\
    nth_error (sp_times_utc sp) 0 = Some (Some w_t) /\ reads (zenith (O := ExtOps ideal_env) sp) 0 0 0 (Fin zd) /\ (if night then 90.05 <= zd else zd <= 89.95) /\
    instant_of (sunrise (O := ExtOps ideal_env) nf sp "utc") 0 0 0 (Some ru) /\ instant_of (sunset (O := ExtOps ideal_env) nf sp "utc") 0 0 0 (Some su).
Proof.
  intros nf uc alg eng m H. split; [exact (ideal_like _ ideal_ideal)|]. intros night lo.
  assert (Blo : -180 <= lo < 180) by (unfold lo; destruct night; lra).
  destruct (one_cell ideal_env uc w_t 0 lo alg RFalse eng m H w_t_representable ltac:(lra) Blo) as (sp & C).
  destruct (cell_cosz ideal_env _ _ _ _ _ _ _ _ _ _ _ _ _ _ ideal_ideal (eq_refl : is_True RFalse = false) C) as (zd & d & eot & Hz & Bz & Bd & Be & Hc).
  destruct (C37_midlatitudes ideal_env nf _ _ _ _ _ _ _ _ _ _ _ _ _ _ C ltac:(lra)) as (a & w & dl & _ & _ & Hdl & _).
  destruct (C40_sunrise_sunset_times ideal_env nf _ _ _ _ _ _ _ _ _ _ _ _ _ _ _ C Hdl) as (u & wt & tst & rt & ru & rl & st & su & sl & T1 & _ & T3 & _ & _ & T6 & T7 & _).
  exists sp, zd, ru, su. split; [exact C|]. split; [now rewrite (C14_times_utc_partial _ _ _ _ (at_times [Some w_t]) _ _ _ _ _ _ I (proj1 (proj1 C)))|]. split; [exact Hz|].
  split; [|now split]. apply Rabs_le_inv in Bd, Be, Hc. unfold sun_U, solar_hour_angle in Hc. rewrite w_utc_hours in Hc. replace (rad 0) with 0 in Hc by (unfold rad; ring). rewrite sin_0, cos_0, Rmult_0_l, Rplus_0_l, Rmult_1_l in Hc.
  unfold lo in *. destruct night; apply Rnot_lt_le; intros L.
  - assert (cos d * cos ((15 * (10 - 12) + 177 + eot / 4) * (PI / 180)) <= -0.5) by (clear - Bd Be; interval).
    assert (-0.001 <= cos (rad zd)); [|lra]. assert (B : 0 <= zd <= 90.05) by lra. clear - B. unfold rad. interval.
  - assert (0.5 <= cos d * cos ((15 * (10 - 12) + -3 + eot / 4) * (PI / 180))) by (clear - Bd Be; interval).
    assert (cos (rad zd) <= 0.001); [|lra]. assert (B : 89.95 <= zd <= 180) by lra. clear - B. unfold rad. interval.
Qed.
