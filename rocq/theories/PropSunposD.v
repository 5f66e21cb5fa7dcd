(** * PropSunposD: the Sunpos accessors in IEEE double precision (C74-C77; C32-C43 in floating point)

    [D] is any arithmetic that satisfies [double_like] (Double.v); [reads a k j i x] is the element of a returned DataArray for
    time [k], location (or latitude) [j] and longitude [i]. *)

From Coq Require Import ZArith QArith Reals Bool List String Lra Lia.
From Flocq Require Import Core.Raux.
From Interval Require Import Tactic.
From Verif Require Import Num Arrays Libspa Time Core Usecases Spec GenericLemmas GenericLemmas2 TimeLemmas Ext ExtLemmas Witness
  AstroTac Sky AstroSpec Astro AstroCell AstroCall AstroRefute Float32 PropPipeline PropAstro Sunpos SunposSpec SunposLemmas SunposR SunposCells SkyClose PropSunpos
  Double DoubleTac DoubleSpec DoubleLemmas PsaD PropSinglePos PropDouble Float64 PropDoublePos PropNrelD PropRefrD SunposD SunposE.
Import ListNotations.
Open Scope R_scope.

(** ** What a call stores, any algorithm *)
Lemma time_values64 D uc times lat lon alg refr eng sp k t : double_like D ->
  evaluated_time64 D uc times lat lon alg refr eng sp k t ->
  exists d m x, value (sp_declination sp) [k] d /\ value (sp_eot sp) [k] m /\ value (sp_ecf sp) [k] x /\
    Rabs (d * (180 / PI)) <= 23.6 /\ Rabs m <= 20 /\ 0.9599 <= x <= 1.0401.
Proof.
  intros HD C. destruct (string_dec alg "nrel") as [->|Hn]; [exact (C72_ranges _ _ _ _ _ _ _ _ _ _ HD C)|exact (C69_ranges _ _ _ _ _ _ _ _ _ _ _ HD Hn C)].
Qed.
Lemma angle_range64 D x b : double_like D -> Rabs x <= 5 -> Rabs (x * (180 / PI)) <= b -> Rabs (r64 D (x * degc D)) <= b + 2 / 10 ^ 13.
Proof.
  intros HD H1 H2. destruct (degc_ok D HD) as [A B]. assert (R := rd D HD (x * degc D)).
  assert (M : Rabs (x * degc D) <= 5 * 57.3) by (rewrite Rabs_mult, (Rabs_pos_eq (degc D)) by lra; apply Rmult_le_compat; try apply Rabs_pos; lra).
  assert (N : Rabs (x * (degc D - 180 / PI)) <= 5 * (1.4 / 10 ^ 14)) by (rewrite Rabs_mult; apply Rmult_le_compat; try apply Rabs_pos; lra).
  apply Rabs_le_inv in H2, N. apply Rabs_le_inv in R. apply Rabs_le. set (q := 180 / PI) in *. clearbody q. assert (x * degc D = x * q + x * (degc D - q)) by ring. lra.
Qed.
Lemma deg_close64 D z : double_like D -> Rabs z <= 5.3 -> Rabs (r64 D (z * degc D) - z * (180 / PI)) <= 2 / 10 ^ 13.
Proof.
  intros HD H1. destruct (degc_ok D HD) as [A B]. assert (R := rd D HD (z * degc D)).
  assert (M : Rabs (z * degc D) <= 5.3 * 57.3) by (rewrite Rabs_mult, (Rabs_pos_eq (degc D)) by lra; apply Rmult_le_compat; try apply Rabs_pos; lra).
  assert (N : Rabs (z * (degc D - 180 / PI)) <= 5.3 * (1.4 / 10 ^ 14)) by (rewrite Rabs_mult; apply Rmult_le_compat; try apply Rabs_pos; lra).
  apply Rabs_le_inv in N, R. apply Rabs_le. set (q := 180 / PI) in *. clearbody q. assert (z * degc D = z * q + z * (degc D - q)) by ring. lra.
Qed.
Lemma cell_data64 D uc times lat lon alg refr eng sp k j i t la lo : double_like D ->
  evaluated_cell64 D uc times lat lon alg refr eng sp k j i t la lo ->
  reads (latitude sp) k j i (Fin la) /\ reads (longitude sp) k j i (Fin lo) /\ -90 <= la <= 90 /\ -180 <= lo < 180 /\
  (exists dd, reads (declination (O := DoubleOps D) sp) k j i (Fin dd) /\ Rabs dd <= 23.61) /\
  (exists m, reads (eot sp) k j i (Fin m) /\ Rabs m <= 20) /\
  (exists f, reads (ecf sp) k j i (Fin f) /\ 0.9599 <= f <= 1.0401) /\
  (exists w, nth_error (sp_times sp) k = Some (Some w)) /\ (exists u, nth_error (sp_times_utc sp) k = Some (Some u)).
Proof.
  intros HD C. destruct (call_bounds64 _ _ _ _ _ _ _ _ _ _ _ _ _ _ _ HD C) as [Ba Bo].
  destruct (time_values64 _ _ _ _ _ _ _ _ _ _ _ HD (proj1 C)) as (d & m & x & V1 & V2 & V3 & B1 & B2 & B3).
  destruct C as [(Hc & Hk & Ht) Hi].
  split; [exact (latitude_at (O := DoubleOps D) _ _ _ _ _ _ _ _ _ Hc k j i _ _ Hi)|].
  split; [exact (longitude_at (O := DoubleOps D) _ _ _ _ _ _ _ _ _ Hc k j i _ _ Hi)|].
  split; [exact Ba|]. split; [exact Bo|]. split.
  { exists (r64 D (d * degc D)).
    assert (B : Rabs d <= 5). { assert (E : d = d * (180 / PI) * (PI / 180)) by (field; apply PI_neq0). rewrite E, Rabs_mult. assert (Rabs (PI / 180) <= 0.02) by interval.
      apply Rle_trans with (23.6 * 0.02); [apply Rmult_le_compat; try apply Rabs_pos; assumption|lra]. }
    split; [exact (reads_mapv (degrees (Ops := DoubleOps D)) (raw_declination sp) k j i _ _ V1 (degrees_fin D HD d ltac:(lra)))|].
    assert (Q := angle_range64 D d 23.6 HD B B1). lra. }
  split; [now exists m|]. split; [now exists x|]. exact (call_valid_times (O := DoubleOps D) _ _ _ _ _ _ _ _ _ k t Hc Hk).
Qed.
Lemma zenith_raw64 D uc times lat lon alg refr eng sp k j i z :
  call (O := DoubleOps D) true uc times lat lon alg refr eng = Ok sp -> value (sp_zenith sp) (idx uc k j i) z <-> reads (raw_zenith sp) k j i (Fin z).
Proof. intros Hc. unfold value, reads. now rewrite <- (raw_zenith_at (O := DoubleOps D) _ _ _ _ _ _ _ _ _ Hc k j i). Qed.

Section Statements.
Variable D : Env64.
Notation zenith := (zenith (O := DoubleOps D)).
Notation azimuth := (azimuth (O := DoubleOps D)).
Notation declination := (declination (O := DoubleOps D)).
Notation elevation := (elevation (O := DoubleOps D)).
Notation cosz := (cosz (O := DoubleOps D)).
Notation eth := (Sunpos.eth (O := DoubleOps D)).
Notation airmass := (Sunpos.airmass (O := DoubleOps D)).

(** ** C74: angles and irradiance *)
(** The degrees of the three angles are those of the stored radians to 2e-13; they lie in the documented ranges but for rounding,
    without refraction, whenever the zenith is a number. *)
Theorem C74_ranges : forall uc times lat lon alg refr eng sp k j i t la lo,
  double_like D -> is_True refr = false ->
  evaluated_cell64 D uc times lat lon alg refr eng sp k j i t la lo ->
  (reads (zenith sp) k j i NaN \/ exists zd, reads (zenith sp) k j i (Fin zd) /\ - / 10 ^ 7 <= zd <= 180 + / 10 ^ 7) /\
  (exists ad, reads (azimuth sp) k j i (Fin ad) /\ Rabs ad <= 180 + / 10 ^ 12) /\
  (exists dd, reads (declination sp) k j i (Fin dd) /\ Rabs dd <= 23.61).
Proof.
  intros uc times lat lon alg refr eng sp k j i t la lo HD Hr C. assert (Hc := proj1 (proj1 C)). pose proof PI_RGT_0 as HP.
  assert (PB : 3.14159 <= PI <= 3.1416) by (split; interval). assert (QB : 57.29 <= 180 / PI <= 57.3) by (split; interval).
  assert (EP : PI * (180 / PI) = 180) by (field; lra).
  assert (RP := rd D HD PI). rewrite (Rabs_pos_eq PI) in RP by lra. apply Rabs_le_inv in RP.
  split; [|split].
  - assert (G : (exists z, value (sp_zenith sp) (idx uc k j i) z /\ - / 1000000000 <= z <= PI + / 1000000000) \/ get (sp_zenith sp) (idx uc k j i) = Some NaN).
    { destruct (string_dec alg "nrel") as [->|Hn].
      - destruct (C72_position_ranges _ _ _ _ _ _ _ _ _ _ _ _ _ _ HD C) as [_ R]. destruct (R Hr) as [R'|[R' _]]; auto.
      - destruct (C69_position_ranges _ _ _ _ _ _ _ _ _ _ _ _ _ _ _ HD Hn C) as [_ R]. destruct (R Hr) as [R'|[R' _]]; auto. }
    destruct G as [(z & Z & B)|Z].
    + right. apply (zenith_raw64 _ _ _ _ _ _ _ _ _ _ _ _ _ Hc) in Z. exists (r64 D (z * degc D)). split; [apply zenith_of; [exact HD|apply Rabs_le; lra|exact Z]|].
      assert (Q := deg_close64 D z HD ltac:(apply Rabs_le; lra)). apply Rabs_le_inv in Q.
      set (q := 180 / PI) in *. clearbody q. assert (- / 10 ^ 9 * 57.3 <= z * q) by nra. assert (z * q <= 180 + / 10 ^ 9 * 57.3) by nra. lra.
    + left. apply zenith_nan. unfold reads. now rewrite (raw_zenith_at (O := DoubleOps D) _ _ _ _ _ _ _ _ _ Hc k j i).
  - assert (G : exists a, value (sp_azimuth sp) (idx uc k j i) a /\ - r64 D PI <= a <= r64 D PI).
    { destruct (string_dec alg "nrel") as [->|Hn]; [exact (proj1 (C72_position_ranges _ _ _ _ _ _ _ _ _ _ _ _ _ _ HD C))|exact (proj1 (C69_position_ranges _ _ _ _ _ _ _ _ _ _ _ _ _ _ _ HD Hn C))]. }
    destruct G as (a & A & B). exists (r64 D (a * degc D)). split.
    + refine (reads_mapv (degrees (Ops := DoubleOps D)) (raw_azimuth sp) k j i (Fin a) _ _ (degrees_fin D HD a ltac:(apply Rabs_le; lra))). unfold reads. now rewrite (raw_azimuth_at (O := DoubleOps D) _ _ _ _ _ _ _ _ _ Hc k j i).
    + assert (Q := deg_close64 D a HD ltac:(apply Rabs_le; lra)). apply Rabs_le_inv in Q. apply Rabs_le.
      set (q := 180 / PI) in *. clearbody q. assert (- (180 + 57.3 * (4 / 10 ^ 16)) <= a * q <= 180 + 57.3 * (4 / 10 ^ 16)) by nra. lra.
  - destruct (cell_data64 _ _ _ _ _ _ _ _ _ _ _ _ _ _ _ HD C) as (_ & _ & _ & _ & H & _). exact H.
Qed.
(** Elevation and cosine from the returned zenith angle. *)
Theorem C74_elevation_cosz : forall uc times lat lon alg refr eng sp k j i zd,
  double_like D -> call (O := DoubleOps D) true uc times lat lon alg refr eng = Ok sp ->
  reads (zenith sp) k j i (Fin zd) -> Rabs zd <= 300 ->
  (exists z, value (sp_zenith sp) (idx uc k j i) z /\ Rabs (zd - z * (180 / PI)) <= 2 / 10 ^ 13) /\
  (exists el, reads (elevation sp) k j i (Fin el) /\ Rabs (el - (90 - zd)) <= 5 / 10 ^ 14) /\
  (exists c, reads (cosz sp) k j i (Fin c) /\ Rabs (c - cos (rad zd)) <= 4 / 10 ^ 15 /\ -1 <= c <= 1).
Proof.
  intros uc times lat lon alg refr eng sp k j i zd HD Hc Hz B. destruct (zenith_inv D sp k j i zd Hz) as (z & Z & E).
  assert (Bz : Rabs z <= 5.3) by (apply (raw_bound D HD); now rewrite <- E).
  split; [exists z; split; [now apply (zenith_raw64 _ _ _ _ _ _ _ _ _ _ _ _ _ Hc)|rewrite E; now apply deg_close64]|].
  split.
  - exists (r64 D (90 - zd)). split; [apply (elevation_of D HD); [lra|exact Hz]|]. assert (R := rd D HD (90 - zd)). apply Rabs_le_inv in B.
    assert (Rabs (90 - zd) <= 390) by (apply Rabs_le; lra). lra.
  - exists (cos64 D z). split; [now apply cosz_of|]. rewrite E. apply (cosz_close D HD). now rewrite <- E.
Qed.
(** No zenith: no elevation, cosine, air mass or irradiance. *)
Theorem C74_nan : forall uc times lat lon alg refr eng sp k j i t la lo s name,
  double_like D -> evaluated_cell64 D uc times lat lon alg refr eng sp k j i t la lo ->
  reads (zenith sp) k j i NaN ->
  reads (elevation sp) k j i NaN /\ reads (cosz sp) k j i NaN /\
  (forall a, airmass sp name = Ok a -> reads a k j i NaN) /\
  (forall e, eth sp (Fin s) name = Ok e -> reads e k j i NaN).
Proof.
  intros uc times lat lon alg refr eng sp k j i t la lo s name HD C Hz.
  destruct (cell_data64 _ _ _ _ _ _ _ _ _ _ _ _ _ _ _ HD C) as (_ & _ & _ & _ & _ & _ & (f & Hf & _) & _).
  assert (Hc : reads (cosz sp) k j i NaN).
  { apply reads_map_inv in Hz as (y & Y & E). refine (reads_mapv _ _ k j i _ _ Y _). destruct y as [| | |r]; try reflexivity. exfalso. cbn [degrees DoubleOps] in E. rewrite fin_mul in E. cbn [e_rd] in E. unfold fin64 in E. destruct (Rlt_dec _ _); [discriminate E|]. destruct (Rlt_dec _ _); discriminate E. }
  assert (Ham : forall nm a, airmass sp nm = Ok a -> reads a k j i NaN).
  { intros nm a Ha. assert (Hn : exists c, In (nm, c) am_table).
    { unfold Sunpos.airmass, rec_airmass in Ha. repeat match type of Ha with context[String.eqb nm ?s] => destruct (String.eqb_spec nm s) as [->|]; [eexists; cbn; tauto|] end. discriminate Ha. }
    destruct Hn as (c & Hin). rewrite (airmass64 D sp nm c Hin) in Ha. injection Ha as <-. exact (reads_map2v _ _ _ k j i _ _ _ Hc Hz (amf_nan D nm NaN)). }
  split; [exact (reads_mapv _ _ k j i _ _ Hz eq_refl)|]. split; [exact Hc|]. split; [apply Ham|].
  intros e He. unfold Sunpos.eth in He.
  assert (H0 : reads (da_map2 (mul (Ops := DoubleOps D)) (da_map (mul (Ops := DoubleOps D) (Fin s)) (ecf sp)) (da_map (fmaximum (Ops := DoubleOps D) (lit (Ops := DoubleOps D) 0.0)) (cosz sp))) k j i NaN).
  { refine (reads_map2v _ _ _ k j i _ NaN _ (reads_map _ _ k j i _ Hf) (reads_mapv _ _ k j i _ NaN Hc _) _); [reflexivity|]. destruct (mul (Fin s) (Fin f)) as [| | |r]; try reflexivity. cbn. destruct (Rlt_dec _ _); [reflexivity|]. now destruct (Rlt_dec _ _). }
  set (b := da_map2 _ _ _) in *. clearbody b.
  assert (M2 : forall (f' : ext -> ext) a y, reads a k j i y -> reads (da_map2 (mul (Ops := DoubleOps D)) b (da_map f' a)) k j i NaN).
  { intros f' a y Hy. refine (reads_map2v _ _ _ k j i _ _ _ H0 (reads_map _ _ k j i _ Hy) _). generalize (f' y). intros x. reflexivity. }
  assert (OkI : forall a a' : darray ext, Ok a = Ok a' -> a = a') by (intros a a' X; injection X; auto).
  destruct (String.eqb name "none").
  { apply OkI in He. rewrite <- He. refine (reads_mapv _ _ k j i _ _ H0 _). generalize (lit (Ops := DoubleOps D) 1.0). intros x. reflexivity. }
  destruct (String.eqb name "perez_1990").
  { destruct (airmass sp "kasten_and_young_1989") as [a|] eqn:Ea; [|discriminate He]. cbn [rbind] in He. apply OkI in He. rewrite <- He. exact (M2 _ _ _ (Ham _ _ Ea)). }
  destruct (String.eqb name "skarveith_1998"); [apply OkI in He; rewrite <- He; exact (M2 _ _ _ Hz)|].
  destruct (String.eqb name "gonzalez_and_calbo_1999"); [|discriminate He].
  destruct (airmass sp "gueymard_2003") as [a|] eqn:Ea; [|discriminate He]. cbn [rbind] in He. apply OkI in He. rewrite <- He. exact (M2 _ _ _ (Ham _ _ Ea)).
Qed.

(** Irradiance without correction. *)
Lemma sin_low y : 1.7 / 10 ^ 14 <= y <= PI / 2 -> 1.6 / 10 ^ 14 <= sin y.
Proof.
  intros H. pose proof PI_RGT_0. assert (sin (1.7 / 10 ^ 14) <= sin y) by (apply sin_incr_1; lra). assert (1.6 / 10 ^ 14 <= sin (1.7 / 10 ^ 14)) by interval. lra.
Qed.
Lemma cos_night zd : 90 + / 10 ^ 12 <= zd <= 180 -> cos (rad zd) <= - (1.6 / 10 ^ 14).
Proof.
  intros H. assert (P : 3.14159 <= PI <= 3.1416) by (split; interval). unfold rad.
  replace (zd * (PI / 180)) with (PI / 2 + (zd - 90) * (PI / 180)) by field. rewrite cos_plus, cos_PI2, sin_PI2.
  assert (T := sin_low ((zd - 90) * (PI / 180)) ltac:(split; nra)). lra.
Qed.
Lemma cos_day zd : 0 <= zd <= 90 - / 10 ^ 12 -> 1.6 / 10 ^ 14 <= cos (rad zd).
Proof.
  intros H. assert (P : 3.14159 <= PI <= 3.1416) by (split; interval). rewrite cos_sin. unfold rad.
  rewrite <- (sin_PI_x (PI / 2 + _)). apply sin_low. split; nra.
Qed.
(** Between the solar constants 1 and 1e5 W/m2; zero exactly at night but for 1e-12 degrees. *)
Theorem C74_eth : forall uc times lat lon alg refr eng sp k j i t la lo zd s,
  double_like D -> evaluated_cell64 D uc times lat lon alg refr eng sp k j i t la lo ->
  reads (zenith sp) k j i (Fin zd) -> Rabs zd <= 300 -> 1 <= s <= 100000 ->
  exists e f x, eth sp (Fin s) "none" = Ok e /\ reads e k j i (Fin x) /\ reads (ecf sp) k j i (Fin f) /\ 0.9599 <= f <= 1.0401 /\
    0 <= x /\ Rabs (x - s * f * Rmax 0 (cos (rad zd))) <= 5 / 10 ^ 15 * s /\
    (90 + / 10 ^ 12 <= zd <= 180 -> x = 0) /\ (0 <= zd <= 90 - / 10 ^ 12 -> 0 < x).
Proof.
  intros uc times lat lon alg refr eng sp k j i t la lo zd s HD C Hz Bz Bs.
  destruct (cell_data64 _ _ _ _ _ _ _ _ _ _ _ _ _ _ _ HD C) as (_ & _ & _ & _ & _ & _ & (f & Hf & Bf) & _).
  destruct (zenith_inv D sp k j i zd Hz) as (z & Z & E). destruct (cosz_close D HD z ltac:(now rewrite <- E)) as [K1 K2]. rewrite <- E in K1.
  assert (Hcz := cosz_of D sp k j i z Z). set (c := cos64 D z) in *.
  destruct (eth_none D HD sp k j i s f c ltac:(lra) ltac:(lra) K2 Hf Hcz) as (e & He & Hx). exists e, f, (eth0 D s f c).
  destruct (eth0_close D HD s f c ltac:(lra) ltac:(lra) K2) as (E1 & E2 & E3).
  do 4 (split; [assumption|]). split; [exact E1|]. set (cc := cos (rad zd)) in *. apply Rabs_le_inv in K1.
  assert (M : Rabs (Rmax 0 c - Rmax 0 cc) <= 4 / 10 ^ 15) by (apply Rabs_le; unfold Rmax; destruct (Rle_dec 0 c), (Rle_dec 0 cc); lra).
  assert (M1 : 0 <= Rmax 0 c <= 1) by (split; [apply Rmax_l|apply Rmax_lub; lra]).
  assert (SF : 0 <= s * f <= 1.0401 * s) by nra. split; [|split].
  - assert (T : Rabs (s * f * (Rmax 0 c - Rmax 0 cc)) <= 1.0401 * s * (4 / 10 ^ 15)) by (rewrite Rabs_mult, (Rabs_pos_eq (s * f)) by lra; apply Rmult_le_compat; try apply Rabs_pos; lra).
    assert (s * f * Rmax 0 c <= 1.0401 * s) by nra. apply Rabs_le_inv in E2, T. apply Rabs_le. lra.
  - intros Hn. apply E3. assert (Q := cos_night zd Hn). fold cc in Q. lra.
  - intros Hn. assert (Q := cos_day zd Hn). fold cc in Q. rewrite Rmax_right in E2 by lra. apply Rabs_le_inv in E2.
    assert (/ 10 ^ 14 * 0.95 <= s * f * c) by nra. lra.
Qed.

(** ** C75: air mass *)
Theorem C75_airmass : forall uc times lat lon alg refr eng sp name c,
  double_like D -> call (O := DoubleOps D) true uc times lat lon alg refr eng = Ok sp ->
  In (name, c) am_table ->
  exists a, airmass sp name = Ok a /\
    forall k j i zd, reads (zenith sp) k j i (Fin zd) -> 0 <= zd <= 180 ->
      (90 < zd -> reads a k j i NaN) /\
      (zd <= 90 -> exists m, reads a k j i (Fin m) /\ 1 <= m <= 39.0001 /\ Rabs (m - Rmax 1 (1 / slant c zd)) <= / 10 ^ 10).
Proof.
  intros uc times lat lon alg refr eng sp name c HD Hc Hin. exists (da_map2 (amf D name) (cosz sp) (sza (O := DoubleOps D) sp)). split; [now apply (airmass64 D sp name c)|].
  intros k j i zd Hz B. destruct (zenith_inv D sp k j i zd Hz) as (z & Z & E).
  destruct (cosz_close D HD z ltac:(rewrite <- E; apply Rabs_le; lra)) as [K1 K2]. rewrite <- E in K1.
  assert (Hcz := cosz_of D sp k j i z Z). split.
  - intros H. exact (reads_map2v _ _ _ k j i _ _ _ Hcz Hz (amf_night D HD name _ zd H (ex_intro _ c Hin))).
  - intros H. destruct (am64 D HD name c zd (cos64 D z) Hin ltac:(lra) K1) as (m & M1 & M2 & M3). exists m.
    split; [exact (reads_map2v _ _ _ k j i _ _ _ Hcz Hz M1)|]. assert (R := am_value_range name c zd Hin ltac:(lra)). unfold am_value in *. rewrite Rmax_comm in M3, R.
    apply Rabs_le_inv in M3 as M4. split; [lra|exact M3].
Qed.

(** ** C74: irradiance with a clearness-index correction, sun up *)
Theorem C74_corrected_eth : forall uc times lat lon alg refr eng sp k j i t la lo zd s,
  double_like D -> evaluated_cell64 D uc times lat lon alg refr eng sp k j i t la lo ->
  reads (zenith sp) k j i (Fin zd) -> 0 <= zd <= 90 -> 1 <= s <= 100000 ->
  exists e0 x0 a1 a2 m1 m2, eth sp (Fin s) "none" = Ok e0 /\ reads e0 k j i (Fin x0) /\
    airmass sp "kasten_and_young_1989" = Ok a1 /\ reads a1 k j i (Fin m1) /\
    airmass sp "gueymard_2003" = Ok a2 /\ reads a2 k j i (Fin m2) /\
    forall corr c, In (corr, c) [("perez_1990", perez m1); ("skarveith_1998", skartveit zd); ("gonzalez_and_calbo_1999", gonzalez_calbo m2)]%string ->
      0.22 <= c <= 1.02 /\ exists e x, eth sp (Fin s) corr = Ok e /\ reads e k j i (Fin x) /\ Rabs (x - x0 * c) <= 2 / 10 ^ 12 * x0 + / 10 ^ 25.
Proof.
  intros uc times lat lon alg refr eng sp k j i t la lo zd s HD C Hz Bz Bs. assert (Hc := proj1 (proj1 C)).
  destruct (cell_data64 _ _ _ _ _ _ _ _ _ _ _ _ _ _ _ HD C) as (_ & _ & _ & _ & _ & _ & (f & Hf & Bf) & _).
  destruct (zenith_inv D sp k j i zd Hz) as (z & Z & E). destruct (cosz_close D HD z ltac:(rewrite <- E; apply Rabs_le; lra)) as [K1 K2]. rewrite <- E in K1.
  assert (Hcz := cosz_of D sp k j i z Z). set (cz := cos64 D z) in *.
  assert (E0 := base64 D HD sp k j i s f cz Hf Hcz ltac:(lra) ltac:(lra) K2).
  destruct (eth_none D HD sp k j i s f cz ltac:(lra) ltac:(lra) K2 Hf Hcz) as (e0 & He0 & Hx0).
  destruct (eth0_close D HD s f cz ltac:(lra) ltac:(lra) K2) as (P1 & P2 & _).
  assert (P3 : eth0 D s f cz <= 300000).
  { assert (0 <= Rmax 0 cz <= 1) by (split; [apply Rmax_l|apply Rmax_lub; lra]). assert (0 <= s * f <= 110000) by nra. assert (0 <= s * f * Rmax 0 cz <= 110000) by nra.
    apply Rabs_le_inv in P2. lra. }
  destruct (am64 D HD "kasten_and_young_1989" (0.50572, 0, 96.07995, 1.6364) zd cz ltac:(cbn; tauto) Bz K1) as (m1 & A1 & A2 & A3).
  destruct (am64 D HD "gueymard_2003" (0.48353, 0.095846, 96.741, 1.754) zd cz ltac:(cbn; tauto) Bz K1) as (m2 & B1 & B2 & B3).
  assert (R1 := am_value_range "kasten_and_young_1989" (0.50572, 0, 96.07995, 1.6364) zd ltac:(cbn; tauto) Bz).
  assert (R2 := am_value_range "gueymard_2003" (0.48353, 0.095846, 96.741, 1.754) zd ltac:(cbn; tauto) Bz).
  apply Rabs_le_inv in A3, B3.
  eexists _, (eth0 D s f cz), _, _, m1, m2. split; [exact He0|]. split; [exact Hx0|].
  split; [exact (airmass64 D sp "kasten_and_young_1989" (0.50572, 0, 96.07995, 1.6364) ltac:(cbn; tauto))|]. split; [exact (reads_map2v _ _ _ k j i _ _ _ Hcz Hz A1)|].
  split; [exact (airmass64 D sp "gueymard_2003" (0.48353, 0.095846, 96.741, 1.754) ltac:(cbn; tauto))|]. split; [exact (reads_map2v _ _ _ k j i _ _ _ Hcz Hz B1)|].
  set (x0 := eth0 D s f cz) in *.
  intros corr c [H|[H|[H|[]]]]; injection H as <- <-.
  - assert (Bc : 0.22 <= perez m1 <= 1.02) by (clear - Bz A3 B3 R1 R2 A2 B2; assert (1 <= m1 <= 39.1) by lra; assert (1 <= m2 <= 39.1) by lra; clear R1 R2 A3 B3; unfold perez; split; interval with (i_bisect m1)). split; [exact Bc|].
    destruct (eth_perez64 D HD sp k j i s f cz zd Hf Hcz Hz ltac:(lra) ltac:(lra) K2) as (e & He & Hx). fold x0 in Hx. rewrite A1 in Hx.
    destruct (mul_corr D HD x0 (perez m1) (/ 10 ^ 13) _ ltac:(lra) ltac:(lra) ltac:(lra) (perezf_ok D HD m1 ltac:(lra))) as (y & Y1 & Y2).
    exists e, y. split; [exact He|]. rewrite Y1 in Hx. split; [exact Hx|lra].
  - assert (Bc : 0.22 <= skartveit zd <= 1.02) by (clear - Bz A3 B3 R1 R2 A2 B2; assert (1 <= m1 <= 39.1) by lra; assert (1 <= m2 <= 39.1) by lra; clear R1 R2 A3 B3; unfold skartveit; split; interval with (i_bisect zd)). split; [exact Bc|].
    destruct (eth_skart64 D HD sp k j i s f cz zd Hf Hcz Hz ltac:(lra) ltac:(lra) K2) as (e & He & Hx). fold x0 in Hx.
    destruct (mul_corr D HD x0 (skartveit zd) (/ 10 ^ 13) _ ltac:(lra) ltac:(lra) ltac:(lra) (skartf_ok D HD zd Bz)) as (y & Y1 & Y2).
    exists e, y. split; [exact He|]. rewrite Y1 in Hx. split; [exact Hx|lra].
  - assert (Bc : 0.22 <= gonzalez_calbo m2 <= 1.02) by (clear - Bz A3 B3 R1 R2 A2 B2; assert (1 <= m1 <= 39.1) by lra; assert (1 <= m2 <= 39.1) by lra; clear R1 R2 A3 B3; unfold gonzalez_calbo; split; interval with (i_bisect m2)). split; [exact Bc|].
    destruct (eth_gonz64 D HD sp k j i s f cz zd Hf Hcz Hz ltac:(lra) ltac:(lra) K2) as (e & He & Hx). fold x0 in Hx. rewrite B1 in Hx.
    destruct (mul_corr D HD x0 (gonzalez_calbo m2) (/ 10 ^ 12) _ ltac:(lra) ltac:(lra) ltac:(lra) (gonzf_ok D HD m2 ltac:(lra))) as (y & Y1 & Y2).
    exists e, y. split; [exact He|]. rewrite Y1 in Hx. split; [exact Hx|lra].
Qed.
(** ... and at night: zero for skarveith_1998, NaN (not zero) for the two others. *)
Theorem C74_night : forall uc times lat lon alg refr eng sp k j i t la lo zd s,
  double_like D -> evaluated_cell64 D uc times lat lon alg refr eng sp k j i t la lo ->
  reads (zenith sp) k j i (Fin zd) -> 90 + / 10 ^ 12 <= zd <= 180 -> 1 <= s <= 100000 ->
  exists e1 e2 e3,
    eth sp (Fin s) "skarveith_1998" = Ok e1 /\ reads e1 k j i (Fin 0) /\
    eth sp (Fin s) "perez_1990" = Ok e2 /\ reads e2 k j i NaN /\
    eth sp (Fin s) "gonzalez_and_calbo_1999" = Ok e3 /\ reads e3 k j i NaN.
Proof.
  intros uc times lat lon alg refr eng sp k j i t la lo zd s HD C Hz Bz Bs.
  destruct (cell_data64 _ _ _ _ _ _ _ _ _ _ _ _ _ _ _ HD C) as (_ & _ & _ & _ & _ & _ & (f & Hf & Bf) & _).
  destruct (zenith_inv D sp k j i zd Hz) as (z & Z & E). destruct (cosz_close D HD z ltac:(rewrite <- E; apply Rabs_le; lra)) as [K1 K2]. rewrite <- E in K1.
  assert (Hcz := cosz_of D sp k j i z Z). set (cz := cos64 D z) in *. apply Rabs_le_inv in K1.
  assert (Q := cos_night zd Bz). destruct (eth0_close D HD s f cz ltac:(lra) ltac:(lra) K2) as (_ & _ & P). specialize (P ltac:(lra)).
  destruct (eth_skart64 D HD sp k j i s f cz zd Hf Hcz Hz ltac:(lra) ltac:(lra) K2) as (e1 & He1 & Hx1).
  destruct (eth_perez64 D HD sp k j i s f cz zd Hf Hcz Hz ltac:(lra) ltac:(lra) K2) as (e2 & He2 & Hx2).
  destruct (eth_gonz64 D HD sp k j i s f cz zd Hf Hcz Hz ltac:(lra) ltac:(lra) K2) as (e3 & He3 & Hx3). rewrite P in *.
  assert (N1 : exists c, In ("kasten_and_young_1989"%string, c) am_table) by (eexists; cbn; tauto). assert (N2 : exists c, In ("gueymard_2003"%string, c) am_table) by (eexists; cbn; tauto).
  rewrite (amf_night D HD "kasten_and_young_1989" _ zd ltac:(lra) N1), (proj1 (nanf D)) in Hx2.
  rewrite (amf_night D HD "gueymard_2003" _ zd ltac:(lra) N2), (proj2 (nanf D)) in Hx3.
  assert (M : mul (Ops := DoubleOps D) (Fin 0) NaN = NaN) by (cbn [mul DoubleOps]; now rewrite nan_mul_r). rewrite M in *.
  exists e1, e2, e3. split; [exact He1|]. split; [|now repeat split].
  replace (Fin 0) with (mul (Ops := DoubleOps D) (Fin 0) (skartf D (Fin zd))); [exact Hx1|].
  assert (S : exists y, skartf D (Fin zd) = Fin y). { apply (skartf_fin D HD). lra. } destruct S as (y & ->). cbn [mul DoubleOps]. rewrite fin_mul, Rmult_0_l, (rd_fin_s D HD) by (rewrite Rabs_R0; lra). now rewrite r64_0.
Qed.

(** ** C76: sunrise and sunset *)
Variable nf : ext.   (* what numpy makes of NaT when it is cast to a float *)
Notation sunrise := (Sunpos.sunrise (O := DoubleOps D) nf).
Notation sunset := (Sunpos.sunset (O := DoubleOps D) nf).
Notation daylight_length := (Sunpos.daylight_length (O := DoubleOps D)).
Notation true_solar_time := (Sunpos.true_solar_time (O := DoubleOps D) nf).

Lemma sunU_mono phi d h w : 0 <= cos phi -> 0 <= cos d -> cos w <= cos h -> sun_U phi d w <= sun_U phi d h.
Proof. intros H1 H2 H3. unfold sun_U. assert (0 <= cos phi * cos d) by nra. nra. Qed.
Lemma sunU_even phi d h : sun_U phi d (Rabs h) = sun_U phi d h.
Proof. unfold sun_U. f_equal. unfold Rabs. destruct (Rcase_abs h); now rewrite ?cos_neg. Qed.
Lemma cos_decr_le a b : 0 <= a -> a <= b -> b <= PI -> cos b <= cos a.
Proof. intros. apply cos_decr_1; lra. Qed.

(** The sunrise angle bounds the hours with the sun above the horizon, to 1e-14 of the sun's height; it is missing only if the sun
    neither rises nor sets, to the same precision. *)
Theorem C76_sunrise : forall uc times lat lon alg refr eng sp k j i t la lo dd,
  double_like D -> evaluated_cell64 D uc times lat lon alg refr eng sp k j i t la lo ->
  reads (declination sp) k j i (Fin dd) ->
  exists a ar, sunrise sp "deg" = Ok (Angle a) /\ sunrise sp "rad" = Ok (Angle ar) /\
    ((exists w wr dl, reads a k j i (Fin w) /\ reads ar k j i (Fin wr) /\ reads (daylight_length sp) k j i (Fin dl) /\
        0 <= w <= 180 + / 10 ^ 12 /\ Rabs (rad w - wr) <= 2 / 10 ^ 15 /\
        0 <= dl <= 24 + 2 / 10 ^ 13 /\ Rabs (dl - 2 * w / 15) <= / 10 ^ 14 /\
        Rabs (sun_U (rad la) (rad dd) (rad w)) <= / 10 ^ 14 /\
        (forall h, Rabs h <= PI -> (Rabs h <= rad w -> - / 10 ^ 14 <= sun_U (rad la) (rad dd) h) /\
                                   (rad w <= Rabs h -> sun_U (rad la) (rad dd) h <= / 10 ^ 14))) \/
     (reads a k j i NaN /\ reads ar k j i NaN /\ reads (daylight_length sp) k j i NaN /\
        ((forall h, - / 10 ^ 14 <= sun_U (rad la) (rad dd) h) \/ (forall h, sun_U (rad la) (rad dd) h <= / 10 ^ 14)))).
Proof.
  intros uc times lat lon alg refr eng sp k j i t la lo dd HD C Hd.
  destruct (cell_data64 _ _ _ _ _ _ _ _ _ _ _ _ _ _ _ HD C) as (Hla & _ & Bla & _ & (dd' & Hd' & Bd) & _).
  assert (Ed := reads_fun _ _ _ _ _ _ Hd Hd'). injection Ed as <-. clear Hd'.
  assert (La : Rabs la <= 90) by (apply Rabs_le; lra). assert (Dd : Rabs dd <= 30) by lra.
  assert (Hr := sunrise_rad64 D HD sp k j i la dd Hla Hd ltac:(lra) ltac:(lra)). do 2 eexists. split; [reflexivity|]. split; [reflexivity|].
  unfold wsr in Hr. destruct (Rle_dec (-1) (tantan D la dd)) as [T1|T1]; [destruct (Rle_dec (tantan D la dd) 1) as [T2|T2]|].
  - left. set (tt := tantan D la dd) in *. destruct (dl_acos D HD tt (conj T1 T2)) as [A1 A2]. set (wr := acos64 D tt) in *.
    destruct (wdeg_ok D HD wr A2) as [W1 W2]. destruct (dlen_ok D HD wr A2) as [L1 L2]. assert (WR := w_range D HD wr A2).
    exists (wdeg D wr), wr, (dlen D wr).
    split; [now apply (sunrise_deg64 D HD)|]. split; [exact Hr|]. split; [now apply (daylight64 D HD)|].
    split; [exact W2|]. split; [lra|]. split; [exact L2|]. split; [replace (2 * wdeg D wr / 15) with (2 / 15 * wdeg D wr) by field; lra|].
    assert (P : 3.14159 <= PI <= 3.1416) by (split; interval).
    assert (K : Rabs (cos (rad (wdeg D wr)) - tt) <= 2.6 / 10 ^ 15).
    { rewrite <- (cos_acos tt) at 1 by lra. eapply Rle_trans; [apply cos_lip|].
      replace (rad (wdeg D wr) - acos tt) with ((rad (wdeg D wr) - wr) + (wr - acos tt)) by ring. eapply Rle_trans; [apply Rabs_triang|]. lra. }
    assert (U := horizon_at D HD la dd La Dd _ _ (conj T1 T2) K). split; [lra|].
    assert (R0 : 0 <= rad (wdeg D wr)) by (unfold rad; nra). apply Rabs_le_inv in W1, U. set (w := rad (wdeg D wr)) in *.
    assert (C1 : 0 <= cos (rad la)) by (now apply SoltrackCell.cos_lat_pos).
    assert (C2 : 0 <= cos (rad dd)) by (apply SoltrackCell.cos_lat_pos; apply Rabs_le_inv in Dd; lra).
    intros h Hh. rewrite <- (sunU_even _ _ h). pose proof (Rabs_pos h). split; intros Hw.
    + destruct (Rle_dec w PI) as [Lw|Lw].
      * assert (M := sunU_mono (rad la) (rad dd) (Rabs h) w C1 C2 (cos_decr_le _ _ H Hw Lw)). lra.
      * assert (M := sunU_mono (rad la) (rad dd) (Rabs h) PI C1 C2 (cos_decr_le _ _ H Hh (Rle_refl _))).
        assert (V : Rabs (sun_U (rad la) (rad dd) PI - sun_U (rad la) (rad dd) w) <= 2.7 / 10 ^ 15).
        { unfold sun_U. replace (_ - _) with (cos (rad la) * cos (rad dd) * (cos PI - cos w)) by ring.
          pose proof (COS_bound (rad la)). pose proof (COS_bound (rad dd)). rewrite Rabs_mult, (Rabs_pos_eq (_ * _)) by nra.
          assert (L := cos_lip PI w). assert (Rabs (PI - w) <= 2.7 / 10 ^ 15) by (apply Rabs_le; lra). assert (0 <= cos (rad la) * cos (rad dd) <= 1) by nra.
          pose proof (Rabs_pos (cos PI - cos w)). nra. }
        apply Rabs_le_inv in V. lra.
    + assert (M := sunU_mono (rad la) (rad dd) w (Rabs h) C1 C2 (cos_decr_le _ _ R0 Hw Hh)). lra.
  - right. destruct (polar_deg D HD sp k j i Hr) as [N1 N2]. do 3 (split; [assumption|]). right.
    intros h. assert (Q := always_down D HD la dd La Dd ltac:(lra) h). lra.
  - right. destruct (polar_deg D HD sp k j i Hr) as [N1 N2]. do 3 (split; [assumption|]). left.
    intros h. assert (Q := always_up D HD la dd La Dd ltac:(lra) h). lra.
Qed.
(** Outside the polar regions there is always a sunrise. *)
Theorem C76_midlatitudes : forall uc times lat lon alg refr eng sp k j i t la lo,
  double_like D -> evaluated_cell64 D uc times lat lon alg refr eng sp k j i t la lo -> Rabs la <= 66.3 ->
  exists a w dl, sunrise sp "deg" = Ok (Angle a) /\ reads a k j i (Fin w) /\ reads (daylight_length sp) k j i (Fin dl) /\ 0 <= w <= 180 + / 10 ^ 12 /\ 0 <= dl <= 24 + 2 / 10 ^ 13.
Proof.
  intros uc times lat lon alg refr eng sp k j i t la lo HD C Bla.
  destruct (cell_data64 _ _ _ _ _ _ _ _ _ _ _ _ _ _ _ HD C) as (_ & _ & _ & _ & (dd & Hd & Bd) & _).
  destruct (C76_sunrise _ _ _ _ _ _ _ _ _ _ _ _ _ _ _ HD C Hd) as (a & ar & H1 & H2 & [(w & wr & dl & A1 & A2 & A3 & A4 & A5 & A6 & _)|(_ & _ & _ & P)]).
  - now exists a, w, dl.
  - exfalso. pose proof PI_RGT_0. apply Rabs_le_inv in Bla, Bd.
    assert (Q : forall x, -89.92 <= x <= 89.92 -> 0.001 <= cos (rad x)).
    { intros x Bx. assert (0.001 <= cos (rad 89.92)) by (unfold rad; interval). assert (cos (rad 89.92) <= cos (rad (Rabs x))).
      { apply cos_decr_le; [unfold rad; pose proof (Rabs_pos x); nra| |unfold rad; lra]. unfold rad. apply Rmult_le_compat_r; [lra|]. apply Rabs_le; lra. }
      assert (E : cos (rad (Rabs x)) = cos (rad x)) by (unfold Rabs; destruct (Rcase_abs x); [unfold rad; rewrite Ropp_mult_distr_l_reverse; apply cos_neg|reflexivity]). lra. }
    destruct P as [P|P].
    + specialize (P PI). unfold sun_U in P. rewrite cos_PI in P. assert (E := cos_plus (rad la) (rad dd)).
      replace (rad la + rad dd) with (rad (la + dd)) in E by (unfold rad; ring). assert (Q1 := Q (la + dd) ltac:(lra)). lra.
    + specialize (P 0). unfold sun_U in P. rewrite cos_0 in P. assert (E := cos_minus (rad la) (rad dd)).
      replace (rad la - rad dd) with (rad (la - dd)) in E by (unfold rad; ring). assert (Q1 := Q (la - dd) ltac:(lra)). lra.
Qed.
Lemma daylight_wsr64 sp k j i la dd dl : double_like D -> Rabs la <= 1000 -> Rabs dd <= 1000 -> reads (latitude sp) k j i (Fin la) -> reads (declination sp) k j i (Fin dd) ->
  reads (daylight_length sp) k j i (Fin dl) ->
  exists w, 0 <= w <= r64 D PI /\ reads (sunrise_rad (O := DoubleOps D) sp) k j i (Fin w) /\ dl = dlen D w.
Proof.
  intros HD Bla Bdd Hla Hd Hdl. assert (Hr := sunrise_rad64 D HD sp k j i la dd Hla Hd Bla Bdd). unfold wsr in Hr.
  assert (N : reads (sunrise_rad (O := DoubleOps D) sp) k j i NaN -> False).
  { intros X. destruct (polar_deg D HD sp k j i X) as [_ Y]. assert (Z := reads_fun _ _ _ _ _ _ Hdl Y). discriminate Z. }
  destruct (Rle_dec (-1) (tantan D la dd)) as [T1|T1]; [destruct (Rle_dec (tantan D la dd) 1) as [T2|T2]|]; [|destruct (N Hr)|destruct (N Hr)].
  assert (Bw : 0 <= acos64 D (tantan D la dd) <= r64 D PI) by (apply (dl_acos D HD); lra).
  exists (acos64 D (tantan D la dd)). split; [exact Bw|]. split; [exact Hr|].
  assert (Z := reads_fun _ _ _ _ _ _ Hdl (daylight64 D HD sp k j i _ Hr Bw)). now injection Z.
Qed.
(** The UTC time of the cell is a datetime64[ns]. *)
Definition utc_representable (sp : Sunpos ext) (k : nat) : Prop := forall u, nth_error (sp_times_utc sp) k = Some (Some u) -> representable u.
Lemma representable_abs u : representable u -> (Z.abs u <= 2 ^ 63)%Z.
Proof. unfold representable. lia. Qed.
(** Sunrise and sunset times: symmetric about solar noon to 3 ns, and consistent between the three clocks. *)
Theorem C76_times : forall uc times lat lon alg refr eng sp k j i t la lo dl eot,
  double_like D -> evaluated_cell64 D uc times lat lon alg refr eng sp k j i t la lo ->
  reads (daylight_length sp) k j i (Fin dl) -> reads (Sunpos.eot sp) k j i (Fin eot) -> utc_representable sp k ->
  exists u w tst rt ru rl st su sl,
    nth_error (sp_times_utc sp) k = Some (Some u) /\ nth_error (sp_times sp) k = Some (Some w) /\
    reads (true_solar_time sp) k j i (Some tst) /\
    instant_of (sunrise sp "tst") k j i (Some rt) /\ instant_of (sunset sp "tst") k j i (Some st) /\
    instant_of (sunrise sp "utc") k j i (Some ru) /\ instant_of (sunset sp "utc") k j i (Some su) /\
    instant_of (sunrise sp "local") k j i (Some rl) /\ instant_of (sunset sp "local") k j i (Some sl) /\
    Rabs (IZR (st - rt) - dl * 3600000000000) < 2 /\ (su - ru = st - rt)%Z /\ (sl - rl = st - rt)%Z /\
    Rabs (IZR (rt - ru) - (4 * lo + eot) * 60000000000) < 2 /\ (rl - ru = w - u)%Z /\
    Rabs (IZR rt - (IZR (midnight_of tst) + (12 - dl / 2) * 3600000000000)) < 2 /\
    Rabs (IZR st - (IZR (midnight_of tst) + (12 + dl / 2) * 3600000000000)) < 3.
Proof.
  intros uc times lat lon alg refr eng sp k j i t la lo dl eot HD C Hdl He Ru0.
  destruct (cell_data64 _ _ _ _ _ _ _ _ _ _ _ _ _ _ _ HD C) as (Hla & Hlo & Bla & Blo & (dd & Hd & Bd) & (eot' & He' & Beot) & _ & (w & Hw) & (u & Hu)). assert (Bu := representable_abs _ (Ru0 _ Hu)).
  assert (Ao : Rabs lo <= 180) by (apply Rabs_le; lra).
  assert (Ee := reads_fun _ _ _ _ _ _ He He'). injection Ee as <-. clear He'.
  destruct (daylight_wsr64 sp k j i la dd dl HD ltac:(apply Rabs_le; lra) ltac:(lra) Hla Hd Hdl) as (ww & Bw & Hs & ->).
  assert (Rt := sunrise_tst64 D HD sp k j i nf u eot lo ww Hu He Hlo Hs Bw Beot Ao Bu).
  assert (Ru := sunrise_utc64 D HD sp k j i nf u eot lo ww Hu He Hlo Hs Bw Beot Ao Bu).
  assert (Rl := sunrise_local64 D HD sp k j i nf u w eot lo ww Hu Hw He Hlo Hs Bw Beot Ao Bu).
  assert (Ln := length_ns64 D HD sp k j i ww Hs Bw). assert (Ht := tst_at64 D HD sp k j i nf u eot lo Hu He Hlo Beot Ao Bu).
  destruct (rise_ok D HD ww Bw) as [Q1 Q2]. destruct (dlen_ok D HD ww Bw) as [_ Q3].
  assert (H1 := hns_ok D HD (rise_h D ww) ltac:(lra)). assert (H2 := hns_ok D HD (dlen D ww) ltac:(apply Rabs_le; lra)).
  destruct (off_close D HD eot lo Beot ltac:(apply Rabs_le; lra)) as [H3 _]. assert (H4 := Ztrunc_close (offns64 D eot lo)).
  set (tst := tst64 D u eot lo) in *. set (o := Ztrunc (offns64 D eot lo)) in *. set (len := hns D (dlen D ww)) in *.
  set (rt := (hns D (rise_h D ww) + midnight_of tst)%Z) in *.
  exists u, w, tst, rt, (rt - o)%Z, (rt - o + (w - u))%Z, (rt + len)%Z, (rt - o + len)%Z, (rt - o + (w - u) + len)%Z.
  assert (S1 := reads_map2 nat_add _ _ k j i _ _ Rt Ln). assert (S2 := reads_map2 nat_add _ _ k j i _ _ Ru Ln). assert (S3 := reads_map2 nat_add _ _ k j i _ _ Rl Ln).
  repeat (split; [first [assumption | eexists; split; [reflexivity|assumption]]|]).
  assert (Ert : IZR rt = IZR (hns D (rise_h D ww)) + IZR (midnight_of tst)) by (unfold rt; apply plus_IZR).
  apply Rabs_le_inv in Q1, H1, H2, H3. apply Rabs_def2 in H4.
  split; [replace (rt + len - rt)%Z with len by lia; apply Rabs_def1; lra|].
  split; [lia|]. split; [lia|].
  split; [replace (rt - (rt - o))%Z with o by lia; apply Rabs_def1; lra|].
  split; [lia|]. split; [rewrite Ert; apply Rabs_def1; lra|].
  rewrite plus_IZR, Ert. apply Rabs_def1; lra.
Qed.
(** No sunrise angle: no times. *)
Theorem C76_polar : forall uc times lat lon alg refr eng sp k j i t la lo units,
  double_like D -> evaluated_cell64 D uc times lat lon alg refr eng sp k j i t la lo ->
  reads (daylight_length sp) k j i NaN -> In units ["tst"; "utc"; "local"]%string ->
  instant_of (sunrise sp units) k j i None /\ instant_of (sunset sp units) k j i None.
Proof.
  intros uc times lat lon alg refr eng sp k j i t la lo units HD C Hdl Hin.
  destruct (cell_data64 _ _ _ _ _ _ _ _ _ _ _ _ _ _ _ HD C) as (Hla & Hlo & Bla & Blo & (dd & Hd & Bd) & (eot & He & Beot) & _ & (w & Hw) & (u & Hu)).
  assert (Hr : reads (sunrise_rad (O := DoubleOps D) sp) k j i NaN).
  { assert (Hr := sunrise_rad64 D HD sp k j i la dd Hla Hd ltac:(apply Rabs_le; lra) ltac:(lra)). unfold wsr in Hr. destruct (Rle_dec _ _) as [T1|]; [|exact Hr]. destruct (Rle_dec _ _) as [T2|]; [|exact Hr].
    assert (Z := reads_fun _ _ _ _ _ _ Hdl (daylight64 D HD sp k j i _ Hr ltac:(apply (dl_acos D HD); lra))). discriminate Z. }
  assert (Ht : exists x, reads (true_solar_time sp) k j i x).
  { unfold Sunpos.true_solar_time. cbv zeta. assert (H1 := off_at D HD sp k j i eot lo He Hlo Beot ltac:(apply Rabs_le; lra)).
    assert (H2 : reads (of_list DTime (sp_times_utc sp)) k j i (Some u)) by exact Hu.
    eexists. exact (reads_map (toZ (Ops := DoubleOps D)) _ k j i _ (reads_map2 (add (Ops := DoubleOps D)) _ _ k j i _ _ (reads_map _ _ k j i _ H2) (reads_map _ _ k j i _ H1))). }
  destruct Ht as (xt & Ht).
  assert (R1 := polar_tst D sp k j i nf _ Hr Ht).
  assert (R2 := reads_map2 nat_sub _ _ k j i _ _ R1 (minutes_at64 D HD sp k j i eot lo He Hlo Beot ltac:(apply Rabs_le; lra))).
  assert (R3 : reads (sunrise_local (O := DoubleOps D) nf sp) k j i None).
  { unfold sunrise_local. assert (H : reads (DA [DTime] (fun e => match nth_error (sp_times sp) (e DTime), nth_error (sp_times_utc sp) (e DTime) with
                                          | Some w, Some u => Some (nat_sub w u) | _, _ => None end)) k j i (Some (w - u)%Z)).
    { unfold reads. cbn [da_at at_cell]. now rewrite Hw, Hu. }
    exact (reads_map2 nat_add _ _ k j i _ _ R2 H). }
  assert (L := reads_map (hours_to_ns (O := DoubleOps D)) _ k j i _ Hdl).
  destruct Hin as [<-|[<-|[<-|[]]]]; (split; [eexists; split; [reflexivity|assumption]|]).
  - eexists. split; [reflexivity|]. exact (reads_map2 nat_add _ _ k j i _ _ R1 L).
  - eexists. split; [reflexivity|]. exact (reads_map2 nat_add _ _ k j i _ _ R2 L).
  - eexists. split; [reflexivity|]. exact (reads_map2 nat_add _ _ k j i _ _ R3 L).
Qed.

(** ** C77: true solar time and incidence *)
Theorem C77_true_solar_time : forall uc times lat lon alg refr eng sp k j i t la lo eot u,
  double_like D -> evaluated_cell64 D uc times lat lon alg refr eng sp k j i t la lo ->
  reads (Sunpos.eot sp) k j i (Fin eot) -> nth_error (sp_times_utc sp) k = Some (Some u) -> representable u ->
  exists tst, reads (true_solar_time sp) k j i (Some tst) /\
    Rabs (IZR (tst - u) - (4 * lo + eot) * 60000000000) <= Rabs (IZR u) / 2 ^ 52 + 2 /\
    Rabs (IZR (tst - u) - (4 * lo + eot) * 60000000000) <= 2050.
Proof.
  intros uc times lat lon alg refr eng sp k j i t la lo eot u HD C He Hu Bu.
  destruct (cell_data64 _ _ _ _ _ _ _ _ _ _ _ _ _ _ _ HD C) as (Hla & Hlo & _ & Blo & _ & (eot' & He' & Beot) & _).
  assert (Ee := reads_fun _ _ _ _ _ _ He He'). injection Ee as <-. clear He'.
  assert (Bu' : (Z.abs u <= 2 ^ 63)%Z) by (unfold representable in Bu; lia). assert (Ao : Rabs lo <= 180) by (apply Rabs_le; lra).
  exists (tst64 D u eot lo). split; [now apply (tst_at64 D HD)|].
  assert (H := tst_close64 D HD u eot lo Beot ltac:(apply Rabs_le; lra) Bu'). split; [exact H|].
  assert (B : Rabs (IZR u) <= 2 ^ 63) by (rewrite <- abs_IZR; apply IZR_le in Bu'; eapply Rle_trans; [exact Bu'|]; apply Req_le; change (2 ^ 63)%Z with 9223372036854775808%Z; cbn [pow]; lra).
  eapply Rle_trans; [exact H|]. assert (Rabs (IZR u) / 2 ^ 52 <= 2 ^ 63 / 2 ^ 52) by (apply Rmult_le_compat_r; [left; apply Rinv_0_lt_compat, pow_lt; lra|exact B]).
  assert (2 ^ 63 / 2 ^ 52 = 2048) by (cbn [pow]; field). lra.
Qed.
Theorem C77_incidence : forall uc times lat lon alg refr eng sp k j i t la lo dd,
  double_like D -> evaluated_cell64 D uc times lat lon alg refr eng sp k j i t la lo ->
  reads (declination sp) k j i (Fin dd) -> utc_representable sp k ->
  exists tst, reads (true_solar_time sp) k j i (Some tst) /\ forall slope az, Rabs slope <= 1000 -> Rabs az <= 1000 -> exists c,
    reads (Sunpos.incidence (O := DoubleOps D) nf sp (Fin slope) (Fin az)) k j i (Fin c) /\
    Rabs (c - cos_incidence (rad la) (rad dd) (hour_angle tst) (rad slope) (rad az)) <= / 10 ^ 13.
Proof.
  intros uc times lat lon alg refr eng sp k j i t la lo dd HD C Hd Ru0.
  destruct (cell_data64 _ _ _ _ _ _ _ _ _ _ _ _ _ _ _ HD C) as (Hla & Hlo & Bla & Blo & (dd' & Hd' & Bd) & (eot & He & Beot) & _ & _ & (u & Hu)).
  assert (Ed := reads_fun _ _ _ _ _ _ Hd Hd'). injection Ed as <-. clear Hd'.
  assert (Ht := tst_at64 D HD sp k j i nf u eot lo Hu He Hlo Beot ltac:(apply Rabs_le; lra) (representable_abs _ (Ru0 _ Hu))). eexists. split; [exact Ht|]. intros slope az Bs Bz.
  exact (incidence64 D HD sp k j i nf la dd slope az _ Hla Hd Ht ltac:(apply Rabs_le; lra) ltac:(lra) Bs Bz).
Qed.
End Statements.

(** True solar time is not exact to the nanosecond, as C42 has it for exact arithmetic: the UTC time is cast to a double, whose
    spacing is 256 ns in the years 2006-2043.  Two times 100 ns apart get the same true solar time. *)
Section Spacing.
Import Flocq.Core.Core.
Lemma r64n_spacing n : (0 <= n < 128)%Z -> r64n (IZR (2 ^ 60 + n)) = IZR (2 ^ 60).
Proof.
  intros Hn. unfold r64n, round, scaled_mantissa, cexp.
  assert (M : mag radix2 (IZR (2 ^ 60 + n)) = 61%Z :> Z).
  { apply mag_unique. change (61 - 1)%Z with 60%Z. rewrite <- !IZR_Zpower by lia. rewrite <- abs_IZR. split; [apply IZR_le|apply IZR_lt]; cbn [radix_val radix2]; lia. }
  rewrite M. change (FLT_exp (-1074) 53 61) with 8%Z.
  assert (Z : ZnearestE (IZR (2 ^ 60 + n) * bpow radix2 (- (8))) = (2 ^ 52)%Z).
  { apply Znearest_imp. rewrite plus_IZR. change (bpow radix2 (- (8))) with (/ 256). change (IZR (2 ^ 60)) with (IZR (2 ^ 52 * 256)). rewrite mult_IZR.
    replace ((IZR (2 ^ 52) * 256 + IZR n) * / 256 - IZR (2 ^ 52)) with (IZR n / 256) by field.
    assert (0 <= IZR n <= 127) by (split; apply IZR_le; lia). apply Rabs_def1; lra. }
  rewrite Z. unfold F2R. cbn [Fnum Fexp]. rewrite <- IZR_Zpower by lia. rewrite <- mult_IZR. f_equal.
Qed.
End Spacing.
Definition t_a : Z := (2 ^ 60 + 10)%Z.
Definition t_b : Z := (2 ^ 60 + 110)%Z.
Theorem C77_nanosecond_refuted : forall uc alg refr eng m nf, In (alg, eng, m) (supported (O := DoubleOps float64_env)) ->
  exists la lo sp sp' tst, double_like float64_env /\
    evaluated_cell64 float64_env uc (at_times [Some t_a]) (Scalar (Fin la)) (Scalar (Fin lo)) alg refr eng sp 0 0 0 t_a la lo /\
    evaluated_cell64 float64_env uc (at_times [Some t_b]) (Scalar (Fin la)) (Scalar (Fin lo)) alg refr eng sp' 0 0 0 t_b la lo /\
    (t_b - t_a = 100)%Z /\ reads (true_solar_time (O := DoubleOps float64_env) nf sp) 0 0 0 (Some tst) /\ reads (true_solar_time (O := DoubleOps float64_env) nf sp') 0 0 0 (Some tst).
Proof.
  intros uc alg refr eng m nf Hin. exists 40, (-3). assert (HD := float64_like).
  assert (Ra : representable t_a) by (unfold representable, t_a; lia). assert (Rb : representable t_b) by (unfold representable, t_b; lia).
  destruct (one_cell64 float64_env uc t_a 40 (-3) alg refr eng m HD Hin Ra ltac:(lra) ltac:(lra)) as (sp & C).
  destruct (one_cell64 float64_env uc t_b 40 (-3) alg refr eng m HD Hin Rb ltac:(lra) ltac:(lra)) as (sp' & C').
  destruct (cell_data64 _ _ _ _ _ _ _ _ _ _ _ _ _ _ _ HD C) as (_ & Hlo & _ & _ & _ & (e & He & Be) & _ & _ & (u & Hu)).
  destruct (cell_data64 _ _ _ _ _ _ _ _ _ _ _ _ _ _ _ HD C') as (_ & Hlo' & _ & _ & _ & (e' & He' & Be') & _ & _ & (u' & Hu')).
  assert (Eu : u = t_a). { assert (X := C14_times_utc_partial _ _ _ _ (at_times [Some t_a]) _ _ _ _ _ _ I (proj1 (proj1 C))). rewrite X in Hu. now injection Hu. }
  assert (Eu' : u' = t_b). { assert (X := C14_times_utc_partial _ _ _ _ (at_times [Some t_b]) _ _ _ _ _ _ I (proj1 (proj1 C'))). rewrite X in Hu'. now injection Hu'. }
  assert (A3 : Rabs (-3) <= 180) by (apply Rabs_le; lra).
  assert (T := tst_at64 float64_env HD sp 0 0 0 nf u e (-3) Hu He Hlo Be A3 ltac:(subst u; unfold t_a; lia)).
  assert (T' := tst_at64 float64_env HD sp' 0 0 0 nf u' e' (-3) Hu' He' Hlo' Be' A3 ltac:(subst u'; unfold t_b; lia)).
  assert (Ee : e = e').
  { destruct C as [(Hc & _ & _) _]. destruct C' as [(Hc' & _ & _) _].
    destruct (dispatch_lemma (O := DoubleOps float64_env) true _ _ _ _ _ _ _ sp m 0 t_a NaN NaN Hc Hin eq_refl) as (_ & H & _).
    destruct (dispatch_lemma (O := DoubleOps float64_env) true _ _ _ _ _ _ _ sp' m 0 t_b NaN NaN Hc' Hin eq_refl) as (_ & H' & _).
    change (t_b / 1000000000)%Z with (t_a / 1000000000)%Z in H'. unfold reads in He, He'. rewrite eot_at in He, He'. rewrite H in He. rewrite H' in He'. congruence. }
  subst u u' e'. exists sp, sp', (tst64 float64_env t_a e (-3)). do 4 (split; [assumption || reflexivity|]). split; [exact T|].
  replace (tst64 float64_env t_a e (-3)) with (tst64 float64_env t_b e (-3)); [exact T'|].
  unfold tst64. do 3 f_equal. change (r64 float64_env) with r64n. unfold t_a, t_b. rewrite !r64n_spacing by lia. reflexivity.
Qed.

(** ** The hypotheses are met: by day, by night, at mid-latitudes and at a pole *)
Lemma cell_cosz64 uc lo : -180 <= lo < 180 -> exists sp z d eot,
  evaluated_cell64 float64_env uc (at_times [Some w_t]) (Scalar (Fin 0)) (Scalar (Fin lo)) "psa" RFalse "numpy" sp 0 0 0 w_t 0 lo /\
  value (sp_zenith sp) (idx uc 0 0 0) z /\ 0 <= z + 0.0001 <= PI + 0.0002 /\ Rabs d <= 0.412 /\ Rabs eot <= 20 /\
  Rabs (cos z - cos d * cos ((-30 + lo + eot / 4) * (PI / 180))) <= 0.001.
Proof.
  intros Hlo. assert (HD := float64_like). assert (Hn : "psa"%string <> "nrel"%string) by discriminate.
  destruct (one_cell64 float64_env uc w_t 0 lo "psa" RFalse "numpy" _ HD (or_introl eq_refl) w_t_representable ltac:(lra) Hlo) as (sp & C).
  destruct (call_double _ _ _ _ _ _ _ _ _ _ _ _ _ _ _ HD Hn C) as (d & eot & h & a & V1 & V2 & N & _ & _ & _ & _ & [(z0 & B0 & E0 & Z)|(X & _)]); [|discriminate X].
  destruct (Z eq_refl) as (z & Vz & Ez). clear Z.
  destruct (C69_ranges _ _ _ _ _ _ _ _ _ _ _ HD Hn (proj1 C)) as (d' & e' & x' & W1 & W2 & _ & R1 & R2 & _).
  unfold value in *. rewrite V1 in W1. injection W1 as <-. rewrite V2 in W2. injection W2 as <-.
  exists sp, z, d, eot. split; [exact C|]. split; [exact Vz|]. unfold tol9 in *.
  assert (P := parallax_coef_b "psa"). set (kk := parallax_coef "psa") in *. clearbody kk.
  assert (0 <= sin z0 <= 1) by (split; [apply sin_ge_0; lra|apply SIN_bound]). apply Rabs_le_inv in Ez.
  assert (Q : 0 <= kk * sin z0 <= 0.00005) by nra.
  split; [lra|]. split; [|split; [exact R2|]].
  { assert (D0 : d = d * (180 / PI) * (PI / 180)) by (field; apply PI_neq0). apply Rabs_le_inv in R1. set (x := d * (180 / PI)) in *. rewrite D0. clearbody x. clear - R1. apply Rabs_le; split; interval. }
  assert (T := sun_U_turn 0 d _ _ _ N). unfold sun_U, solar_hour_angle in T, E0. rewrite w_utc_hours in T. replace (0 * (PI / 180)) with 0 in * by ring. rewrite sin_0, cos_0 in *.
  replace (15 * (10 - 12)) with (-30) in T by ring. assert (L := cos_lip z z0). assert (Rabs (z - z0) <= 0.0001) by (apply Rabs_le; lra).
  assert (Th : hour_tol "psa" <= 0.00037) by (unfold hour_tol; cbn; lra). assert (Td : double_tol "psa" "numpy" 0 <= 0.000003) by (unfold double_tol; cbn; lra).
  apply Rabs_le_inv in T, E0. assert (L' : Rabs (cos z - cos z0) <= 0.0001) by lra. apply Rabs_le_inv in L'. apply Rabs_le. lra.
Qed.
Example C74_day_night : forall uc,
  (exists sp zd, evaluated_cell64 float64_env uc (at_times [Some w_t]) (Scalar (Fin 0)) (Scalar (Fin (-3))) "psa" RFalse "numpy" sp 0 0 0 w_t 0 (-3) /\
     reads (Sunpos.zenith (O := DoubleOps float64_env) sp) 0 0 0 (Fin zd) /\ 1 <= zd <= 89) /\
  (exists sp zd, evaluated_cell64 float64_env uc (at_times [Some w_t]) (Scalar (Fin 0)) (Scalar (Fin 177)) "psa" RFalse "numpy" sp 0 0 0 w_t 0 177 /\
     reads (Sunpos.zenith (O := DoubleOps float64_env) sp) 0 0 0 (Fin zd) /\ 91 <= zd <= 179).
Proof.
  intros uc. assert (HD := float64_like). assert (P : 3.14159 <= PI <= 3.1416) by (split; interval). assert (Q : 57.29 <= 180 / PI <= 57.3) by (split; interval). split.
  - destruct (cell_cosz64 uc (-3) ltac:(lra)) as (sp & z & d & eot & C & Vz & Bz & Bd & Be & Ec). exists sp, (r64 float64_env (z * degc float64_env)). split; [exact C|].
    apply (zenith_raw64 _ _ _ _ _ _ _ _ _ _ _ _ _ (proj1 (proj1 C))) in Vz. split; [apply (zenith_of _ HD); [apply Rabs_le; lra|exact Vz]|].
    assert (G := deg_close64 float64_env z HD ltac:(apply Rabs_le; lra)). apply Rabs_le_inv in G, Bd, Be, Ec.
    assert (K : 0.5 <= cos d * cos ((-30 + -3 + eot / 4) * (PI / 180)) <= 0.99) by (clear - Bd Be; split; interval).
    assert (Z1 : 0.02 <= z). { apply Rnot_lt_le. intros X. assert (0.9995 <= cos z) by (assert (Y : -0.0001 <= z <= 0.02) by lra; clear - Y; interval). lra. }
    assert (Z2 : z <= 1.55). { apply Rnot_lt_le. intros X. assert (cos z <= 0.03) by (assert (Y : 1.55 <= z <= 3.15) by lra; clear - Y; interval). lra. }
    set (q := 180 / PI) in *. clearbody q. assert (1.1 <= z * q <= 88.9) by nra. lra.
  - destruct (cell_cosz64 uc 177 ltac:(lra)) as (sp & z & d & eot & C & Vz & Bz & Bd & Be & Ec). exists sp, (r64 float64_env (z * degc float64_env)). split; [exact C|].
    apply (zenith_raw64 _ _ _ _ _ _ _ _ _ _ _ _ _ (proj1 (proj1 C))) in Vz. split; [apply (zenith_of _ HD); [apply Rabs_le; lra|exact Vz]|].
    assert (G := deg_close64 float64_env z HD ltac:(apply Rabs_le; lra)). apply Rabs_le_inv in G, Bd, Be, Ec.
    assert (K : -0.99 <= cos d * cos ((-30 + 177 + eot / 4) * (PI / 180)) <= -0.5) by (clear - Bd Be; split; interval).
    assert (Z1 : z <= 3.12). { apply Rnot_lt_le. intros X. assert (cos z <= -0.9995) by (assert (Y : 3.12 <= z <= 3.15) by lra; clear - Y; interval). lra. }
    assert (Z2 : 1.595 <= z). { apply Rnot_lt_le. intros X. assert (-0.03 <= cos z) by (assert (Y : -0.001 <= z <= 1.595) by lra; clear - Y; interval). lra. }
    set (q := 180 / PI) in *. clearbody q. assert (91.1 <= z * q <= 178.9) by nra. lra.
Qed.
Example C76_example : forall nf uc alg eng m refr, In (alg, eng, m) (supported (O := DoubleOps float64_env)) ->
  exists sp dd a w dl eot u, evaluated_cell64 float64_env uc (at_times [Some w_t]) (Scalar (Fin 40)) (Scalar (Fin (-3))) alg refr eng sp 0 0 0 w_t 40 (-3) /\
    reads (Sunpos.declination (O := DoubleOps float64_env) sp) 0 0 0 (Fin dd) /\ Sunpos.sunrise (O := DoubleOps float64_env) nf sp "deg" = Ok (Angle a) /\
    reads a 0 0 0 (Fin w) /\ reads (Sunpos.daylight_length (O := DoubleOps float64_env) sp) 0 0 0 (Fin dl) /\ reads (Sunpos.eot sp) 0 0 0 (Fin eot) /\
    nth_error (sp_times_utc sp) 0 = Some (Some u) /\ representable u.
Proof.
  intros nf uc alg eng m refr H. destruct (proj2 C69_example uc refr alg eng m H) as (sp & C).
  destruct (cell_data64 _ _ _ _ _ _ _ _ _ _ _ _ _ _ _ float64_like C) as (_ & _ & _ & _ & (dd & Hd & _) & (eot & He & _) & _).
  destruct (C76_midlatitudes float64_env nf _ _ _ _ _ _ _ _ _ _ _ _ _ _ float64_like C ltac:(apply Rabs_le; lra)) as (a & w & dl & Ha & Hw & Hdl & _).
  exists sp, dd, a, w, dl, eot, w_t. do 6 (split; [assumption|]). split; [|exact w_t_representable].
  now rewrite (C14_times_utc_partial _ _ _ _ (at_times [Some w_t]) _ _ _ _ _ _ I (proj1 (proj1 C))).
Qed.
