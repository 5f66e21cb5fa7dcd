(** * SunposR: facts about the accessors' formulas (reals only) *)

From Coq Require Import ZArith QArith Reals Bool List String Lra Lia.
From Flocq Require Import Core.Raux.
From Interval Require Import Tactic.
From Verif Require Import Num Ext ExtLemmas Sky Sunpos SunposSpec.
Import ListNotations.
Open Scope R_scope.

(** ** Air mass *)
Lemma am_cases (P : string * (R * R * R * R) -> Prop) :
  Forall P am_table -> forall name c, In (name, c) am_table -> P (name, c).
Proof. intros H name c Hin. rewrite Forall_forall in H. now apply H. Qed.

Lemma zpow_small p z : 0 < p -> 0 <= z <= 1 -> 0 <= zpow z p <= 1.
Proof.
  intros Hp Hz. unfold zpow. destruct (Req_EM_T p 0); [lra|]. destruct (Req_EM_T z 0); [lra|].
  unfold Rpower. assert (H : ln z <= 0).
  { destruct (Req_dec z 1) as [->|]; [rewrite ln_1; lra|]. left. rewrite <- ln_1. apply ln_increasing; lra. }
  split; [left; apply exp_pos|]. replace 1 with (exp 0) by apply exp_0.
  destruct (Req_dec (p * ln z) 0) as [->|]; [lra|]. left. apply exp_increasing. nra.
Qed.
Lemma slant_low c name z : In (name, c) am_table -> 0 <= z <= 90 -> 1 / 39 <= slant c z <= 2.
Proof.
  intros Hin Hz. revert name c Hin. apply (am_cases (fun p => 1 / 39 <= slant (snd p) z <= 2)).
  unfold am_table. repeat (apply Forall_cons; [|]); [..|apply Forall_nil]; cbn [snd]; unfold slant, rad.
  - unfold zpow. destruct (Req_EM_T 0 0); [|contradiction]. unfold Rpower. interval with (i_bisect z, i_prec 60).
  - unfold zpow. destruct (Req_EM_T 0 0); [|contradiction]. unfold Rpower. interval with (i_bisect z, i_prec 60).
  - destruct (Rle_or_lt z 1) as [H1|H1].
    + assert (Hs := zpow_small 0.07 z ltac:(lra) ltac:(lra)). set (y := zpow z 0.07) in *. clearbody y. unfold Rpower. interval with (i_bisect z).
    + unfold zpow. destruct (Req_EM_T 0.07 0) as [H|_]; [exfalso; lra|]. destruct (Req_EM_T z 0) as [Hn|_]; [exfalso; lra|].
      unfold Rpower. interval with (i_bisect z, i_prec 60).
  - destruct (Rle_or_lt z 1) as [H1|H1].
    + assert (Hs := zpow_small 0.095846 z ltac:(lra) ltac:(lra)). set (y := zpow z 0.095846) in *. clearbody y. unfold Rpower. interval with (i_bisect z).
    + unfold zpow. destruct (Req_EM_T 0.095846 0) as [H|_]; [exfalso; lra|]. destruct (Req_EM_T z 0) as [Hn|_]; [exfalso; lra|].
      unfold Rpower. interval with (i_bisect z, i_prec 60).
Qed.

(** ** Corrections *)
Lemma perez_bounds m : 1 <= m <= 39 -> 0.4 <= perez m <= 1.01.
Proof. intros H. unfold perez. interval with (i_bisect m). Qed.
Lemma skartveit_bounds z : 0 <= z <= 90 -> 0.269 <= skartveit z <= 0.83.
Proof. intros H. unfold skartveit. interval with (i_bisect z). Qed.
Lemma gonzalez_bounds m : 1 <= m <= 39 -> 0.229 <= gonzalez_calbo m <= 1.01.
Proof. intros H. unfold gonzalez_calbo. interval with (i_bisect m). Qed.

(** ** Sunrise *)
Lemma cos_lat_pos x : -90 < x < 90 -> 0 < cos (rad x).
Proof. intros H. unfold rad. apply cos_gt_0; pose proof PI_RGT_0; nra. Qed.
Lemma sun_U_tan phi d h : cos phi <> 0 -> cos d <> 0 -> sun_U phi d h = cos phi * cos d * (cos h - - tan d * tan phi).
Proof. intros H1 H2. unfold sun_U, tan. field. now split. Qed.
(** The sun at the sunrise angle, and above the horizon exactly for smaller hour angles. *)
Lemma sunrise_horizon phi d : 0 < cos phi -> 0 < cos d -> -1 <= - tan d * tan phi <= 1 ->
  let w := acos (- tan d * tan phi) in
  0 <= w <= PI /\ sun_U phi d w = 0 /\ sun_U phi d (- w) = 0 /\
  (forall h, - PI <= h <= PI -> (0 < sun_U phi d h <-> Rabs h < w)).
Proof.
  intros Hp Hd Hx w. assert (Hc : cos w = - tan d * tan phi) by (apply cos_acos; exact Hx).
  assert (Hw : 0 <= w <= PI) by apply acos_bound.
  assert (HU : forall h, sun_U phi d h = cos phi * cos d * (cos h - cos w)) by (intros h; rewrite sun_U_tan, Hc by lra; reflexivity).
  split; [exact Hw|]. split; [rewrite HU; ring|]. split; [rewrite HU, cos_neg; ring|].
  intros h Hh. rewrite HU. assert (Hcc : 0 < cos phi * cos d) by nra.
  assert (Ha : 0 <= Rabs h <= PI) by (split; [apply Rabs_pos|apply Rabs_le; lra]).
  assert (Eh : cos h = cos (Rabs h)) by (unfold Rabs; destruct (Rcase_abs h); [now rewrite cos_neg|reflexivity]).
  rewrite Eh. split; intros H.
  - apply Rnot_le_lt. intros Hle. assert (cos (Rabs h) <= cos w) by (apply cos_decr_1; lra). nra.
  - assert (cos w < cos (Rabs h)) by (apply cos_decreasing_1; lra). nra.
Qed.
Lemma no_crossing phi d : 0 < cos phi -> 0 < cos d -> ~ (-1 <= - tan d * tan phi <= 1) -> ~ has_horizon_crossing phi d.
Proof.
  intros Hp Hd Hn [h Hh]. rewrite sun_U_tan in Hh by lra. apply Hn. pose proof (COS_bound h).
  apply Rmult_integral in Hh. destruct Hh as [Hh|Hh]; [nra|lra].
Qed.
(** At the poles the sun keeps its height. *)
Lemma pole_crossing phi d : cos phi = 0 -> d <> 0 -> - PI < d < PI -> ~ has_horizon_crossing phi d.
Proof.
  intros Hp Hd Hr [h Hh]. unfold sun_U in Hh. rewrite Hp in Hh.
  pose proof (sc1 phi) as H1. rewrite Hp in H1.
  assert (Hs : sin d <> 0).
  { intros H0. destruct (Rlt_or_le 0 d) as [Hq|Hq].
    - assert (0 < sin d) by (apply sin_gt_0; lra). lra.
    - assert (0 < sin (- d)) by (apply sin_gt_0; lra). rewrite sin_neg in *. lra. }
  assert (sin phi * sin d = 0) by lra. apply Rmult_integral in H. destruct H; [|contradiction]. nra.
Qed.

(** ** Incidence *)
Lemma normal_unit b g : normal_S b g ^ 2 + normal_W b g ^ 2 + normal_U b g ^ 2 = 1.
Proof.
  unfold normal_S, normal_W, normal_U. pose proof (sc1 b). pose proof (sc1 g).
  replace ((sin b * cos g) ^ 2 + (- (sin b * sin g)) ^ 2 + cos b ^ 2) with (sin b * sin b * (sin g * sin g + cos g * cos g) + cos b * cos b) by ring.
  rewrite H0. lra.
Qed.
Lemma dot_bound x y z a b c : x^2+y^2+z^2 = 1 -> a^2+b^2+c^2 = 1 -> -1 <= x*a+y*b+z*c <= 1 /\ (x*a+y*b+z*c = 1 <-> x = a /\ y = b /\ z = c).
Proof.
  intros H1 H2.
  assert (P : 2 - 2 * (x*a+y*b+z*c) = (x-a)^2 + (y-b)^2 + (z-c)^2) by nra.
  assert (M : 2 + 2 * (x*a+y*b+z*c) = (x+a)^2 + (y+b)^2 + (z+c)^2) by nra.
  pose proof (pow2_ge_0 (x-a)). pose proof (pow2_ge_0 (y-b)). pose proof (pow2_ge_0 (z-c)).
  pose proof (pow2_ge_0 (x+a)). pose proof (pow2_ge_0 (y+b)). pose proof (pow2_ge_0 (z+c)).
  split; [lra|]. split; [|intros (-> & -> & ->); nra].
  intros E. rewrite E in P. assert ((x-a)^2 = 0) by lra. assert ((y-b)^2 = 0) by lra. assert ((z-c)^2 = 0) by lra.
  repeat split; nra.
Qed.
Lemma incidence_bound phi d h b g : -1 <= cos_incidence phi d h b g <= 1.
Proof. apply (dot_bound _ _ _ _ _ _ (sun_unit phi d h) (normal_unit b g)). Qed.
Lemma incidence_facing phi d h b g :
  cos_incidence phi d h b g = 1 <-> sun_S phi d h = normal_S b g /\ sun_W phi d h = normal_W b g /\ sun_U phi d h = normal_U b g.
Proof. apply (dot_bound _ _ _ _ _ _ (sun_unit phi d h) (normal_unit b g)). Qed.
Lemma incidence_sun phi d h z a : is_zenith z phi d h -> is_azimuth a phi d h -> cos_incidence phi d h z (- a) = 1.
Proof.
  intros Hz Ha. destruct (azimuth_rho _ _ _ _ _ Ha Hz) as [HS HW]. destruct Hz as [_ HU].
  apply incidence_facing. unfold normal_S, normal_W, normal_U. rewrite cos_neg, sin_neg, HS, HW, HU. repeat split; ring.
Qed.
