(** * AstroRefr: the refraction corrections as functions of the unrefracted zenith angle *)

From Coq Require Import ZArith QArith Reals Bool List String Lra Lia.
From Flocq Require Import Core.Raux.
From Interval Require Import Tactic.
From Verif Require Import Num Ext ExtLemmas Sky AstroTac Refraction AstroSpec AstroCell PsaCell SoltrackCell IqbalR NrelCell.
Open Scope R_scope.

(** ** psa and nrel *)
Lemma coef_psa : 0 <= #1 * #1.7802e-2 / #60 <= 0.0002968. Proof. q2; lra. Qed.
Lemma coef_nrel : 0 <= n_ATM * #1.7802e-2 / #60 <= 0.0002968.
Proof. unfold n_ATM. q2; lra. Qed.

Section Saem.
  Variables (A z : R).
  Hypothesis HA : 0 <= A * #1.7802e-2 / #60 <= 0.0002968.
  Hypothesis Hz : 0 <= z <= PI.
  Lemma saem_off : PI / 2 + 0.014545 < z -> saem A z = z.
  Proof.
    intros H. unfold saem, where_. assert (#1.4545e-2 = 0.014545) by q2r. destruct (Rleb_spec (- #1.4545e-2) (PI / 2 - z)); lra.
  Qed.
  Lemma saem_spec : 0 <= saem A z <= PI /\ z - 0.01082 <= saem A z <= z + 0.000001.
  Proof.
    unfold saem, where_. destruct (Rleb_spec (- #1.4545e-2) (PI / 2 - z)) as [H|H].
    2:{ replace (PI / 2 - (PI / 2 - z)) with z by ring. lra. }
    assert (Hel : - #1.4545e-2 <= PI / 2 - z <= PI / 2) by lra.
    pose proof (cot_b _ Hel) as C1. pose proof (refr_le_zenith _ Hel) as C2. pose proof (refr_sin _ Hel) as C3.
    set (el := PI / 2 - z) in *.
    assert (Ec : refr_corr (A * #1.7802e-2) #60 k_psa el = A * #1.7802e-2 / #60 * (cos (refr_arg k_psa el) / sin (refr_arg k_psa el))).
    { unfold refr_corr. assert (#60 = 60) by q2r. field. split; lra. }
    rewrite Ec. set (q := cos (refr_arg k_psa el) / sin (refr_arg k_psa el)) in *. set (c := A * #1.7802e-2 / #60) in *.
    assert (Hq : -0.000001 <= c * q <= 0.01082) by (split; nra).
    assert (Hq2 : c * q <= PI / 2 - el) by (destruct (Rle_or_lt 0 q); nra).
    assert (Hp : 3 < PI) by interval. assert (#1.4545e-2 <= 0.015) by q2r.
    unfold el in *. split; [|lra]. split; lra.
  Qed.
End Saem.

(** ** iqbal: finite everywhere, but slightly out of [0, PI] at both ends *)
Definition iq_corr (a : R) : R :=
  #0.061359 * (#0.1594 + #1.1230 * a + #0.065656 * (a * a)) / (#1.0 + #28.9344 * a + #277.3971 * (a * a)).
Lemma iq_den a : 0.2 < #1.0 + #28.9344 * a + #277.3971 * (a * a).
Proof. pose proof (Rle_0_sqr (a + 0.052154)) as H. unfold Rsqr in H. q2. nra. Qed.
Lemma i_refr_R z : i_refr z = Fin (z - iq_corr (PI / 2 - z)).
Proof.
  unfold i_refr, iq_corr. rewrite fin_div by (pose proof (iq_den (PI / 2 - z)); lra). fin. f_equal. ring.
Qed.
Lemma iq_corr_b a : - (PI / 2) <= a <= PI / 2 -> -0.0012 <= iq_corr a <= 0.0265.
Proof.
  intros H. assert (-1.571 <= a <= 1.571) by (assert (PI / 2 <= 1.571) by interval; lra). clear H.
  unfold iq_corr. assert (D := iq_den a). set (den := #1.0 + #28.9344 * a + #277.3971 * (a * a)) in *.
  assert (N : -0.0012 * den <= #0.061359 * (#0.1594 + #1.1230 * a + #0.065656 * (a * a)) <= 0.0265 * den).
  { unfold den. pose proof (Rle_0_sqr (a + 0.15379)) as H1. pose proof (Rle_0_sqr (a + 0.04749)) as H2. unfold Rsqr in H1, H2.
    q2. split; nra. }
  split; apply Rmult_le_reg_r with den; try lra; unfold Rdiv; rewrite Rmult_assoc, Rinv_l, Rmult_1_r by lra; lra.
Qed.
Lemma iq_overhead : iq_corr (PI / 2) > 0.000174.
Proof. unfold iq_corr. q2. apply Rlt_gt. interval. Qed.
Lemma iq_nadir : iq_corr (- (PI / 2)) < -0.000138.
Proof. unfold iq_corr. q2. interval. Qed.
(** Away from both ends the range holds. *)
Lemma iq_range z : 0.0002 <= z <= PI - 0.0013 -> 0 <= z - iq_corr (PI / 2 - z) <= PI.
Proof.
  intros H. destruct (iq_corr_b (PI / 2 - z) ltac:(lra)) as [B1 B2].
  split; [|lra]. destruct (Rle_or_lt 0.0265 z) as [Hz|Hz]; [lra|].
  assert (iq_corr (PI / 2 - z) <= 0.0002); [|lra].
  assert (Ha : 1.54 <= PI / 2 - z <= 1.571) by (assert (1.57 <= PI / 2 <= 1.571) by (split; interval); lra).
  generalize dependent (PI / 2 - z). intros a _ _ Ha. unfold iq_corr. q2. interval.
Qed.

(** ** soltrack *)
Definition sol_corr (alt : R) : R := #2.967e-4 * cos (refr_arg k_sol alt) / sin (refr_arg k_sol alt).
Lemma st_refracted_fin E alt : alt + k_sol <> 0 -> 0 < sin (refr_arg k_sol alt) ->
  st_refracted E alt = Fin (PI / 2 - (alt + sol_corr alt)).
Proof.
  intros H1 H2. unfold st_refracted. rewrite fin_add, fin_div by exact H1. rewrite fin_add. fold (refr_arg k_sol alt).
  rewrite ext_cot1 by exact H2. fin. reflexivity.
Qed.
(** Away from the horizon's far side the range holds. *)
Lemma sol_range E z : 0 <= z <= PI / 2 + 0.0145 -> exists z', st_refracted E (PI / 2 - z) = Fin z' /\ 0 <= z' <= PI /\ z - 0.01082 <= z' <= z + 0.000001.
Proof.
  intros H. set (el := PI / 2 - z).
  assert (Hel : - #1.4545e-2 <= el <= PI / 2) by (unfold el; assert (0.0145 <= #1.4545e-2) by q2r; lra).
  pose proof (cot_g k_sol _ k_sol_b Hel) as C1. pose proof (refr_le_zenith_g k_sol _ k_sol_b Hel) as C2. pose proof (refr_sin_g k_sol _ k_sol_b Hel) as C3.
  assert (Hne : el + k_sol <> 0). { assert (#1.4545e-2 < 0.02) by q2r. assert (0.08 < k_sol) by q2r. lra. }
  rewrite (st_refracted_fin E el Hne C3). eexists. split; [reflexivity|]. unfold sol_corr. unfold Rdiv in *. rewrite Rmult_assoc.
  set (q := cos (refr_arg k_sol el) * / sin (refr_arg k_sol el)) in *.
  assert (Hc : 0 <= #2.967e-4 <= 0.0002968) by (q2; lra). set (c := #2.967e-4) in *.
  assert (Hq : -0.000001 <= c * q <= 0.01082) by (split; nra).
  assert (Hq2 : c * q <= PI * / 2 - el) by (destruct (Rle_or_lt 0 q); nra).
  assert (Hp : 3 < PI) by interval. 
  unfold el in *. split; [|lra]. split; lra.
Qed.

(** Below the horizon the correction is unbounded: for every B there is an altitude in (-0.0892, -0.089)
    at which the apparent altitude exceeds B. *)
Lemma sol_blowup E B : 0 < B -> exists alt, -0.0892 < alt < -0.089 /\ exists z', st_refracted E alt = Fin z' /\ z' < - B.
Proof.
  intros HB. set (M := B + 2).
  (* tan of the argument is 2.967e-4 / M *)
  set (e := atan (#2.967e-4 / M)). assert (HM : 2 < M) by (unfold M; lra).
  assert (Hc : 0 < #2.967e-4 < 0.001) by (q2; lra).
  assert (He0 : 0 < #2.967e-4 / M < 0.001).
  { split; [apply Rdiv_lt_0_compat; lra|]. apply Rmult_lt_reg_r with M; [lra|]. unfold Rdiv. rewrite Rmult_assoc, Rinv_l, Rmult_1_r by lra. nra. }
  assert (He : 0 < e < 0.001).
  { unfold e. set (y := #2.967e-4 / M) in *. split.
    - rewrite <- atan_0. apply atan_increasing. lra.
    - interval. }
  set (th := e + 2 * IZR 10 * PI). set (k := k_sol). set (c := #3.1376e-3).
  assert (Hp : 3.1 < PI < 3.2) by (split; interval).
  assert (Hth : 62 < th < 65) by (unfold th; lra).
  assert (Hkk : k = 0.0892) by (unfold k; q2r). assert (Hcc : 0.0031 < c < 0.0032) by (unfold c; q2; lra).
  (* u solves u^2 - (th + k) u + c = 0 *)
  set (T := th + k). assert (HT : 62 < T < 66) by (unfold T; lra).
  set (D := T * T - 4 * c). assert (HD : 0 < D) by (unfold D; nra).
  assert (HS := sqrt_sqrt D ltac:(lra)). assert (HS0 := sqrt_lt_R0 D HD). set (S := sqrt D) in *.
  set (u := (T - S) / 2).
  assert (Hu0 : u * (T - u) = c). { unfold u. replace ((T - S) / 2 * (T - (T - S) / 2)) with ((T * T - S * S) / 4) by field. rewrite HS. unfold D. field. }
  assert (HST : S < T) by (unfold D in HS; nra).
  assert (Hu : 0 < u < 0.0002).
  { split; [unfold u; lra|]. unfold u. assert (T - 0.0004 < S); [|lra]. destruct (Rle_or_lt S (T - 0.0004)); [|assumption]. unfold D in HS. exfalso. nra. }
  exists (u - k). split; [rewrite Hkk; lra|].
  assert (Harg : refr_arg k (u - k) = th).
  { unfold refr_arg. fold c. replace (u - k + k) with u by ring. replace (c / u) with (T - u) by (apply Rmult_eq_reg_r with u; [|lra]; unfold Rdiv; rewrite Rmult_assoc, Rinv_l by lra; lra).
    unfold T. ring. }
  assert (Hsin : sin th = sin e) by (unfold th; rewrite <- (sin_period e 10); f_equal; cbn [INR]; lra).
  assert (Hcos : cos th = cos e) by (unfold th; rewrite <- (cos_period e 10); f_equal; cbn [INR]; lra).
  assert (He2 : 0 < sin e) by (apply sin_gt_0; lra). assert (Hcos0 : 0 < cos e) by (apply cos_gt_0; lra).
  exists (PI / 2 - (u - k + sol_corr (u - k))). split.
  - apply st_refracted_fin; fold k; [lra|]. rewrite Harg, Hsin. exact He2.
  - unfold sol_corr. fold k. rewrite Harg, Hsin, Hcos.
    assert (Et : tan e = #2.967e-4 / M) by (unfold e; apply tan_atan). unfold tan in Et.
    assert (Hv : #2.967e-4 * cos e / sin e = M).
    { assert (Es : sin e = #2.967e-4 / M * cos e) by (rewrite <- Et; field; lra). rewrite Es. field. lra. }
    rewrite Hv. rewrite Hkk. unfold M. lra.
Qed.
