(** * AlmanacN: the elements computed by nrel against the almanac *)
From Coq Require Import ZArith QArith Reals Bool List String Lra Lia.
From Flocq Require Import Core.Raux.
From Interval Require Import Tactic.
From Verif Require Import Num Ext ExtLemmas Sky SkyClose AstroTac AstroSpec PsaR SoltrackR NrelR Almanac AlmanacR.
Import ListNotations.
Open Scope R_scope.

(** The ellipse against its expansion to second order in the eccentricity. *)
Lemma rad_expand A B K c e w : (1 + A - e * c - B * (2 * c * c - 1)) *(1 + e * (c - 2 * e * (1 - c * c) + w)) - K * (1 - e ^ 2) =
  (1 + A - K) + B + (e ^ 2 * (K - 2) + c * c * (e ^ 2 - 2 * B)) + e * w + (A - B * (2 * c * c - 1)) * (e * c - 2 * e ^ 2 * (1 - c * c) + e * w) + e ^ 2 * c * (2 * e * (1 - c * c) - w).
Proof. ring. Qed.
Lemma ellipse m e r : 0.0165 <= e <= 0.0169 -> -0.0004 <= r <= 0.0004 ->
  Rabs ((1.00013989 - e * cos m - 0.00013956 * cos (2 * m)) - 1.000001018 * (1 - e ^ 2) / (1 + e * cos (m + (2 * e * sin m + r)))) <= 0.000041.
Proof.
  intros He Hr. rewrite cos_plus, (cos_2a_cos m). set (x := 2 * e * sin m + r). set (c := cos m). set (sn := sin m) in *.
  assert (Bc : -1 <= c <= 1) by apply COS_bound. assert (Bs : -1 <= sn <= 1) by apply SIN_bound. assert (U : sn * sn = 1 - c * c) by (pose proof (sc1 m); unfold sn, c; lra).
  set (w := c * (cos x - 1) - sn * (sin x - x) - sn * r).
  assert (Bx : -0.0343 <= x <= 0.0343) by (unfold x; split; nra).
  assert (Bw : -0.00101 <= w <= 0.00101).
  { assert (X1 : -0.00059 <= cos x - 1 <= 0) by (clearbody x; clear - Bx; split; [interval with (i_bisect x, i_autodiff x)|pose proof (COS_bound x); lra]).
    assert (X2 : -0.00001 <= sin x - x <= 0.00001) by (clearbody x; clear - Bx; split; interval with (i_bisect x, i_autodiff x)).
    unfold w. clear w. clearbody x. generalize dependent (cos x - 1). intros p P1. generalize dependent (sin x - x). intros q P2. clear U. clearbody sn c. clear - Bc Bs Hr P1 P2. split; interval. }
  replace (c * cos x - sn * sin x) with (c - 2 * e * (1 - c * c) + w).
  2:{ rewrite <- U. unfold w. unfold x at 3. ring. }
  clearbody w. clear U x Bx. clearbody c.
  set (D := 1 + e * (c - 2 * e * (1 - c * c) + w)). assert (HD : 0.982 <= D) by (unfold D; clear - Bc He Bw; interval).
  assert (HN : Rabs ((1 + 0.00013989 - e * c - 0.00013956 * (2 * c * c - 1)) * D - 1.000001018 * (1 - e ^ 2)) <= 0.00004).
  { unfold D. rewrite rad_expand. clear - Bc He Bw.
    set (P2 := e * w). set (P3 := (0.00013989 - _) * _). set (P1 := e ^ 2 * _ + _). set (P4 := e ^ 2 * c * _).
    assert (H2 : -0.0000172 <= P2 <= 0.0000172) by (unfold P2; clear - He Bw; split; interval).
    assert (H3 : -0.0000055 <= P3 <= 0.0000055) by (unfold P3, P2; clear - Bc He Bw; split; interval with (i_bisect c, i_depth 8)).
    assert (H4 : -0.0000050 <= P4 <= 0.0000050) by (unfold P4; clear - Bc He Bw; split; interval with (i_bisect c, i_depth 8)).
    assert (H1 : -0.0000115 <= P1 + 0.000278432 <= 0.0000115) by (unfold P1; clear - Bc He Bw; split; interval with (i_bisect c, i_bisect e, i_depth 12)).
    clearbody P1 P2 P3 P4. apply Rabs_le. lra. }
  replace (1.00013989 - e * c - 0.00013956 * (2 * c * c - 1) - 1.000001018 * (1 - e ^ 2) / D) with
    (((1 + 0.00013989 - e * c - 0.00013956 * (2 * c * c - 1)) * D - 1.000001018 * (1 - e ^ 2)) / D).
  2:{ set (N := 1.000001018 * (1 - e ^ 2)). unfold Rdiv. rewrite Rmult_minus_distr_r, Rmult_assoc, Rinv_r by lra. lra. }
  unfold Rdiv. rewrite Rabs_mult, Rabs_inv, (Rabs_right D) by lra.
  assert (I : 0 < / D <= 1.0184). { split; [apply Rinv_0_lt_compat; lra|]. apply Rle_trans with (/ 0.982); [apply Rinv_le_contravar; lra|]. interval. }
  assert (0 <= Rabs ((1 + 0.00013989 - e * c - 0.00013956 * (2 * c * c - 1)) * D - 1.000001018 * (1 - e ^ 2))) by apply Rabs_pos. nra.
Qed.

Section Nrel.
  Variable md : R -> R -> R.
  Hypothesis Hmd : mod_spec md.
  Variable s : R.
  Hypothesis Hs : in_ns_range s.
  Let T := TT s.
  Lemma n_jme_T : n_jme s = (T + 67 / 3155760000) / 10.
  Proof. unfold T, TT, n_jme, n_jce, n_jde, n_jd. q2. lra. Qed.

  Lemma L0_heads j : exists r, Rabs r <= 28852 /\ r_series T_L0 j =
    175347046 + 3341656 * cos (4.6692568 + 6283.07585 * j) + 34894 * cos (4.6261 + 12566.1517 * j) + r.
  Proof.
    exists (r_series (skipn 3 T_L0) j). split.
    - replace 28852 with (Q2R 28852) by q2r. apply series_le. vm_compute. reflexivity.
    - replace T_L0 with (firstn 3 T_L0 ++ skipn 3 T_L0)%list at 1 by reflexivity.
      change (firstn 3 T_L0) with [(175347046.0, 0.0, 0.0); (3341656.0, 4.6692568, 6283.07585); (34894.0, 4.6261, 12566.1517)]%Q.
      cbn [app r_series r_term map fold_right]. unfold r_term. rewrite Q00. replace (0 + 0 * j) with 0 by ring. rewrite cos_0. q2. lra.
  Qed.
  Lemma L1_heads j : exists r, Rabs r <= 5721 /\ r_series T_L1 j = 628331966747 + 206059 * cos (2.678235 + 6283.07585 * j) + r.
  Proof.
    exists (r_series (skipn 2 T_L1) j). split.
    - replace 5721 with (Q2R 5721) by q2r. apply series_le. vm_compute. reflexivity.
    - replace T_L1 with (firstn 2 T_L1 ++ skipn 2 T_L1)%list at 1 by reflexivity.
      change (firstn 2 T_L1) with [(628331966747.0, 0.0, 0.0); (206059.0, 2.678235, 6283.07585)]%Q.
      cbn [app r_series r_term map fold_right]. unfold r_term. rewrite Q00. replace (0 + 0 * j) with 0 by ring. rewrite cos_0. q2. lra.
  Qed.
  Lemma L2_heads j : exists r, Rabs r <= 9149 /\ r_series T_L2 j = 52919 + r.
  Proof.
    exists (r_series (skipn 1 T_L2) j). split.
    - replace 9149 with (Q2R 9149) by q2r. apply series_le. vm_compute. reflexivity.
    - replace T_L2 with (firstn 1 T_L2 ++ skipn 1 T_L2)%list at 1 by reflexivity.
      change (firstn 1 T_L2) with [(52919.0, 0.0, 0.0)]%Q.
      cbn [app r_series r_term map fold_right]. unfold r_term. rewrite Q00. replace (0 + 0 * j) with 0 by ring. rewrite cos_0. q2. lra.
  Qed.
  Definition nrel_d (T : R) : R := 4.6692568 + PI / 2 + 6283.07585 * ((T + 67 / 3155760000) / 10) - al_M T.
  Definition nrel_d2 (T : R) : R := 4.6261 + PI / 2 + 2 * PI + 12566.1517 * ((T + 67 / 3155760000) / 10) - 2 * al_M T.
  Lemma nrel_Lrad_near : Rabs (nj_Lrad (n_jme s) / #1e8 + PI - (al_L0 T + al_C T)) <= 0.0004.
  Proof.
    assert (B := TT_b s Hs). fold T in B. assert (Bj := n_jme_b s Hs).
    set (j := n_jme s) in *. assert (Ej : j = (T + 67 / 3155760000) / 10) by exact n_jme_T.
    destruct (L0_heads j) as (r0 & R0 & E0). destruct (L1_heads j) as (r1 & R1 & E1). destruct (L2_heads j) as (r2 & R2 & E2).
    unfold nj_Lrad. rewrite E0, E1, E2.
    assert (R3 : Rabs (r_series T_L3 j) <= #347) by (apply series_le; vm_compute; reflexivity).
    assert (R4 : Rabs (r_series T_L4 j) <= #123) by (apply series_le; vm_compute; reflexivity).
    assert (R5 : Rabs (r_series T_L5 j) <= #1) by (apply series_le; vm_compute; reflexivity).
    set (r3 := r_series T_L3 j) in *. set (r4 := r_series T_L4 j) in *. set (r5 := r_series T_L5 j) in *. clearbody r3 r4 r5.
    set (d := nrel_d T). set (d2 := nrel_d2 T).
    assert (P : PI <> 0) by apply PI_neq0.
    replace (4.6692568 + 6283.07585 * j) with (al_M T + d - PI / 2) by (unfold d, nrel_d; rewrite Ej; lra).
    replace (4.6261 + 12566.1517 * j) with (2 * al_M T + d2 - PI / 2 - 2 * PI * IZR 1) by (unfold d2, nrel_d2; rewrite Ej; lra).
    replace (2.678235 + 6283.07585 * j) with (al_M T + (d - 1.9910218) - PI / 2) by (unfold d, nrel_d; rewrite Ej; lra).
    rewrite cos_2kpi. assert (CS : forall x, cos (x - PI / 2) = sin x) by (intros x; rewrite <- cos_shift, <- cos_neg; f_equal; lra). rewrite !CS, !sin_plus.
    set (u := d - 1.9910218).
    assert (Dd : -0.019 <= d <= 0.019) by (unfold d, nrel_d, al_M, deg; clearbody T; clear - B; split; interval with (i_bisect T, i_autodiff T)).
    assert (Dd2 : -0.038 <= d2 <= 0.038) by (unfold d2, nrel_d2, al_M, deg; clearbody T; clear - B; split; interval with (i_bisect T, i_autodiff T)).
    unfold al_C, deg.
    match goal with |- Rabs ?e <= _ => replace e with
      (((175347046 + 628331966747 * j + 52919 * j ^ 2) / 100000000 + PI - al_L0 T)
       + sin (al_M T) * ((3341656 * cos d + 206059 * cos u * j) / 100000000 - deg (1.914602 - 0.004817 * T - 0.000014 * T ^ 2))
       + cos (al_M T) * ((3341656 * sin d + 206059 * sin u * j) / 100000000)
       + sin (2 * al_M T) * (34894 / 100000000 * cos d2 - deg (0.019993 - 0.000101 * T)) + cos (2 * al_M T) * (34894 / 100000000 * sin d2)
       + sin (3 * al_M T) * (- deg 0.000289) + (r0 + r1 * j + r2 * j ^ 2 + r3 * j ^ 3 + r4 * j ^ 4 + r5 * j ^ 5) / 100000000)
      by (replace (#1e8) with 100000000 by q2r; unfold deg; field) end.
    tri. 
    assert (K0 : Rabs ((175347046 + 628331966747 * j + 52919 * j ^ 2) / 100000000 + PI - al_L0 T) <= 0.000014).
    { rewrite Ej. unfold al_L0, deg. clearbody T. clear - B. interval with (i_bisect T, i_autodiff T). }
    assert (K1 : Rabs ((3341656 * cos d + 206059 * cos u * j) / 100000000 - deg (1.914602 - 0.004817 * T - 0.000014 * T ^ 2)) <= 0.00001).
    { unfold u, d, nrel_d, al_M. rewrite Ej. unfold deg. clearbody T. clear - B. interval with (i_bisect T, i_autodiff T). }
    assert (K2 : Rabs ((3341656 * sin d + 206059 * sin u * j) / 100000000) <= 0.00001).
    { unfold u, d, nrel_d, al_M. rewrite Ej. unfold deg. clearbody T. clear - B. interval with (i_bisect T, i_autodiff T). }
    assert (K3 : Rabs (34894 / 100000000 * cos d2 - deg (0.019993 - 0.000101 * T)) <= 0.00001).
    { clearbody d2 T. clear - B Dd2. unfold deg. interval. }
    assert (K4 : Rabs (34894 / 100000000 * sin d2) <= 0.000014).
    { clearbody d2. clear - Dd2. interval. }
    assert (K6 : Rabs (- deg 0.000289) <= 0.0000051) by (unfold deg; interval).
    assert (K7 : Rabs ((r0 + r1 * j + r2 * j ^ 2 + r3 * j ^ 3 + r4 * j ^ 4 + r5 * j ^ 5) / 100000000) <= 0.00033).
    { clearbody j. q2. apply Rabs_le_inv in R0, R1, R2, R3, R4, R5. clear - Bj R0 R1 R2 R3 R4 R5. interval. }
    apply (unit_mul (sin (al_M T))) in K1; [|apply unit_sin]. apply (unit_mul (cos (al_M T))) in K2; [|apply unit_cos].
    apply (unit_mul (sin (2 * al_M T))) in K3; [|apply unit_sin]. apply (unit_mul (cos (2 * al_M T))) in K4; [|apply unit_cos].
    apply (unit_mul (sin (3 * al_M T))) in K6; [|apply unit_sin]. lra.
  Qed.
  Lemma nrel_lon_near : exists k : Z, Rabs (n_lam md s - al_lon T - 2 * PI * IZR k) <= 0.0005.
  Proof.
    unfold n_lam, n_theta, n_L. pose proof PI_RGT_0 as P.
    destruct (Hmd (180 / PI * nj_Lrad (n_jme s) / #1e8) #360) as (k1 & E1 & _); [q2r|]. rewrite E1.
    destruct (Hmd (180 / PI * nj_Lrad (n_jme s) / #1e8 - IZR k1 * #360 + #180.0) #360) as (k2 & E2 & _); [q2r|]. rewrite E2.
    exists (- k1 - k2)%Z. rewrite minus_IZR, opp_IZR. assert (H1 := nrel_Lrad_near). unfold al_lon.
    match goal with |- Rabs ?e <= _ => replace e with
      ((nj_Lrad (n_jme s) / #1e8 + PI - (al_L0 T + al_C T)) + (n_dpsi s * (PI / 180)) + (deg 0.00569 + n_dtau s * (PI / 180))) end.
    2:{ unfold deg. replace (#360) with 360 by q2r. replace (#180.0) with 180 by q2r. q2. field. lra. }
    tri.
    assert (H2 : Rabs (n_dpsi s * (PI / 180)) <= 0.0000945) by (assert (D := Rabs_le_inv _ _ (n_dpsi_b s Hs)); generalize dependent (n_dpsi s); intros x D; clear - D; interval).
    assert (H3 : Rabs (deg 0.00569 + n_dtau s * (PI / 180)) <= 0.000003).
    { unfold n_dtau. assert (D := n_R_b s Hs). generalize dependent (n_R s). intros r D. clear - D. unfold deg. q2. interval. }
    lra.
  Qed.
  Lemma nrel_obl_near : Rabs (n_eps s - al_obl T) <= 0.000055.
  Proof.
    unfold n_eps, n_eps0. assert (D := Rabs_le_inv _ _ (n_deps_b s Hs)). assert (B := TT_b s Hs). fold T in B. rewrite n_jme_T. clearbody T.
    generalize dependent (n_deps s). intros e D. clear - D B. unfold al_obl, deg. q2. interval with (i_bisect T, i_autodiff T).
  Qed.
  Lemma nrel_m_near : Rabs (n_m s * (PI / 180) - al_L0 T) <= 0.000014.
  Proof.
    unfold n_m. rewrite n_jme_T. assert (B := TT_b s Hs). fold T in B. clearbody T. clear - B. unfold al_L0, deg. q2. interval with (i_bisect T, i_autodiff T).
  Qed.
  Lemma R0_heads j : exists r, Rabs r <= 11231 /\ r_series T_R0 j =
    100013989 + 1670700 * cos (3.0984635 + 6283.07585 * j) + 13956 * cos (3.05525 + 12566.1517 * j) + r.
  Proof.
    exists (r_series (skipn 3 T_R0) j). split.
    - replace 11231 with (Q2R 11231) by q2r. apply series_le. vm_compute. reflexivity.
    - replace T_R0 with (firstn 3 T_R0 ++ skipn 3 T_R0)%list at 1 by reflexivity.
      change (firstn 3 T_R0) with [(100013989.0, 0.0, 0.0); (1670700.0, 3.0984635, 6283.07585); (13956.0, 3.05525, 12566.1517)]%Q.
      cbn [app r_series r_term map fold_right]. unfold r_term. rewrite Q00. replace (0 + 0 * j) with 0 by ring. rewrite cos_0. q2. lra.
  Qed.
  Lemma R1_heads j : exists r, Rabs r <= 2557 /\ r_series T_R1 j = 103019 * cos (1.10749 + 6283.07585 * j) + r.
  Proof.
    exists (r_series (skipn 1 T_R1) j). split.
    - replace 2557 with (Q2R 2557) by q2r. apply series_le. vm_compute. reflexivity.
    - replace T_R1 with (firstn 1 T_R1 ++ skipn 1 T_R1)%list at 1 by reflexivity.
      change (firstn 1 T_R1) with [(103019.0, 1.10749, 6283.07585)]%Q.
      cbn [app r_series r_term map fold_right]. unfold r_term. q2. lra.
  Qed.
  Definition nrel_dR (T : R) : R := 3.0984635 + PI + 6283.07585 * ((T + 67 / 3155760000) / 10) - al_M T.
  Definition nrel_dR2 (T : R) : R := 3.05525 + PI + 2 * PI + 12566.1517 * ((T + 67 / 3155760000) / 10) - 2 * al_M T.
  Lemma nrel_R_near : Rabs (n_R s - al_R T) <= 0.00022.
  Proof.
    assert (B := TT_b s Hs). fold T in B. assert (Bj := n_jme_b s Hs).
    unfold n_R. set (j := n_jme s) in *. assert (Ej : j = (T + 67 / 3155760000) / 10) by exact n_jme_T.
    destruct (R0_heads j) as (r0 & R0 & E0). destruct (R1_heads j) as (r1 & R1 & E1).
    unfold nj_R. rewrite E0, E1.
    assert (R2 : Rabs (r_series T_R2 j) <= #4520) by (apply series_le; vm_compute; reflexivity).
    assert (R3 : Rabs (r_series T_R3 j) <= #160) by (apply series_le; vm_compute; reflexivity).
    assert (R4 : Rabs (r_series T_R4 j) <= #5) by (apply series_le; vm_compute; reflexivity).
    set (r2 := r_series T_R2 j) in *. set (r3 := r_series T_R3 j) in *. set (r4 := r_series T_R4 j) in *. clearbody r2 r3 r4.
    set (d := nrel_dR T). set (d2 := nrel_dR2 T).
    replace (3.0984635 + 6283.07585 * j) with (al_M T + d - PI) by (unfold d, nrel_dR; rewrite Ej; lra).
    replace (3.05525 + 12566.1517 * j) with (2 * al_M T + d2 - PI - 2 * PI * IZR 1) by (unfold d2, nrel_dR2; rewrite Ej; lra).
    replace (1.10749 + 6283.07585 * j) with (al_M T + (d - 1.9909735) - PI) by (unfold d, nrel_dR; rewrite Ej; lra).
    rewrite cos_2kpi. assert (CS : forall x, cos (x - PI) = - cos x) by (intros x; rewrite cos_minus, cos_PI, sin_PI; ring). rewrite !CS, !cos_plus.
    set (u := d - 1.9909735).
    assert (Dd2 : -0.038 <= d2 <= 0.038) by (unfold d2, nrel_dR2, al_M, deg; clearbody T; clear - B; split; interval with (i_bisect T, i_autodiff T)).
    assert (He : 0.0165 <= al_e T <= 0.0169) by (assert (X := sol_ecc s); fold T in X; rewrite <- X; apply (t_ecc_b s Hs)).
    set (r := al_C T - 2 * al_e T * sin (al_M T)).
    assert (Hr : -0.0004 <= r <= 0.0004).
    { cut (Rabs r <= 0.0004); [intros X; apply Rabs_le_inv in X; lra|]. unfold r, al_C, al_e, deg.
      match goal with |- Rabs ?x <= _ => replace x with
        (sin (al_M T) * ((1.914602 - 0.004817 * T - 0.000014 * T ^ 2) * (PI / 180) - 2 * (0.016708634 - 0.000042037 * T - 0.0000001267 * T ^ 2))
         + sin (2 * al_M T) * ((0.019993 - 0.000101 * T) * (PI / 180)) + sin (3 * al_M T) * (0.000289 * (PI / 180))) by ring end.
      tri.
      assert (K1 : Rabs ((1.914602 - 0.004817 * T - 0.000014 * T ^ 2) * (PI / 180) - 2 * (0.016708634 - 0.000042037 * T - 0.0000001267 * T ^ 2)) <= 0.00001)
        by (clearbody T; clear - B; interval with (i_bisect T, i_autodiff T)).
      assert (K2 : Rabs ((0.019993 - 0.000101 * T) * (PI / 180)) <= 0.00036) by (clearbody T; clear - B; interval).
      assert (K3 : Rabs (0.000289 * (PI / 180)) <= 0.000006) by interval.
      apply (unit_mul (sin (al_M T))) in K1; [|apply unit_sin]. apply (unit_mul (sin (2 * al_M T))) in K2; [|apply unit_sin]. apply (unit_mul (sin (3 * al_M T))) in K3; [|apply unit_sin]. lra. }
    assert (EL := ellipse (al_M T) (al_e T) r He Hr).
    unfold al_R. replace (al_M T + al_C T) with (al_M T + (2 * al_e T * sin (al_M T) + r)) by (unfold r; ring).
    set (RR := 1.000001018 * (1 - al_e T ^ 2) / (1 + al_e T * cos (al_M T + (2 * al_e T * sin (al_M T) + r)))) in *. clearbody RR.
    match goal with |- Rabs ?x <= _ => replace x with
      ((1.00013989 - al_e T * cos (al_M T) - 0.00013956 * cos (2 * al_M T) - RR)
       + cos (al_M T) * (al_e T - (1670700 * cos d + 103019 * cos u * j) / 100000000)
       + sin (al_M T) * ((1670700 * sin d + 103019 * sin u * j) / 100000000)
       + cos (2 * al_M T) * (13956 / 100000000 * (1 - cos d2)) + sin (2 * al_M T) * (13956 / 100000000 * sin d2)
       + (r0 + r1 * j + r2 * j ^ 2 + r3 * j ^ 3 + r4 * j ^ 4) / 100000000) end.
    2:{ replace (#1e8) with 100000000 by q2r. replace 1.00013989 with (100013989 / 100000000) by lra. replace 0.00013956 with (13956 / 100000000) by lra. field. }
    tri.
    assert (K1 : Rabs (al_e T - (1670700 * cos d + 103019 * cos u * j) / 100000000) <= 0.000005).
    { unfold u, d, nrel_dR, al_M, al_e. rewrite Ej. unfold deg. clearbody T. clear - B. interval with (i_bisect T, i_autodiff T). }
    assert (K2 : Rabs ((1670700 * sin d + 103019 * sin u * j) / 100000000) <= 0.000005).
    { unfold u, d, nrel_dR, al_M. rewrite Ej. unfold deg. clearbody T. clear - B. interval with (i_bisect T, i_autodiff T). }
    assert (K3 : Rabs (13956 / 100000000 * (1 - cos d2)) <= 0.000001) by (clearbody d2; clear - Dd2; interval).
    assert (K4 : Rabs (13956 / 100000000 * sin d2) <= 0.000006) by (clearbody d2; clear - Dd2; interval).
    assert (K7 : Rabs ((r0 + r1 * j + r2 * j ^ 2 + r3 * j ^ 3 + r4 * j ^ 4) / 100000000) <= 0.00013).
    { clearbody j. q2. apply Rabs_le_inv in R0, R1, R2, R3, R4. clear - Bj R0 R1 R2 R3 R4. interval. }
    apply (unit_mul (cos (al_M T))) in K1; [|apply unit_cos]. apply (unit_mul (sin (al_M T))) in K2; [|apply unit_sin].
    apply (unit_mul (cos (2 * al_M T))) in K3; [|apply unit_cos]. apply (unit_mul (sin (2 * al_M T))) in K4; [|apply unit_sin]. lra.
  Qed.
End Nrel.
