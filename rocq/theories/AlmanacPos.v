(** * AlmanacPos: distances between directions *)
From Coq Require Import ZArith Reals Bool List String Lra Lia.
From Flocq Require Import Core.Raux.
From Interval Require Import Tactic.
From Verif Require Import Num Ext Sky SkyClose AstroTac AstroSpec Almanac.
Open Scope R_scope.

Definition vec : Type := R * R * R.
Definition dot (u v : vec) : R := let '(a, b, c) := u in let '(x, y, z) := v in a * x + b * y + c * z.
Definition sub (u v : vec) : vec := let '(a, b, c) := u in let '(x, y, z) := v in (a - x, b - y, c - z).
Definition norm (u : vec) : R := sqrt (dot u u).
Definition dist (u v : vec) : R := norm (sub u v).

Lemma dot_pos u : 0 <= dot u u. Proof. destruct u as [[a b] c]. cbn. nra. Qed.
Lemma norm_sq u : norm u * norm u = dot u u. Proof. apply sqrt_sqrt, dot_pos. Qed.
Lemma norm_pos u : 0 <= norm u. Proof. apply sqrt_pos. Qed.
Lemma norm_le u c : 0 <= c -> dot u u <= c * c -> norm u <= c.
Proof. intros Hc H. apply Rsqr_incr_0_var; [|exact Hc]. unfold Rsqr. now rewrite norm_sq. Qed.
Lemma norm_ge u c : norm u <= c -> dot u u <= c * c.
Proof. intros H. rewrite <- norm_sq. pose proof (norm_pos u). nra. Qed.
Lemma cauchy u v : dot u v <= norm u * norm v.
Proof.
  apply Rnot_lt_le. intros C. assert (Hp : 0 <= norm u * norm v) by (apply Rmult_le_pos; apply norm_pos).
  assert (H : dot u v * dot u v <= dot u u * dot v v).
  { destruct u as [[a b] c], v as [[x y] z]. cbn. pose proof (pow2_ge_0 (a * y - b * x)). pose proof (pow2_ge_0 (a * z - c * x)). pose proof (pow2_ge_0 (b * z - c * y)). nra. }
  rewrite <- !norm_sq in H. nra.
Qed.
Lemma dist_tri u v w : dist u w <= dist u v + dist v w.
Proof.
  apply norm_le; [unfold dist; pose proof (norm_pos (sub u v)); pose proof (norm_pos (sub v w)); lra|].
  assert (H := cauchy (sub u v) (sub v w)). assert (N1 := norm_sq (sub u v)). assert (N2 := norm_sq (sub v w)). fold (dist u v) in *. fold (dist v w) in *.
  generalize dependent (dist u v). intros p. generalize dependent (dist v w). intros q. destruct u as [[a b] c], v as [[x y] z], w as [[d e] f]. cbn. intros. nra.
Qed.
Lemma dist_sym u v : dist u v = dist v u.
Proof. unfold dist, norm. f_equal. destruct u as [[a b] c], v as [[x y] z]. cbn. ring. Qed.

(** Unit vectors: of a direction in the horizon frame, and of a declination and hour angle. *)
Definition sky (z a : R) : vec := (sin z * cos a, sin z * sin a, cos z).
Definition eq (d h : R) : vec := (cos d * cos h, cos d * sin h, sin d).
Definition hor (phi d h : R) : vec := (sun_S phi d h, sun_W phi d h, sun_U phi d h).
Lemma dot_sky z a z' a' : dot (sky z a) (sky z' a') = cos z * cos z' + sin z * sin z' * cos (a - a').
Proof. cbn. rewrite cos_minus. ring. Qed.
Lemma sky_unit z a : dot (sky z a) (sky z a) = 1.
Proof. rewrite dot_sky, Rminus_eq_0, cos_0. pose proof (sc1 z). lra. Qed.
Lemma hor_unit phi d h : dot (hor phi d h) (hor phi d h) = 1.
Proof. cbn. pose proof (sun_unit phi d h). lra. Qed.
Lemma dist_unit u v : dot u u = 1 -> dot v v = 1 -> dist u v * dist u v = 2 - 2 * dot u v.
Proof. unfold dist. rewrite norm_sq. destruct u as [[a b] c], v as [[x y] z]. cbn. intros. nra. Qed.

Lemma vers x : 2 - 2 * cos x <= x * x.
Proof.
  assert (H := sin_lip (x / 2) 0). rewrite sin_0, !Rminus_0_r in H. replace x with (2 * (x / 2)) at 1 by field. rewrite cos_2a_sin.
  assert (Rabs (sin (x / 2)) * Rabs (sin (x / 2)) = sin (x / 2) * sin (x / 2)) by (rewrite <- Rabs_mult; apply Rabs_pos_eq; nra).
  assert (Rabs (x / 2) * Rabs (x / 2) = x / 2 * (x / 2)) by (rewrite <- Rabs_mult; apply Rabs_pos_eq; nra).
  pose proof (Rabs_pos (sin (x / 2))). nra.
Qed.
Lemma sq_abs x c : 0 <= c -> x * x <= c * c -> Rabs x <= c.
Proof. intros Hc H. rewrite <- (Rabs_pos_eq c Hc). apply Rsqr_le_abs_0. exact H. Qed.
Lemma abs_sq x : Rabs x * Rabs x = x * x. Proof. rewrite <- Rabs_mult. apply Rabs_pos_eq. nra. Qed.

Lemma dist_zen z z' a : dist (sky z a) (sky z' a) <= Rabs (z - z').
Proof.
  apply norm_le; [apply Rabs_pos|]. fold (dist (sky z a) (sky z' a)). rewrite abs_sq. eapply Rle_trans; [|apply vers].
  rewrite <- norm_sq. fold (dist (sky z a) (sky z' a)). rewrite dist_unit by apply sky_unit. rewrite dot_sky, Rminus_eq_0, cos_0, cos_minus. lra.
Qed.
Lemma dot_hor phi d h d' h' : dot (hor phi d h) (hor phi d' h') = sin d * sin d' + cos d * cos d' * cos (h - h').
Proof. cbn. unfold sun_S, sun_W, sun_U. rewrite cos_minus. pose proof (sc1 phi) as S. replace (sin d * sin d') with ((sin phi * sin phi + cos phi * cos phi) * (sin d * sin d')) by (rewrite S; ring).
  replace (cos d * cos d' * (cos h * cos h' + sin h * sin h')) with (cos d * cos d' * ((sin phi * sin phi + cos phi * cos phi) * (cos h * cos h') + sin h * sin h')) by (rewrite S; ring). ring. Qed.
Lemma dist_hor phi d h d' h' e : near_turn h h' e -> dist (hor phi d h) (hor phi d' h') <= Rabs (d - d') + e.
Proof.
  intros (k & Hk). assert (He : 0 <= e) by (eapply Rle_trans; [apply Rabs_pos|exact Hk]).
  eapply Rle_trans; [apply (dist_tri _ (hor phi d' h))|]. apply Rplus_le_compat.
  - apply norm_le; [apply Rabs_pos|]. rewrite abs_sq. rewrite <- norm_sq. fold (dist (hor phi d h) (hor phi d' h)). rewrite dist_unit by apply hor_unit.
    rewrite dot_hor, Rminus_eq_0, cos_0. eapply Rle_trans; [|apply vers]. rewrite cos_minus. lra.
  - apply norm_le; [exact He|]. rewrite <- norm_sq. fold (dist (hor phi d' h) (hor phi d' h')). rewrite dist_unit by apply hor_unit. rewrite dot_hor.
    assert (V := vers (h - h' - 2 * PI * IZR k)). rewrite cos_2kpi in V. assert (A := abs_sq (h - h' - 2 * PI * IZR k)). pose proof (Rabs_pos (h - h' - 2 * PI * IZR k)).
    pose proof (sc1 d'). pose proof (COS_bound (h - h')). assert (0 <= cos d' * cos d' <= 1) by nra. nra.
Qed.

(** A distance of at most [c] is an angle of at most 1.002 [c]. *)
Lemma dist_angle z a z' a' c : 0 <= c <= 0.1 -> dist (sky z a) (sky z' a') <= c -> separation_le z a z' a' (1.002 * c).
Proof.
  intros Hc H. unfold separation_le. rewrite <- dot_sky. assert (E := dist_unit _ _ (sky_unit z a) (sky_unit z' a')). assert (P : 0 <= dist (sky z a) (sky z' a')) by apply norm_pos.
  set (D := dist _ _) in *. assert (Hd : D * D <= c * c) by nra. cut (cos (1.002 * c) <= 1 - c * c / 2); [lra|]. clear - Hc.
  replace (1.002 * c) with (2 * (0.501 * c)) by lra. rewrite cos_2a_sin. set (w := 0.501 * c). assert (Hw : 0 <= w <= 0.0501) by (unfold w; lra).
  assert (K : 0.9987 * w <= sin w).
  { clearbody w. clear - Hw. destruct (Req_dec w 0) as [->|Hn]; [rewrite sin_0; lra|].
    destruct (MVT_cor2 sin cos 0 w ltac:(lra)) as (v & Hv & Bv); [intros; apply derivable_pt_lim_sin|]. rewrite sin_0, !Rminus_0_r in Hv.
    assert (B : 0 <= v <= 0.0501) by lra. assert (0.9987 <= cos v) by (clear - B; interval). nra. }
  assert (K2 : 0.50034 * c <= sin w) by (unfold w in *; lra). nra.
Qed.
Lemma separation_zenith z a z' a' tau : 0 <= z <= PI -> 0 <= z' <= PI -> 0 <= tau <= PI -> separation_le z a z' a' tau -> Rabs (z - z') <= tau.
Proof.
  intros Hz Hz' Ht H. unfold separation_le in H. assert (C : cos tau <= cos (z - z')).
  { rewrite cos_minus. assert (0 <= sin z) by (apply sin_ge_0; lra). assert (0 <= sin z') by (apply sin_ge_0; lra). pose proof (COS_bound (a - a')). assert (0 <= sin z * sin z') by nra. nra. }
  assert (Rb : 0 <= Rabs (z - z') <= PI) by (split; [apply Rabs_pos|apply Rabs_le; lra]).
  assert (E : cos (z - z') = cos (Rabs (z - z'))) by (unfold Rabs; destruct (Rcase_abs (z - z')); [symmetry; apply cos_neg|reflexivity]).
  rewrite E in C. apply Rnot_lt_le. intros L. assert (cos (Rabs (z - z')) < cos tau) by (apply cos_decreasing_1; lra). lra.
Qed.

(** ** The returned direction against the geocentric one *)
Lemma is_azimuth_sky phi d h a : is_azimuth a phi d h -> exists zt, 0 <= zt <= PI /\ hor phi d h = sky zt a /\ cos zt = sun_U phi d h.
Proof.
  intros (rho & Hr & HS & HW). exists (acos (sun_U phi d h)). assert (B := sun_U_bound phi d h). assert (Bz := acos_bound (sun_U phi d h)).
  assert (C := cos_acos _ B). split; [exact Bz|]. split; [|exact C].
  assert (S : sin (acos (sun_U phi d h)) = rho).
  { assert (0 <= sin (acos (sun_U phi d h))) by (apply sin_ge_0; lra). assert (E := sc1 (acos (sun_U phi d h))). rewrite C in E. assert (U := sun_unit phi d h). rewrite HS, HW in U. pose proof (sc1 a).
    assert (Er : rho * rho + sun_U phi d h * sun_U phi d h = 1) by nra. apply Rsqr_inj; [assumption|exact Hr|]. unfold Rsqr. lra. }
  unfold hor, sky. rewrite S, C, HS, HW. reflexivity.
Qed.
Lemma dist_plain k tol eps phi d h z a : 0 <= k -> 0 <= eps -> 2 * tol <= eps * eps -> sky_plain k tol phi d h z a -> dist (sky z a) (hor phi d h) <= k + eps.
Proof.
  intros Hk He Ht (z0 & B0 & H0 & -> & Ha). destruct (is_azimuth_sky _ _ _ _ Ha) as (zt & Bt & -> & Ct). rewrite <- Ct in H0.
  eapply Rle_trans; [apply (dist_tri _ (sky z0 a))|]. apply Rplus_le_compat.
  - eapply Rle_trans; [apply dist_zen|]. replace (z0 + k * sin z0 - z0) with (k * sin z0) by ring. assert (0 <= sin z0) by (apply sin_ge_0; lra). pose proof (SIN_bound z0). rewrite Rabs_pos_eq by nra. nra.
  - apply norm_le; [exact He|]. rewrite <- norm_sq. fold (dist (sky z0 a) (sky zt a)). rewrite dist_unit by apply sky_unit. rewrite dot_sky, Rminus_eq_0, cos_0, Rmult_1_r.
    replace (cos z0 * cos zt + sin z0 * sin zt) with (cos (z0 - zt)) by (rewrite cos_minus; ring).
    (* 1 - cos (z0 - zt) <= |cos z0 - cos zt| *)
    cut (1 - cos (z0 - zt) <= Rabs (cos z0 - cos zt)); [lra|].
    replace (z0 - zt) with (2 * ((z0 - zt) / 2)) by field. rewrite cos_2a_sin, form2. rewrite !Rabs_mult, (Rabs_left (-2)) by lra.
    set (u := (z0 - zt) / 2). set (v := (z0 + zt) / 2). assert (Hs : Rabs (sin u) <= sin v).
    { unfold u, v. unfold Rabs. destruct (Rcase_abs (sin ((z0 - zt) / 2))).
      - rewrite <- sin_neg. replace (- ((z0 - zt) / 2)) with ((zt - z0) / 2) by field.
        assert (E : sin ((z0 + zt) / 2) - sin ((zt - z0) / 2) = 2 * cos (zt / 2) * sin (z0 / 2)) by (rewrite form4; f_equal; [f_equal; f_equal; field|f_equal; field]).
        assert (0 <= cos (zt / 2)) by (apply cos_ge_0; lra). assert (0 <= sin (z0 / 2)) by (apply sin_ge_0; lra). nra.
      - assert (E : sin ((z0 + zt) / 2) - sin ((z0 - zt) / 2) = 2 * cos (z0 / 2) * sin (zt / 2)) by (rewrite form4; f_equal; [f_equal; f_equal; field|f_equal; field]).
        assert (0 <= cos (z0 / 2)) by (apply cos_ge_0; lra). assert (0 <= sin (zt / 2)) by (apply sin_ge_0; lra). nra. }
    assert (A := abs_sq (sin u)). pose proof (Rabs_pos (sin u)). assert (0 <= sin v) by lra. rewrite (Rabs_pos_eq (sin v)) by assumption. nra.
Qed.
Lemma dist_topo phi d h ecf z a : 0.96 <= ecf <= 1.04 -> sky_topo phi d h ecf z a -> dist (sky z a) (hor phi d h) <= 0.0001.
Proof.
  intros B3 (u & rho & d' & h' & H7). cbv zeta in H7. destruct H7 as (U1 & U2 & U3 & R1 & R2 & K1 & K2 & K3 & [Bz Z] & A).
  assert (Hsx : 0 <= sin (8.794 / 3600 * sqrt ecf * (PI / 180)) <= 0.00005).
  { assert (0.97 <= sqrt ecf <= 1.02).
    { split; [apply Rsqr_incr_0_var; [|apply sqrt_pos]|apply Rsqr_incr_0_var; [|lra]]; rewrite Rsqr_sqrt by lra; unfold Rsqr; lra. }
    generalize dependent (sqrt ecf). intros q Hq. split; interval. }
  set (sx := sin (8.794 / 3600 * sqrt ecf * (PI / 180))) in *.
  destruct (is_azimuth_sky _ _ _ _ A) as (zt & Bt & Ht & Ct). assert (zt = z).
  { rewrite <- (acos_cos zt) by lra. rewrite <- (acos_cos z) by lra. now rewrite Ct, Z. } subst zt. rewrite <- Ht. clear Ht.
  set (e1 := sx * cos u) in *. set (e3 := sx * (0.99664719 * sin u)) in *.
  assert (He : e1 * e1 + e3 * e3 <= 0.00005 * 0.00005).
  { unfold e1, e3. pose proof (sc1 u). assert (sx * sx <= 0.00005 * 0.00005) by nra. assert (0 <= sin u * sin u) by nra. assert (0 <= sx * sx) by nra.
    replace (sx * cos u * (sx * cos u) + sx * (0.99664719 * sin u) * (sx * (0.99664719 * sin u))) with (sx * sx * (cos u * cos u + 0.99664719 * 0.99664719 * (sin u * sin u))) by ring.
    assert (cos u * cos u + 0.99664719 * 0.99664719 * (sin u * sin u) <= 1) by nra. nra. }
  (* rho V' = V - e, both unit *)
  assert (D1 : norm (sub (rho * sun_S phi d' h', rho * sun_W phi d' h', rho * sun_U phi d' h') (hor phi d h)) <= 0.00005).
  { apply norm_le; [lra|]. eapply Rle_trans; [|exact He]. right.
    assert (ES : rho * sun_S phi d' h' - sun_S phi d h = - (sin phi * e1 - cos phi * e3)).
    { unfold sun_S. replace (rho * (sin phi * cos d' * cos h' - cos phi * sin d')) with (sin phi * (rho * (cos d' * cos h')) - cos phi * (rho * sin d')) by ring. rewrite K1, K3. ring. }
    assert (EW : rho * sun_W phi d' h' - sun_W phi d h = 0). { unfold sun_W. rewrite K2. ring. }
    assert (EU : rho * sun_U phi d' h' - sun_U phi d h = - (cos phi * e1 + sin phi * e3)).
    { unfold sun_U. replace (rho * (sin phi * sin d' + cos phi * cos d' * cos h')) with (sin phi * (rho * sin d') + cos phi * (rho * (cos d' * cos h'))) by ring. rewrite K1, K3. ring. }
    cbn. rewrite ES, EW, EU. pose proof (sc1 phi) as S. transitivity ((sin phi * sin phi + cos phi * cos phi) * (e1 * e1 + e3 * e3)); [ring|rewrite S; ring]. }
  assert (N1 := hor_unit phi d h). assert (N2 := hor_unit phi d' h'). apply norm_ge in D1. cbn in D1, N1, N2.
  set (S := sun_S phi d h) in *. set (W := sun_W phi d h) in *. set (U := sun_U phi d h) in *. set (S' := sun_S phi d' h') in *. set (W' := sun_W phi d' h') in *. set (U' := sun_U phi d' h') in *.
  apply norm_le; [lra|]. cbn. fold S W U S' W' U'. clearbody S W U S' W' U'. clear - D1 N1 N2 R1.
  set (c := S * S' + W * W' + U * U').
  assert (D2 : rho * rho + 1 - 2 * rho * c <= 0.00005 * 0.00005).
  { unfold c. replace (rho * rho) with (rho * rho * (S' * S' + W' * W' + U' * U')) by (rewrite N2; ring). replace 1 with (S * S + W * W + U * U). eapply Rle_trans; [|exact D1]. right. ring. }
  assert (Ec : (S' - S) * (S' - S) + (W' - W) * (W' - W) + (U' - U) * (U' - U) = 2 - 2 * c) by (unfold c; nra). rewrite Ec. clearbody c. clear - D2 R1 N1.
  apply Rnot_lt_le. intros C. assert (Hc : c < 0.999999995) by lra. pose proof (pow2_ge_0 (rho - 0.999999995)). nra.
Qed.
Lemma dist_sky alg eng phi d h ecf z a : 0.96 <= ecf <= 1.04 -> sky_position alg eng phi d h ecf z a -> dist (sky z a) (hor phi d h) <= parallax_tol alg eng.
Proof.
  intros B. unfold sky_position, parallax_tol. destruct (String.eqb alg "nrel"); [now apply dist_topo|].
  intros H. unfold parallax_coef, cos_tol in H. destruct (String.eqb_spec alg "psa") as [->|Hp].
  - cbn [String.eqb Ascii.eqb Bool.eqb andb] in *. destruct (String.eqb eng "numpy"); cbn [andb] in H.
    + eapply Rle_trans; [apply (dist_plain _ _ 0.001 _ _ _ _ _) with (4 := H); lra|]. lra.
    + eapply Rle_trans; [apply (dist_plain _ _ 0 _ _ _ _ _) with (4 := H); lra|]. lra.
  - cbn [andb] in H. destruct (String.eqb_spec alg "soltrack") as [->|Hs].
    + cbn [String.eqb Ascii.eqb Bool.eqb]. eapply Rle_trans; [apply (dist_plain _ _ 0 _ _ _ _ _) with (4 := H); lra|]. lra.
    + destruct (String.eqb alg "iqbal"); (eapply Rle_trans; [apply (dist_plain _ _ 0 _ _ _ _ _) with (4 := H); lra|]; lra).
Qed.
