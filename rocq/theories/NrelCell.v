(** * NrelCell: the location-dependent part of ne_nrel.py over the reals *)

From Coq Require Import ZArith QArith Reals Bool List Lra Lia.
From Flocq Require Import Core.Raux.
From Interval Require Import Tactic.
From Verif Require Import Num Ext ExtLemmas Sky AstroTac Refraction PsaR PsaCell SoltrackR SoltrackCell Nrel NrelR.
Open Scope R_scope.

Notation FLAT := (#0.99664719).
(** Reduced latitude (at the poles the tangent is infinite). *)
Definition n_u (phi : R) : R :=
  if Req_EM_T (cos phi) 0 then (if Rlt_dec 0 (sin phi) then PI / 2 else - (PI / 2)) else atan (FLAT * tan phi).
Lemma n_u_R phi : e_atan (e_mul (Fin FLAT) (e_tan (Fin phi))) = Fin (n_u phi).
Proof.
  unfold n_u, e_tan. assert (0 < FLAT) by q2r.
  destruct (Req_EM_T (cos phi) 0); [|reflexivity].
  destruct (Rlt_dec 0 (sin phi)); cbn [e_mul e_sgn]; (destruct (Rlt_dec 0 FLAT); [|contradiction]); reflexivity.
Qed.

(** The observer, in earth radii, and the direction from the observer to the sun. *)
Definition n_x (phi : R) : R := cos (n_u phi).
Definition n_y (phi : R) : R := FLAT * sin (n_u phi).

Section Topo.
  Variables (x y sx del h : R).       (* sx: sine of the horizontal parallax *)
  Hypothesis Hx : -1 <= x <= 1.
  Hypothesis Hy : -1 <= y <= 1.
  Hypothesis Hsx : 0 <= sx <= 0.0001.
  Hypothesis Hd : 0.9 <= cos del.
  Definition tD : R := cos del - x * sx * cos h.
  Definition t_da : R := Ratan2 (- x * sx * sin h) tD.
  Definition t_dp : R := Ratan2 ((sin del - y * sx) * cos t_da) tD.
  Definition t_Hp : R := h - t_da.

  Lemma mul1 a b c : -1 <= a <= 1 -> 0 <= b <= 0.0001 -> -1 <= c <= 1 -> -0.0001 <= a * b * c <= 0.0001.
  Proof. intros Ha Hb Hc. assert (- b <= a * b <= b) by (split; nra). split; nra. Qed.
  Lemma tD_b : 0.89 <= tD <= 1.01.
  Proof.
    unfold tD. pose proof (mul1 x sx (cos h) Hx Hsx (COS_bound h)). pose proof (COS_bound del). lra.
  Qed.
  Lemma t_dp_cos : 0 < cos t_dp.
  Proof.
    pose proof tD_b. unfold t_dp, Ratan2. destruct (Rlt_dec 0 tD); [|lra]. apply cos_atan_pos.
  Qed.

  (** The topocentric direction is that of the geocentric vector minus the observer's position. *)
  Lemma topo_spec : exists rho,
    Rabs (rho - 1) <= 2.5 * sx /\
    rho * (cos t_dp * cos t_Hp) = cos del * cos h - x * sx /\
    rho * (cos t_dp * sin t_Hp) = cos del * sin h /\
    rho * sin t_dp = sin del - y * sx.
  Proof.
    pose proof tD_b as HD. pose proof (sc1 h) as Hh. pose proof (sc1 del) as Hdel.
    destruct (Ratan2_polar (- x * sx * sin h) tD) as [E1 E2]. fold t_da in E1, E2.
    set (q := sqrt (tD ^ 2 + (- x * sx * sin h) ^ 2)) in *.
    assert (Hq : 0 <= q) by apply sqrt_pos.
    assert (Hq0 : 0 < q) by (destruct Hq as [|E]; [assumption|rewrite <- E in E1; lra]).
    assert (Hc : 0 < cos t_da) by nra.
    destruct (Ratan2_polar ((sin del - y * sx) * cos t_da) tD) as [F1 F2]. fold t_dp in F1, F2.
    set (w := sqrt (tD ^ 2 + ((sin del - y * sx) * cos t_da) ^ 2)) in *.
    assert (Hw : 0 <= w) by apply sqrt_pos.
    (* rho = w / cos da *)
    set (rho := w / cos t_da).
    assert (G1 : rho * cos t_dp = q). { unfold rho. replace (w / cos t_da * cos t_dp) with (w * cos t_dp / cos t_da) by (field; lra). rewrite <- F1, E1 at 1. field. lra. }
    assert (G2 : rho * sin t_dp = sin del - y * sx). { unfold rho. replace (w / cos t_da * sin t_dp) with (w * sin t_dp / cos t_da) by (field; lra). rewrite <- F2 at 1. field. lra. }
    exists rho.
    assert (K1 : rho * (cos t_dp * cos t_Hp) = cos del * cos h - x * sx).
    { rewrite <- Rmult_assoc, G1. unfold t_Hp. rewrite cos_minus.
      replace (q * (cos h * cos t_da + sin h * sin t_da)) with (cos h * (q * cos t_da) + sin h * (q * sin t_da)) by ring.
      rewrite <- E1, <- E2. unfold tD. replace (cos h * (cos del - x * sx * cos h) + sin h * (- x * sx * sin h)) with
        (cos del * cos h - x * sx * (sin h * sin h + cos h * cos h)) by ring. rewrite Hh. ring. }
    assert (K2 : rho * (cos t_dp * sin t_Hp) = cos del * sin h).
    { rewrite <- Rmult_assoc, G1. unfold t_Hp. rewrite sin_minus.
      replace (q * (sin h * cos t_da - cos h * sin t_da)) with (sin h * (q * cos t_da) - cos h * (q * sin t_da)) by ring.
      rewrite <- E1, <- E2. unfold tD. ring. }
    split; [|now repeat split].
    assert (Hr0 : 0 <= rho) by (unfold rho; apply Rmult_le_pos; [assumption|left; now apply Rinv_0_lt_compat]).
    assert (Hr2 : rho * rho = (cos del * cos h - x * sx) ^ 2 + (cos del * sin h) ^ 2 + (sin del - y * sx) ^ 2).
    { rewrite <- K1, <- K2, <- G2. pose proof (sc1 t_dp). pose proof (sc1 t_Hp).
      replace ((rho * (cos t_dp * cos t_Hp)) ^ 2 + (rho * (cos t_dp * sin t_Hp)) ^ 2 + (rho * sin t_dp) ^ 2)
        with (rho * rho * (cos t_dp * cos t_dp * (sin t_Hp * sin t_Hp + cos t_Hp * cos t_Hp) + sin t_dp * sin t_dp)) by ring.
      rewrite H0. replace (cos t_dp * cos t_dp * 1 + sin t_dp * sin t_dp) with (sin t_dp * sin t_dp + cos t_dp * cos t_dp) by ring. rewrite H. ring. }
    assert (Hexp : rho * rho = 1 - 2 * sx * (x * (cos del * cos h) + y * sin del) + sx * sx * (x * x + y * y)).
    { rewrite Hr2. replace ((cos del * cos h - x * sx) ^ 2 + (cos del * sin h) ^ 2 + (sin del - y * sx) ^ 2)
        with (cos del * cos del * (sin h * sin h + cos h * cos h) + sin del * sin del - 2 * sx * (x * (cos del * cos h) + y * sin del) + sx * sx * (x * x + y * y)) by ring.
      rewrite Hh. lra. }
    pose proof (COS_bound del). pose proof (COS_bound h). pose proof (SIN_bound del).
    assert (Hcc : -1 <= cos del * cos h <= 1) by (split; nra).
    assert (Ha1 : -2 <= x * (cos del * cos h) + y * sin del <= 2).
    { assert (-1 <= x * (cos del * cos h) <= 1) by (split; nra). assert (-1 <= y * sin del <= 1) by (split; nra). lra. }
    assert (Hb2 : 0 <= x * x + y * y <= 2) by (split; nra).
    generalize dependent (x * (cos del * cos h) + y * sin del). generalize dependent (x * x + y * y). intros b Hb a Hexp Ha.
    assert (0 <= sx * sx * b <= 0.0002 * sx) by (split; nra).
    assert (-2 * sx <= sx * a <= 2 * sx) by (split; nra).
    apply Rabs_le. split; nra.
  Qed.
End Topo.

(** cos of the topocentric zenith angle against the geocentric one. *)
Lemma topo_U x y sx del h phi : -1 <= x <= 1 -> -1 <= y <= 1 -> 0 <= sx <= 0.0001 -> 0.9 <= cos del ->
  Rabs (sun_U phi (t_dp x y sx del h) (t_Hp x sx del h) - sun_U phi del h) <= 5 * sx.
Proof.
  intros Hx Hy Hs Hd. destruct (topo_spec x y sx del h Hx Hy Hs Hd) as (rho & Hr & K1 & K2 & K3).
  assert (E : rho * sun_U phi (t_dp x y sx del h) (t_Hp x sx del h) = sun_U phi del h - sx * (y * sin phi + x * cos phi)).
  { unfold sun_U. replace (rho * (sin phi * sin (t_dp x y sx del h) + cos phi * cos (t_dp x y sx del h) * cos (t_Hp x sx del h)))
     with (sin phi * (rho * sin (t_dp x y sx del h)) + cos phi * (rho * (cos (t_dp x y sx del h) * cos (t_Hp x sx del h)))) by ring.
    rewrite K1, K3. ring. }
  pose proof (sun_U_bound phi (t_dp x y sx del h) (t_Hp x sx del h)).
  pose proof (SIN_bound phi). pose proof (COS_bound phi).
  assert (-1 <= y * sin phi <= 1) by (split; nra). assert (-1 <= x * cos phi <= 1) by (split; nra).
  set (u := sun_U phi (t_dp x y sx del h) (t_Hp x sx del h)) in *. set (u0 := sun_U phi del h) in *.
  generalize dependent (y * sin phi). intros a E Ha. generalize dependent (x * cos phi). intros b E Hb.
  apply Rabs_le_inv in Hr. apply Rabs_le. replace u0 with (rho * u + sx * (a + b)) by lra.
  assert (-(2.5 * sx) <= (rho - 1) * u <= 2.5 * sx) by (split; nra).
  assert (- (2 * sx) <= sx * (a + b) <= 2 * sx) by (split; nra). lra.
Qed.

(** ** The returned angles *)
Definition n_ATM : R := #1013.25 / #1010.0 * (#283.0 / (#273 + #12.0)).
Definition nrel_finish (r : bool) (z0 : R) : R :=
  if r then PI / 2 - where_ (Rleb (- #1.4545e-2) (PI / 2 - z0))
                       ((PI / 2 - z0) + refr_corr (n_ATM * #1.7802e-2) #60 k_psa (PI / 2 - z0)) (PI / 2 - z0)
  else z0.

Section Cell.
  Variable md : R -> R -> R.
  Variables (alpha del v Rad lon lat : R).
  Definition m_phi : R := lat * (PI / 180).
  Definition m_H : R := md (v + lon - alpha) #360 * (PI / 180).
  Definition m_xi : R := #8.794 / (#3600 * Rad) * (PI / 180).
  Definition m_dp : R := t_dp (n_x m_phi) (n_y m_phi) (sin m_xi) del m_H.
  Definition m_Hp : R := t_Hp (n_x m_phi) (sin m_xi) del m_H.
  Definition m_zen0 : R := acos (sun_U m_phi m_dp m_Hp).
  Definition m_az : R := st_az m_dp (sin m_phi) (cos m_phi) m_Hp.
  Lemma m_zen0_spec : is_zenith m_zen0 m_phi m_dp m_Hp.
  Proof. unfold is_zenith, m_zen0. split; [apply acos_bound|]. apply cos_acos, sun_U_bound. Qed.
  Lemma m_az_spec : 0 < cos m_dp -> is_azimuth m_az m_phi m_dp m_Hp.
  Proof. apply azimuth_south. Qed.
  Lemma n_x_b : -1 <= n_x m_phi <= 1. Proof. apply COS_bound. Qed.
  Lemma n_y_b : -1 <= n_y m_phi <= 1.
  Proof. unfold n_y. pose proof (SIN_bound (n_u m_phi)). q2. lra. Qed.
  Lemma m_xi_b : 0.9826 <= Rad <= 1.0176 -> 0 <= sin m_xi <= 0.00005.
  Proof. intros H. unfold m_xi. q2. split; interval. Qed.
  (** Whole turns of the hour angle. *)
  Lemma m_H_spec : mod_spec md -> exists k : Z, m_H = (v - alpha) * (PI / 180) + lon * (PI / 180) - 2 * PI * IZR k.
  Proof.
    intros Hm. unfold m_H. destruct (Hm (v + lon - alpha) #360) as (k & -> & _); [q2r|]. exists k. qs. field.
  Qed.
End Cell.

Lemma ne_nrel_cell_R E r alpha del v Rad eot lon lat :
  0.9826 <= Rad <= 1.0176 -> 0.9 <= cos del ->
  ne_nrel_2d (O := ExtOps E) r {| nr_alpha := Fin alpha; nr_delta := Fin del; nr_eot := eot; nr_v := Fin v; nr_R := Fin Rad |}
    (Fin lon) (Fin lat) = (Fin (nrel_finish r (m_zen0 (nem E) alpha del v Rad lon lat)), Fin (m_az (nem E) alpha del v Rad lon lat)).
Proof.
  intros HR Hd.
  assert (HR' : #3600 * Rad <> 0) by (q2; lra).
  assert (Hdp := t_dp_cos (n_x (m_phi lat)) (n_y (m_phi lat)) (sin (m_xi Rad)) del (m_H (nem E) alpha v lon)
    (n_x_b lat) ltac:(pose proof (m_xi_b Rad HR); lra) Hd).
  fold (m_dp (nem E) alpha del v Rad lon lat) in Hdp.
  cbv beta delta [ne_nrel_2d nr_alpha nr_delta nr_v nr_R].
  step (m_phi lat). step (m_H (nem E) alpha v lon). step (m_xi Rad).
  stepg (n_u (m_phi lat)). 1:{ apply n_u_R. }
  assert (E0 : #0.0 / #6378140.0 = 0) by q2r.
  stepg (n_x (m_phi lat)). 1:{ unfold ELEVATION, n_x. ext_ops. fin_all. rewrite E0. f_equal. ring. }
  stepg (n_y (m_phi lat)). 1:{ unfold ELEVATION, n_y. ext_ops. fin_all. rewrite E0. f_equal. ring. }
  stepg (t_da (n_x (m_phi lat)) (sin (m_xi Rad)) del (m_H (nem E) alpha v lon)). 1:{ reflexivity. }
  stepg (m_dp (nem E) alpha del v Rad lon lat). 1:{ reflexivity. }
  stepg (m_Hp (nem E) alpha del v Rad lon lat). 1:{ reflexivity. }
  stepg (PI / 2 - m_zen0 (nem E) alpha del v Rad lon lat).
  1:{ change (sin (m_phi lat) * sin (m_dp (nem E) alpha del v Rad lon lat) + cos (m_phi lat) * cos (m_dp (nem E) alpha del v Rad lon lat) * cos (m_Hp (nem E) alpha del v Rad lon lat))
        with (sun_U (m_phi lat) (m_dp (nem E) alpha del v Rad lon lat) (m_Hp (nem E) alpha del v Rad lon lat)).
      rewrite fin_unit by apply sun_U_bound. rewrite asin_acos' by apply sun_U_bound. reflexivity. }
  pose proof (m_zen0_spec (nem E) alpha del v Rad lon lat) as [Hz _].
  set (z0 := m_zen0 _ _ _ _ _ _ _) in *.
  stepg (if r then where_ (Rleb (- #1.4545e-2) (PI / 2 - z0)) ((PI / 2 - z0) + refr_corr (n_ATM * #1.7802e-2) #60 k_psa (PI / 2 - z0)) (PI / 2 - z0) else PI / 2 - z0).
  1:{ destruct r; [|reflexivity]. rewrite <- refr_where by lra. cbv zeta. unfold ATM_REFR, PRESSURE, TEMPERATURE, n_ATM. ext_ops. fin_all. reflexivity. }
  cbv zeta. ext_ops. rewrite fin_tan by lra. fin. unfold nrel_finish. apply f_equal2; [|reflexivity].
  destruct r; [reflexivity|]. f_equal. ring.
Qed.
