(** * NrelPos: the values and the positions of nrel in double precision *)

From Coq Require Import ZArith QArith Reals Bool List String Lra Lia.
From Flocq Require Import Core.Raux.
From Interval Require Import Tactic.
From Verif Require Import Num Arrays Libspa Time Core Usecases Spec GenericLemmas Ext ExtLemmas
  Sky SkyClose AstroTac AstroSpec SingleSpec SingleLemmas Astro AstroCell
  Double DoubleTac DoubleLemmas DoubleSpec DoubleCore DoubleCell PsaR PsaD SoltrackR SoltrackD SoltrackCell Nrel NrelR NrelCell NrelD NrelCellD DoublePos TopoSpec.
Import ListNotations.
Open Scope R_scope.

Section NPos.
  Variable D : Env64.
  Hypothesis HD : double_like D.
  Notation O64 := (DoubleOps D).

  (** ** The eccentricity factor: 1 / R^2 *)
  Lemma nrel_ecf_D v t : nr_R t = Fin v -> 0.9825 <= v <= 1.0177 -> near (nrel_ecf (O := O64) t) (1 / v ^ 2) (1 / 10000000000000).
  Proof.
    intros Hv B. unfold nrel_ecf. rewrite Hv.
    assert (HR : apb (Fin v) v (qbnd 1.03) 0) by (apply exact_apb; unfold Rz, u90, S90; let z := eval vm_compute in (qbnd 1.03) in change (qbnd 1.03) with z; apply Rabs_le; lra).
    assert (L : Rz (qlow 0.96) <= Rabs (v ^ 2)).
    { rewrite Rabs_pos_eq by nra. unfold Rz, u90, S90. let z := eval vm_compute in (qlow 0.96) in change (qlow 0.96) with z. nra. }
    generalize dependent (Fin v). intros V _ HR. norm_in HR.
    eassert (H : apb (div (Ops := O64) (lit (Ops := O64) 1) (powi (Ops := O64) V 2)) (#1 / v ^ 2) _ _).
    { eapply (ap_div D HD); [apply (ap_lit D HD)|eapply (ap_pow D HD); [exact HR|vm_compute; reflexivity]|exact L|vm_compute; reflexivity|vm_compute; reflexivity]. }
    norm_in H. eapply apb_near; [eapply ap_eq; [exact H|q2; field; lra]|tol].
  Qed.

  (** The distance recovered from the returned factor. *)
  Lemma radius_of_ecf v e : 0.9825 <= v <= 1.0177 -> Rabs (e - 1 / v ^ 2) <= 1 / 10000000000000 ->
    0.9 < e /\ Rabs (v - / sqrt e) <= 1 / 1000000000000.
  Proof.
    intros B H. apply Rabs_le_inv in H. assert (I : 0.98 <= / v <= 1.02).
    { split; [rewrite <- (Rinv_inv 0.98)|rewrite <- (Rinv_inv 1.02)]; apply Rinv_le_contravar; lra. }
    replace (1 / v ^ 2) with (/ v * / v) in H by (field; lra). assert (E0 : 0.9 < e) by nra. split; [exact E0|].
    assert (Sq := sqrt_sqrt e ltac:(lra)). assert (Sp : 0 < sqrt e) by (apply sqrt_lt_R0; lra). set (w := sqrt e) in *.
    assert (S9 : 0.94 <= w) by nra.
    assert (D1 : Rabs (w - / v) <= 1 / 10000000000000) by (apply Rabs_le; split; nra).
    replace (v - / w) with ((w - / v) * (v * / w)) by (field; lra). rewrite Rabs_mult.
    assert (J : 0 < / w <= 1.07) by (split; [now apply Rinv_0_lt_compat|rewrite <- (Rinv_inv 1.07); apply Rinv_le_contravar; lra]).
    rewrite (Rabs_pos_eq (v * / w)) by nra. assert (v * / w <= 1.1) by nra. pose proof (Rabs_pos (w - / v)). nra.
  Qed.

  Lemma nrel_double t : representable t -> let m := ne_nrel (O := O64) in let s := IZR (sec_of t) in
    exists d eot ecf, lib_dec m (lib_time m (sec_of t)) = Fin d /\ lib_eot m (lib_time m (sec_of t)) = Fin eot /\ lib_ecf m (lib_time m (sec_of t)) = Fin ecf /\
      Rabs (d - w_delta s) <= tol9 /\ Rabs (eot - w_eot s) <= 400 * tol9 /\ Rabs (ecf - n_ecf s) <= tol9 /\
      forall la lo, -90 <= la <= 90 -> -180 <= lo <= 180 -> exists h d' h',
        near_turn h (solar_hour_angle t lo eot) nrel_hour_tol /\ topocentric (la * (PI / 180)) d h ecf d' h' /\ 0.9 <= cos d' /\
        near_turn h (m_H Rfloor_mod (n_alpha Rfloor_mod s) (n_v Rfloor_mod s) lo) (1 / 100000000) /\
        forall uc r, pos64 D false r 0 nrel_tol (la * (PI / 180)) d' h' (lib_cell m uc r (lib_time m (sec_of t)) (lib_cast m (Fin lo)) (lib_cast m (Fin la))).
  Proof.
    intros Ht m s. assert (Hs := sec_range t Ht). fold s in Hs.
    assert (C := ne_nrel_time_D D HD s Hs _ (ofZ_ap D HD _ Hs)).
    unfold m. cbn [ne_nrel lib_T lib_time lib_dec lib_eot lib_ecf lib_cast].
    set (tm := ne_nrel_time _) in *.
    destruct (nc_delta _ _ C) as (d & D1 & D2). destruct (nc_eot _ _ C) as (eot & T1 & T2).
    destruct (nc_R _ _ C) as ((v & R1 & R2) & _). assert (BR := n_R_b s Hs).
    assert (Bv : 0.9825 <= v <= 1.0177) by (unfold tol9 in R2; apply Rabs_le_inv in R2; lra).
    destruct (nrel_ecf_D v tm R1 Bv) as (ecf & F1 & F2). destruct (radius_of_ecf v ecf Bv F2) as [Pe Re]. set (Rad := / sqrt ecf) in *.
    assert (Se : 0 < sqrt ecf) by (apply sqrt_lt_R0; lra).
    exists d, eot, ecf. split; [exact D1|]. split; [exact T1|]. split; [exact F1|]. split; [exact D2|]. split; [exact T2|]. split.
    { assert (X : Rabs (1 / v ^ 2 - n_ecf s) <= 1 / 100000000000); [|assert (Y := tri3 _ _ _ _ _ F2 X); unfold tol9; lra].
      unfold n_ecf. set (q := n_R s) in *. replace (1 / v ^ 2 - #1 / q ^ 2) with ((q - v) * ((q + v) * (/ v * / v * (/ q * / q)))) by (q2; field; lra).
      rewrite Rabs_mult, (Rabs_minus_sym q).
      assert (I1 : 0 < / v <= 1.02) by (split; [apply Rinv_0_lt_compat; lra|rewrite <- (Rinv_inv 1.02); apply Rinv_le_contravar; lra]).
      assert (I2 : 0 < / q <= 1.02) by (split; [apply Rinv_0_lt_compat; lra|rewrite <- (Rinv_inv 1.02); apply Rinv_le_contravar; lra]).
      assert (J1 : 0 <= / v * / v <= 1.05) by (split; nra). assert (J2 : 0 <= / q * / q <= 1.05) by (split; nra).
      assert (J3 : 0 <= / v * / v * (/ q * / q) <= 1.11) by (split; nra).
      assert (J4 : 0 <= (q + v) * (/ v * / v * (/ q * / q)) <= 2.4) by (split; nra).
      rewrite (Rabs_pos_eq ((q + v) * _)) by lra. unfold tol9 in R2. pose proof (Rabs_pos (v - q)). nra. }
    intros la lo Bla Blo.
    assert (Bd : -0.4111 <= d <= 0.4111).
    { assert (Bw := n_delta_b s Hs Rfloor_mod). rewrite (n_delta_w Rfloor_mod floor_mod_mod_spec) in Bw. unfold tol9 in D2. apply Rabs_le_inv in D2. lra. }
    destruct (nc_alpha _ _ C) as (ka & (al & A1 & A2) & A3). destruct (nc_v _ _ C) as (kv & (v' & V1 & V2) & V3).
    assert (Bal : Rabs al <= 362) by (unfold tol9 in A2; apply Rabs_le_inv in A2, A3; apply Rabs_le; lra).
    assert (Bv' : Rabs v' <= 362) by (unfold tol9 in V2; apply Rabs_le_inv in V2, V3; apply Rabs_le; lra).
    assert (BRad : 0.9825 <= Rad <= 1.0177) by (unfold tol9 in R2; apply Rabs_le_inv in R2, Re; lra).
    assert (HR : apb (nr_R tm) Rad (qbnd 1.03) rrE).
    { rewrite R1. apply ap_fin; [eapply Rle_trans; [exact Re|] |]; unfold Rz, u90, S90;
        [let z := eval vm_compute in rrE in change rrE with z; lra|let z := eval vm_compute in (qbnd 1.03) in change (qbnd 1.03) with z; apply Rabs_le; lra]. }
    assert (Blo' : Rabs lo <= 180) by (apply Rabs_le; lra). assert (Bla' : Rabs la <= 90) by (apply Rabs_le; lra).
    set (h := (v' + lo - al) * (PI / 180)). set (phi := la * (PI / 180)).
    set (dp := t_dp (n_x phi) (n_y phi) (sin (m_xi Rad)) d h). set (hp := t_Hp (n_x phi) (sin (m_xi Rad)) d h).
    exists h, dp, hp.
    destruct (n_alpha_w Rfloor_mod floor_mod_mod_spec s) as (ja & Ja). destruct (n_v_w Rfloor_mod floor_mod_mod_spec s) as (jv & Jv).
    assert (N0 : near_turn h (m_H Rfloor_mod (n_alpha Rfloor_mod s) (n_v Rfloor_mod s) lo) (0.71 / 100000000)).
    { destruct (m_H_spec Rfloor_mod (n_alpha Rfloor_mod s) (n_v Rfloor_mod s) lo floor_mod_mod_spec) as (k1 & ->). rewrite Ja, Jv.
      exists (kv + jv - ka - ja + k1)%Z. unfold h.
      match goal with |- Rabs ?x <= _ => replace x with (((v' - (w_v s + 360 * IZR kv)) - (al - (w_ra s * (180 / PI) + 360 * IZR ka))) * (PI / 180)) by (rewrite plus_IZR, !minus_IZR, plus_IZR; field; apply PI_neq0) end.
      rewrite Rabs_mult, (Rabs_pos_eq (PI / 180)) by (pose proof PI_RGT_0; lra). pose proof pi_b. unfold tol9 in *.
      assert (Rabs ((v' - (w_v s + 360 * IZR kv)) - (al - (w_ra s * (180 / PI) + 360 * IZR ka))) <= 400 / 1000000000) by (apply Rabs_le_inv in A2, V2; apply Rabs_le; lra).
      match goal with |- ?a * _ <= _ => set (y := a) in *; pose proof (Rabs_pos ((v' - (w_v s + 360 * IZR kv)) - (al - (w_ra s * (180 / PI) + 360 * IZR ka)))) as Y0; fold y in Y0 end. nra. }
    split; [|split; [|split; [|split]]].
    - destruct (n_eot_thm Rfloor_mod floor_mod_mod_spec s Hs) as [_ (k & Hk)].
      destruct (nrel_hour Rfloor_mod t lo k floor_mod_mod_spec Hs Hk) as (k2 & Hk2). fold s in Hk2. destruct N0 as (k1 & Hk1).
      exists (k1 + k2)%Z. rewrite plus_IZR. change (n_eot Rfloor_mod s) with (w_eot s) in Hk2.
      assert (E1 : solar_hour_angle t lo (w_eot s) - solar_hour_angle t lo eot = - (eot - w_eot s) * (PI / 720)) by (unfold solar_hour_angle; field).
      assert (E2 : Rabs (- (eot - w_eot s) * (PI / 720)) <= 0.2 / 100000000).
      { rewrite Rabs_mult, Rabs_Ropp, (Rabs_pos_eq (PI / 720)) by (pose proof PI_RGT_0; lra). pose proof pi_b. unfold tol9 in T2. pose proof (Rabs_pos (eot - w_eot s)). nra. }
      rewrite <- E1 in E2. apply Rabs_le_inv in Hk1, Hk2, E2. unfold nrel_hour_tol. apply Rabs_le. lra.
    - assert (Cd := cos_d_b d Bd). assert (Hx := sx_b Rad BRad).
      destruct (topo_spec (n_x phi) (n_y phi) (sin (m_xi Rad)) d h (n_x_b la) (n_y_b la) ltac:(lra) ltac:(lra)) as (rho & Hr & K1 & K2 & K3).
      fold dp hp in K1, K2, K3. destruct (n_u_spec phi (cos_lat_pos la Bla)) as (U1 & U2 & U3).
      exists (n_u phi), rho. cbv zeta.
      assert (Ex : 8.794 / 3600 * sqrt ecf * (PI / 180) = m_xi Rad) by (unfold m_xi, Rad; q2; field; lra). rewrite Ex.
      assert (Hcd := t_dp_cos (n_x phi) (n_y phi) (sin (m_xi Rad)) d h (n_x_b la) ltac:(lra) ltac:(lra)). fold dp in Hcd.
      apply Rabs_le_inv in Hr. unfold n_x, n_y in K1, K2, K3.
      split; [exact U1|]. split; [exact U2|]. split; [exact U3|]. split; [lra|]. split; [exact Hcd|].
      split; [etransitivity; [exact K1|ring]|]. split; [exact K2|]. etransitivity; [exact K3|unfold FLAT; ring].
    - exact (proj1 (cos_dp_b d v' al Rad lo la Bd BRad)).
    - destruct N0 as (k & Hk). exists k. lra.
    - intros uc r.
      assert (X : forall res, raw D false r 0 (1 / 100000000) dp hp (sin phi) (cos phi) res -> pos64 D false r 0 nrel_tol phi dp hp res).
      { intros res Hres. eapply raw_pos with (e1 := 0) (e2 := 0) (e3 := 0); [exact Hres|rewrite Rminus_eq_0, Rabs_R0; lra|rewrite Rminus_eq_0, Rabs_R0; lra| | |]; [|unfold nrel_tol; lra|unfold nrel_tol; lra].
        exists 0%Z. replace (hp - hp - 2 * PI * 0) with 0 by ring. rewrite Rabs_R0. lra. }
      destruct uc; apply X; cbn [lib_cell lib_1d lib_2d lib_3d].
      + eapply ne_nrel_D; eassumption.
      + eapply ne_nrel_D3; eassumption.
      + eapply ne_nrel_D1; eassumption.
  Qed.
End NPos.
