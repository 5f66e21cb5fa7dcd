(** * PsaR: the psa modules over the reals *)

From Coq Require Import ZArith QArith Reals Bool List Lra Lia.
From Flocq Require Import Core.Raux.
From Interval Require Import Tactic.
From Verif Require Import Num Ext ExtLemmas Sky AstroTac Psa.
Open Scope R_scope.

Lemma eTWOPI E : TWOPI (O := ExtOps E) = Fin (2 * PI).
Proof. unfold TWOPI, PI_. ext_ops. fin. f_equal. q2r. Qed.
Lemma eHALFPI E : HALFPI (O := ExtOps E) = Fin (PI / 2).
Proof. unfold HALFPI, PI_. ext_ops. fin. f_equal. q2r. Qed.
Lemma eRAD2DEG E : RAD2DEG (O := ExtOps E) = Fin (180 / PI).
Proof. unfold RAD2DEG. ext_ops. fin. f_equal. q2r. Qed.
Lemma eDEG2RAD E : DEG2RAD (O := ExtOps E) = Fin (PI / 180).
Proof. unfold DEG2RAD. ext_ops. fin. f_equal. q2r. Qed.
Lemma ePI E : PI_ (O := ExtOps E) = Fin PI.
Proof. reflexivity. Qed.
Global Hint Rewrite eTWOPI eHALFPI eRAD2DEG eDEG2RAD ePI : fin.

Section Psa.
  Variable md : R -> R -> R.        (* the engine's modulo *)
  Variable s : R.                   (* seconds since 1970 *)
  Definition p_jde : R := s / #86400 - #10957.5.
  Definition p_dh : R := md (s / #86400) #1 * #24.
  Definition p_gmst : R := #6.697096103 + #6.570984737e-2 * p_jde + p_dh.
  Definition p_omega : R := #2.267127827 - #9.300339267e-4 * p_jde.
  Definition p_L : R := #4.895036035 + #1.720279602e-2 * p_jde.
  Definition p_g : R := #6.239468336 + #1.720200135e-2 * p_jde.
  Definition p_l : R := p_L - #1.544353226e-4 + #3.338320972e-2 * sin p_g
                        + #3.497596876e-4 * sin (#2 * p_g) - #8.689729360e-6 * sin p_omega.
  Definition p_ep : R := #4.090904909e-1 - #6.213605399e-9 * p_jde + #4.418094944e-5 * cos p_omega.
  Definition p_ra0 : R := Ratan2 (cos p_ep * sin p_l) (cos p_l).
  Definition p_ra : R := where_ (Rltb p_ra0 #0) (p_ra0 + 2 * PI) p_ra0.
  Definition p_delta : R := asin (sin p_ep * sin p_l).
  Definition p_dX : R := IZR (Ztrunc (Rabs p_L / (2 * PI))).
  Definition p_eot0 : R := #4 * (p_L + 2 * PI * where_ (Rltb p_L #0.0) (#1.0 + p_dX) (- p_dX) - p_ra) * (180 / PI).
  Definition p_eot1 : R := where_ (Rltb #20.0 p_eot0) (p_eot0 - #1440.0) p_eot0.
  Definition p_eot : R := where_ (Rltb p_eot1 (- #20.0)) (p_eot1 + #1440.0) p_eot1.
  Definition p_jdc : R := p_jde / #36525.0.
  Definition p_ecc : R := #0.016708634 - #0.000042037 * p_jdc - #0.0000001267 * p_jdc * p_jdc.
  Definition p_ma : R := #6.240060141 + #628.301955152 * p_jdc - #2.682571e-6 * p_jdc * p_jdc.
  Definition p_sec : R := (#3.34161088e-2 - #8.40725e-5 * p_jdc - #2.443e-7 * p_jdc * p_jdc) * sin p_ma +
               (#3.489437e-4 - #1.76278e-6 * p_jdc) * sin (#2 * p_ma).
  Definition p_R : R := #1.0000010178 * (#1.0 - p_ecc ^ 2) / (#1.0 + p_ecc * cos (p_ma + p_sec)).
  Definition p_ecf : R := #1.0 / p_R ^ 2.
End Psa.

Lemma sinsin_unit a b : -1 <= sin a * sin b <= 1.
Proof.
  pose proof (SIN_bound a). pose proof (SIN_bound b). split; nra.
Qed.
Global Hint Resolve sinsin_unit : nz.

(** In range, so that no division fails. *)
Lemma ne_psa_time_R E s :
  #1.0 + p_ecc s * cos (p_ma s + p_sec s) <> 0 -> p_R s ^ 2 <> 0 ->
  ne_psa_time (O := ExtOps E) (Fin s) =
  {| psa_delta := Fin (p_delta s); psa_ra := Fin (p_ra s); psa_gmst := Fin (p_gmst (nem E) s);
     psa_eot := Fin (p_eot s); psa_ecf := Fin (p_ecf s) |}.
Proof.
  intros H1 H2. cbv beta delta [ne_psa_time].
  step (p_jde s). step (p_dh (nem E) s). step (p_gmst (nem E) s). step (p_omega s). step (p_L s). step (p_g s).
  step (p_l s). step (p_ep s). step (p_ra0 s). step (p_ra s). step (p_delta s). step (p_dX s).
  step (p_eot0 s). step (p_eot1 s). step (p_eot s). step (p_jdc s). step (p_ecc s). step (p_ma s). step (p_sec s).
  step (p_R s). step (p_ecf s). reflexivity.
Qed.

(** ** Bounds, for every time in range *)
Section Bounds.
  Variable s : R.
  Hypothesis Hs : in_ns_range s.

  Lemma p_jde_b : -117710 <= p_jde s <= 95795.
  Proof. exact (jde_bounds s Hs). Qed.
  Lemma p_jdc_b : -3.223 <= p_jdc s <= 2.623.
  Proof. exact (jdc_bounds s Hs). Qed.
  Lemma p_ep_b : 0.408 <= p_ep s <= 0.41.
  Proof. pose proof p_jde_b. unfold p_ep. generalize dependent (p_jde s). intros j Hj. unfold Q2R; cbn [Qnum Qden].
    interval. Qed.
  Lemma p_ecc_b : 0.0165 <= p_ecc s <= 0.0169.
  Proof. pose proof p_jdc_b. unfold p_ecc. generalize dependent (p_jdc s). intros j Hj. unfold Q2R; cbn [Qnum Qden].
    interval. Qed.
  Lemma p_den_b : 0.98 <= #1.0 + p_ecc s * cos (p_ma s + p_sec s) <= 1.02.
  Proof. pose proof p_ecc_b. generalize dependent (p_ecc s). intros e He. generalize (p_ma s + p_sec s). intros x. q2r; interval. Qed.
  Lemma p_R_b : 0.982 <= p_R s <= 1.02.
  Proof. unfold p_R. pose proof p_ecc_b. generalize dependent (p_ecc s). intros e He. generalize (p_ma s + p_sec s). intros x.
   unfold Q2R; cbn [Qnum Qden]. interval. Qed.
  Lemma p_ecf_b : 0.96 <= p_ecf s <= 1.04.
  Proof. unfold p_ecf. pose proof p_R_b. generalize dependent (p_R s). intros r Hr. unfold Q2R; cbn [Qnum Qden]. interval. Qed.
End Bounds.

Section Eot.
  Variable s : R.
  Hypothesis Hs : in_ns_range s.

  Lemma p_ra_spec : 0 <= p_ra s < 2 * PI /\ exists k : Z, p_ra s = p_ra0 s + 2 * PI * IZR k.
  Proof.
    pose proof (Ratan2_range (cos (p_ep s) * sin (p_l s)) (cos (p_l s))) as H. fold (p_ra0 s) in H.
    pose proof PI_RGT_0. unfold p_ra, where_. qs. destruct (Rltb_spec (p_ra0 s) 0).
    - split; [lra|]. exists 1%Z. ring.
    - split; [lra|]. exists 0%Z. ring.
  Qed.

  (** mean longitude against ecliptic longitude *)
  Lemma p_L_l : Rabs (p_L s - p_l s) <= 0.03392.
  Proof.
    unfold p_l. generalize (p_L s) (p_g s) (p_omega s). intros L g o.
    replace (L - _) with (#1.544353226e-4 - #3.338320972e-2 * sin g - #3.497596876e-4 * sin (#2 * g)
       + #8.689729360e-6 * sin o) by ring.
    unfold Q2R; cbn [Qnum Qden]. interval.
  Qed.

  (** The mean longitude reduced to one turn. *)
  Lemma p_L_turn : exists k : Z, 
    p_L s + 2 * PI * where_ (Rltb (p_L s) #0.0) (#1.0 + p_dX s) (- p_dX s) = p_L s - 2 * PI * IZR k /\
    0 <= p_L s - 2 * PI * IZR k <= 2 * PI.
  Proof.
    pose proof PI_RGT_0. unfold p_dX, where_. qs. set (L := p_L s).
    assert (Hd : 0 <= Rabs L / (2 * PI)) by (apply Rmult_le_pos; [apply Rabs_pos|left; apply Rinv_0_lt_compat; lra]).
    rewrite Ztrunc_floor by exact Hd.
    set (n := Zfloor (Rabs L / (2 * PI))).
    assert (H1 := Zfloor_lb (Rabs L / (2 * PI))). assert (H2 := Zfloor_ub (Rabs L / (2 * PI))). fold n in H1, H2.
    assert (E : Rabs L = Rabs L / (2 * PI) * (2 * PI)) by (field; lra).
    assert (H3 : IZR n * (2 * PI) <= Rabs L) by (rewrite E; apply Rmult_le_compat_r; lra).
    assert (H4 : Rabs L < (IZR n + 1) * (2 * PI)) by (rewrite E; apply Rmult_lt_compat_r; lra).
    destruct (Rltb_spec L 0) as [Hn|Hp].
    - exists (- (1 + n))%Z. rewrite opp_IZR, plus_IZR. rewrite Rabs_left in H3, H4 by lra. split; [ring|lra].
    - exists n. rewrite Rabs_pos_eq in H3, H4 by lra. split; [ring|lra].
  Qed.

  (** The equation of time: 4 minutes per degree of (mean longitude - right ascension), up to whole days. *)
  Lemma p_eot_thm : Rabs (p_eot s) <= 17.8 /\
    exists k : Z, p_eot s = 4 * (p_L s - p_ra s) * (180 / PI) + 1440 * IZR k.
  Proof.
    pose proof PI_RGT_0 as HP.
    destruct p_ra_spec as [Hr (k1 & Hk1)]. destruct p_L_turn as (k2 & Hk2 & Hb2).
    assert (Hep : 0.917 <= cos (p_ep s) <= 1).
    { pose proof (p_ep_b s Hs). generalize dependent (p_ep s). intros x Hx. interval. }
    destruct (reduction_small (cos (p_ep s)) (p_l s) Hep) as (k3 & Hk3). fold (p_ra0 s) in Hk3.
    assert (HL := p_L_l).
    set (e := p_L s - p_ra0 s - 2 * PI * IZR k3).
    assert (He : Rabs e <= 0.0776).
    { replace e with ((p_L s - p_l s) + (p_l s - p_ra0 s - 2 * PI * IZR k3)) by (unfold e; ring).
      eapply Rle_trans; [apply Rabs_triang|]. lra. }
    assert (Hm := rad_minutes e He). set (m := 4 * e * (180 / PI)) in *.
    assert (E : p_eot s = m).
    { unfold p_eot, p_eot1. qs.
      apply (eot_wrap_gt_first _ m (k3 - k1 - k2)%Z); [| |].
      - unfold p_eot0. qs. rewrite Hk2, Hk1. unfold m, e. rewrite !minus_IZR. field. lra.
      - lra.
      - unfold p_eot0. qs. rewrite Hk2. set (d := p_L s - 2 * PI * IZR k2 - p_ra s).
        assert (Rabs d <= 2 * PI) by (apply Rabs_le; unfold d; lra).
        rewrite rad_minutes_abs. assert (2 * PI * (720 / PI) = 1440) by (field; lra).
        assert (0 < 720 / PI) by (apply Rdiv_lt_0_compat; lra). nra. }
    split; [rewrite E; exact Hm|]. exists (k1 - k3)%Z. rewrite E, Hk1. unfold m, e. rewrite minus_IZR. field. lra.
  Qed.

  Lemma p_delta_b : -0.41 <= p_delta s <= 0.41.
  Proof.
    pose proof (p_ep_b s Hs). unfold p_delta. assert (1.57 < PI / 2) by interval.
    pose proof (asin_sinsin (p_ep s) (p_l s)). lra.
  Qed.
End Eot.

Lemma py_psa_time_R E s : in_ns_range s ->
  py_psa_time (O := ExtOps E) (Fin s) =
  {| psa_delta := Fin (p_delta s); psa_ra := Fin (p_ra s); psa_gmst := Fin (p_gmst Rfloor_mod s);
     psa_eot := Fin (p_eot s); psa_ecf := Fin (p_ecf s) |}.
Proof.
  intros Hs.
  assert (H1 : #1.0 + p_ecc s * cos (p_ma s + p_sec s) <> 0) by (pose proof (p_den_b s Hs); lra).
  assert (H2 : p_R s ^ 2 <> 0) by (pose proof (p_R_b s Hs); nra).
  cbv beta delta [py_psa_time].
  step (p_jde s). step (p_dh Rfloor_mod s). step (p_omega s). step (p_L s). step (p_g s).
  step (p_l s). step (p_ep s). stepg (sin (p_l s)). 1:{ reflexivity. }
  step (p_ra0 s). stepg (p_ra s). 1:{ unfold p_ra. qs. reflexivity. } step (p_delta s). step (p_gmst Rfloor_mod s).
  step (p_jdc s). step (p_ecc s). step (p_ma s). step (p_sec s).
  step (p_R s). step (p_ecf s). step (p_dX s).
  stepg (p_eot0 s). 1:{ unfold p_eot0. f_equal. assert (E4 : #4.0 = 4) by q2r. rewrite E4. qs. ring. }
  step (p_eot1 s). step (p_eot s). reflexivity.
Qed.

Lemma ne_psa_time_R' E s : in_ns_range s ->
  ne_psa_time (O := ExtOps E) (Fin s) =
  {| psa_delta := Fin (p_delta s); psa_ra := Fin (p_ra s); psa_gmst := Fin (p_gmst (nem E) s);
     psa_eot := Fin (p_eot s); psa_ecf := Fin (p_ecf s) |}.
Proof.
  intros Hs. apply ne_psa_time_R; [pose proof (p_den_b s Hs); lra|pose proof (p_R_b s Hs); nra].
Qed.
