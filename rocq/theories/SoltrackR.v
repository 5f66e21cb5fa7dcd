(** * SoltrackR: the soltrack modules over the reals *)

From Coq Require Import ZArith QArith Reals Bool List Lra Lia.
From Flocq Require Import Core.Raux.
From Interval Require Import Tactic.
From Verif Require Import Num Ext ExtLemmas Sky AstroTac Refraction PsaR Soltrack.
Open Scope R_scope.

Section Time.
  Variable md : R -> R -> R.        (* the engine's modulo *)
  Variable s : R.
  Definition t_JD : R := s / #86400 - #10957.5.
  Definition t_JC : R := t_JD / #36525.0.
  Definition t_JC2 : R := t_JC ^ 2.
  Definition t_l0 : R := #4.895063168 + #628.331966786 * t_JC + #5.291838e-6 * t_JC2.
  Definition t_ma : R := #6.240060141 + #628.301955152 * t_JC - #2.682571e-6 * t_JC2.
  Definition t_sec : R := (#3.34161088e-2 - #8.40725e-5 * t_JC - #2.443e-7 * t_JC2) * sin t_ma
               + (#3.489437e-4 - #1.76278e-6 * t_JC) * sin (#2 * t_ma).
  Definition t_omg : R := #2.1824390725 - #33.7570464271 * t_JC + #3.622256e-5 * t_JC2.
  Definition t_dpsi : R := (- #8.338601e-5) * sin t_omg.
  Definition t_ecc : R := #0.016708634 - #0.000042037 * t_JC - #0.0000001267 * t_JC2.
  Definition t_R : R := #1.0000010178 * (#1.0 - t_ecc ^ 2) / (#1.0 + t_ecc * cos (t_ma + t_sec)).
  Definition t_L : R := md (t_l0 + t_sec + - #9.93087e-5 / t_R + t_dpsi) (2 * PI).
  Definition t_obl : R := (#0.409092804222 - #2.26965525e-4 * t_JC - #2.86e-9 * t_JC2) + (#4.4615e-5 * cos t_omg).
  Definition t_ra0 : R := Ratan2 (cos t_obl * sin t_L) (cos t_L).
  Definition t_ra : R := md t_ra0 (2 * PI).
  Definition t_dec : R := asin (sin t_obl * sin t_L).
  Definition t_xdeg : R := (t_l0 - t_ra + t_dpsi * cos t_obl) * (180 / PI).
  Definition t_eot0 : R := md ((- #0.0057183) + t_xdeg) #360 * #4.
  Definition t_eot1 : R := where_ (Rltb t_eot0 (- #20.0)) (t_eot0 + #1440) t_eot0.
  Definition t_eot : R := where_ (Rltb #20.0 t_eot1) (t_eot1 - #1440) t_eot1.
  Definition t_ecf : R := #1 / t_R ^ 2.
  Definition t_gmst : R := #4.89496121 + #6.300388098985 * t_JD + #6.77e-6 * t_JC2.
  Definition t_agst : R := t_gmst + t_dpsi * cos t_obl.
End Time.

(** What is assumed of a modulo operator. *)
Definition mod_spec (md : R -> R -> R) : Prop :=
  forall x y, 0 < y -> exists k : Z, md x y = x - IZR k * y /\ Rabs (md x y) < y.
Lemma nem_mod_spec E : mod_spec (nem E). Proof. exact (nem_spec E). Qed.
Lemma floor_mod_mod_spec : mod_spec Rfloor_mod.
Proof.
  intros x y Hy. destruct (floor_mod_spec x y Hy) as (k & H1 & H2). exists k. split; [exact H1|].
  apply Rabs_def1; lra.
Qed.

Section Bounds.
  Variable s : R.
  Hypothesis Hs : in_ns_range s.
  Lemma t_JC_b : -3.223 <= t_JC s <= 2.623.
  Proof. exact (jdc_bounds s Hs). Qed.
  Lemma t_ecc_b : 0.0165 <= t_ecc s <= 0.0169.
  Proof. pose proof t_JC_b. unfold t_ecc, t_JC2. generalize dependent (t_JC s). intros j Hj. q2. split; interval. Qed.
  Lemma t_den_b : 0.98 <= #1.0 + t_ecc s * cos (t_ma s + t_sec s) <= 1.02.
  Proof. pose proof t_ecc_b. generalize dependent (t_ecc s). intros e He. generalize (t_ma s + t_sec s). intros x. q2; split; interval. Qed.
  Lemma t_R_b : 0.982 <= t_R s <= 1.02.
  Proof. unfold t_R. pose proof t_ecc_b. generalize dependent (t_ecc s). intros e He. generalize (t_ma s + t_sec s). intros x.
   q2. split; interval. Qed.
  Lemma t_ecf_b : 0.96 <= t_ecf s <= 1.04.
  Proof. unfold t_ecf. pose proof t_R_b. generalize dependent (t_R s). intros r Hr. q2. split; interval. Qed.
  Lemma t_obl_b : 0.408 <= t_obl s <= 0.41.
  Proof. pose proof t_JC_b. unfold t_obl, t_JC2. generalize dependent (t_JC s). intros j Hj. generalize (t_omg s). intros o. q2. split; interval. Qed.
  Lemma t_den_nz : #1.0 + t_ecc s * cos (t_ma s + t_sec s) <> 0.
  Proof. pose proof t_den_b. lra. Qed.
  Lemma t_R_nz : t_R s <> 0.
  Proof. pose proof t_R_b. lra. Qed.
  Lemma t_R2_nz : t_R s ^ 2 <> 0.
  Proof. pose proof t_R_b. nra. Qed.
  Lemma t_dec_b md : -0.41 <= t_dec md s <= 0.41.
  Proof.
    pose proof t_obl_b. unfold t_dec. assert (1.57 < PI / 2) by interval.
    pose proof (asin_sinsin (t_obl s) (t_L md s)). lra.
  Qed.
End Bounds.
Global Hint Resolve t_den_nz t_R_nz t_R2_nz : nz.

Lemma ne_soltrack_time_R E s : in_ns_range s ->
  ne_soltrack_time (O := ExtOps E) (Fin s) =
  {| st_agst := Fin (t_agst s); st_ra := Fin (t_ra (nem E) s); st_dec := Fin (t_dec (nem E) s);
     st_ecf := Fin (t_ecf s); st_eot := Fin (t_eot (nem E) s) |}.
Proof.
  intros Hs. cbv beta delta [ne_soltrack_time].
  step (t_JD s). step (t_JC s). step (t_JC2 s). step (t_l0 s). step (t_ma s). step (t_sec s). step (t_omg s).
  step (t_dpsi s). step (t_ecc s). step (t_R s). step (t_L (nem E) s). step (t_obl s).
  stepg (sin (t_L (nem E) s)). 1:{ reflexivity. }
  stepg (cos (t_L (nem E) s)). 1:{ reflexivity. }
  stepg (cos (t_obl s)). 1:{ reflexivity. }
  stepg (sin (t_obl s)). 1:{ reflexivity. }
  stepg (t_ra (nem E) s). 1:{ unfold t_ra, t_ra0. fin_all. reflexivity. }
  step (t_dec (nem E) s). step (t_xdeg (nem E) s). step (t_eot0 (nem E) s). step (t_eot1 (nem E) s). step (t_eot (nem E) s).
  step (t_ecf s). step (t_gmst s). step (t_agst s). reflexivity.
Qed.

Lemma py_soltrack_time_R E s : in_ns_range s ->
  py_soltrack_time (O := ExtOps E) (Fin s) =
  {| st_agst := Fin (t_agst s); st_ra := Fin (t_ra Rfloor_mod s); st_dec := Fin (t_dec Rfloor_mod s);
     st_ecf := Fin (t_ecf s); st_eot := Fin (t_eot Rfloor_mod s) |}.
Proof.
  intros Hs. cbv beta delta [py_soltrack_time].
  step (t_JD s). step (t_JC s). step (t_JC2 s). step (t_l0 s). step (t_ma s). step (t_sec s).
  stepg (t_l0 s + t_sec s). 1:{ reflexivity. }
  step (t_omg s). step (t_dpsi s). step (t_ecc s).
  stepg (t_ma s + t_sec s). 1:{ reflexivity. }
  step (t_R s).
  stepg (- #9.93087e-5 / t_R s). 1:{ fin_all. reflexivity. }
  step (t_L Rfloor_mod s).
  stepg (#0.409092804222 - #2.26965525e-4 * t_JC s - #2.86e-9 * t_JC2 s). 1:{ reflexivity. }
  stepg (#4.4615e-5 * cos (t_omg s)). 1:{ reflexivity. }
  step (t_obl s).
  stepg (sin (t_L Rfloor_mod s)). 1:{ reflexivity. }
  stepg (cos (t_L Rfloor_mod s)). 1:{ reflexivity. }
  stepg (cos (t_obl s)). 1:{ reflexivity. }
  stepg (sin (t_obl s)).
  1:{ pose proof (t_obl_b s Hs) as Ho. assert (0 < sin (t_obl s)) by (apply sin_gt_0; assert (3 < PI) by interval; lra).
      pose proof (sc1 (t_obl s)). qs. replace (1 - cos (t_obl s) ^ 2) with (sin (t_obl s) * sin (t_obl s)) by lra.
      rewrite fin_sqrt by nra. rewrite sqrt_square by lra. reflexivity. }
  stepg (t_ra Rfloor_mod s). 1:{ unfold t_ra, t_ra0. fin_all. reflexivity. }
  step (t_dec Rfloor_mod s). step (t_xdeg Rfloor_mod s). step (t_eot0 Rfloor_mod s). step (t_eot1 Rfloor_mod s). step (t_eot Rfloor_mod s).
  step (t_ecf s). step (t_gmst s). step (t_agst s). reflexivity.
Qed.

(** ** The equation of time *)
Section Eot.
  Variable md : R -> R -> R.
  Hypothesis Hmd : mod_spec md.
  Variable s : R.
  Hypothesis Hs : in_ns_range s.

  Lemma t_L_l : exists k : Z, Rabs (t_l0 s - t_L md s - 2 * PI * IZR k) <= 0.0344.
  Proof.
    unfold t_L. destruct (Hmd (t_l0 s + t_sec s + - #9.93087e-5 / t_R s + t_dpsi s) (2 * PI)) as (k & -> & _).
    { pose proof PI_RGT_0; lra. }
    exists k. pose proof (t_R_b s Hs) as HR. pose proof (t_JC_b s Hs) as HJ.
    replace (t_l0 s - _ - _) with (- t_sec s + #9.93087e-5 / t_R s - t_dpsi s) by (field; lra).
    unfold t_sec, t_dpsi, t_JC2. generalize dependent (t_R s). intros r Hr.
    generalize (t_ma s) (t_omg s). intros m o. generalize dependent (t_JC s). intros j Hj. q2. interval.
  Qed.

  Lemma t_eot_thm : Rabs (t_eot md s) <= 18 /\
    exists k : Z, t_eot md s = 4 * ((t_l0 s - t_ra md s + t_dpsi s * cos (t_obl s)) * (180 / PI) - 0.0057183) + 1440 * IZR k.
  Proof.
    pose proof PI_RGT_0 as HP. destruct t_L_l as (k0 & Hk0).
    destruct (Hmd (t_ra0 md s) (2 * PI)) as (k1 & Hk1 & _); [lra|]. fold (t_ra md s) in Hk1.
    assert (Hep : 0.917 <= cos (t_obl s) <= 1).
    { pose proof (t_obl_b s Hs). generalize dependent (t_obl s). intros x Hx. interval. }
    destruct (reduction_small (cos (t_obl s)) (t_L md s) Hep) as (k3 & Hk3). fold (t_ra0 md s) in Hk3.
    set (c := #0.0057183 * (PI / 180)).
    set (e := t_l0 s - t_ra0 md s - 2 * PI * IZR (k0 + k3) + t_dpsi s * cos (t_obl s) - c).
    assert (He : Rabs e <= 0.0781).
    { replace e with ((t_l0 s - t_L md s - 2 * PI * IZR k0) + (t_L md s - t_ra0 md s - 2 * PI * IZR k3)
        + (t_dpsi s * cos (t_obl s) - c)) by (unfold e; rewrite plus_IZR; ring).
      eapply Rle_trans; [apply Rabs_triang|].
      assert (Rabs (t_dpsi s * cos (t_obl s) - c) <= 0.00019).
      { unfold t_dpsi, c. generalize (t_omg s) (t_obl s). intros o b. q2. interval. }
      pose proof (Rabs_triang (t_l0 s - t_L md s - 2 * PI * IZR k0) (t_L md s - t_ra0 md s - 2 * PI * IZR k3)). lra. }
    assert (Hm : Rabs (4 * e * (180 / PI)) <= 18).
    { rewrite rad_minutes_abs. assert (0 <= 720 / PI <= 229.2) by (split; interval). assert (0 <= Rabs e) by apply Rabs_pos. nra. }
    set (m := 4 * e * (180 / PI)) in *.
    destruct (Hmd (- #0.0057183 + t_xdeg md s) #360) as (k2 & Hk2 & Hb2); [q2r|].
    assert (E : t_eot md s = m).
    { unfold t_eot, t_eot1. qs. apply (eot_wrap_lt_first _ m (k0 + k3 + k1 - k2)%Z); [| lra |].
      - unfold t_eot0. qs. rewrite Hk2. unfold t_xdeg. rewrite Hk1. unfold m, e, c. rewrite ?minus_IZR, ?plus_IZR. qs. field. lra.
      - unfold t_eot0. qs. rewrite Rabs_mult, (Rabs_pos_eq 4) by lra. lra. }
    split; [rewrite E; lra|]. exists (- (k0 + k3 + k1))%Z. rewrite E. unfold m, e, c.
    rewrite Hk1.
    rewrite ?opp_IZR, ?plus_IZR. field. lra.
  Qed.
End Eot.
