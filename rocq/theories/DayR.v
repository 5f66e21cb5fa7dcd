(** * DayR: between sunrise and sunset (reals and integers only) *)
From Coq Require Import ZArith Reals Lra Lia.
From Flocq Require Import Core.Raux.
From Interval Require Import Tactic.
From Verif Require Import Num Ext Sky AstroSpec SunposSpec AlmanacPos SmoothR AstroTac.
Open Scope R_scope.

Lemma near_turn_add x y z a b : near_turn x y a -> near_turn y z b -> near_turn x z (a + b).
Proof.
  intros (k & K) (l & L). exists (k + l)%Z. rewrite plus_IZR. replace (x - z - 2 * PI * (IZR k + IZR l)) with ((x - y - 2 * PI * IZR k) + (y - z - 2 * PI * IZR l)) by ring.
  eapply Rle_trans; [apply Rabs_triang|]. lra.
Qed.
Lemma near_turn_sym x y a : near_turn x y a -> near_turn y x a.
Proof.
  intros (k & K). exists (- k)%Z. rewrite opp_IZR, <- Rabs_Ropp. replace (- (y - x - 2 * PI * - IZR k)) with (x - y - 2 * PI * IZR k) by ring. exact K.
Qed.
(** A component is no longer than the vector. *)
Lemma up_dist s w u s' w' u' : Rabs (u - u') <= dist (s, w, u) (s', w', u').
Proof.
  unfold dist, norm. rewrite <- sqrt_Rsqr_abs. apply sqrt_le_1_alt. cbn. unfold Rsqr.
  assert (0 <= (s - s') * (s - s')) by (apply Rle_0_sqr). assert (0 <= (w - w') * (w - w')) by (apply Rle_0_sqr). lra.
Qed.
Lemma height_close z a phi d h d' h' c e : dist (sky z a) (hor phi d h) <= c -> near_turn h h' e ->
  Rabs (cos z - sun_U phi d' h') <= c + Rabs (d - d') + e.
Proof.
  intros D N. eapply Rle_trans; [apply (up_dist (sin z * cos a) (sin z * sin a) (cos z) (sun_S phi d' h') (sun_W phi d' h'))|].
  eapply Rle_trans; [apply (dist_tri _ (hor phi d h))|]. assert (H := dist_hor phi d h d' h' e N). unfold sky, hor in *. lra.
Qed.
Lemma U_even phi d h : sun_U phi d (- h) = sun_U phi d h.
Proof. unfold sun_U. now rewrite cos_neg. Qed.
Lemma near_self h h' : near_turn h h' (Rabs (h - h')).
Proof. exists 0%Z. rewrite Rmult_0_r, Rminus_0_r. lra. Qed.
Lemma U_lip phi d h h' : Rabs (sun_U phi d h - sun_U phi d h') <= Rabs (h - h').
Proof.
  assert (H := dist_hor phi d h d h' _ (near_self h h')). rewrite Rminus_diag_eq, Rabs_R0 in H by reflexivity.
  eapply Rle_trans; [apply (up_dist (sun_S phi d h) (sun_W phi d h) _ (sun_S phi d h') (sun_W phi d h'))|]. unfold hor in H. lra.
Qed.

(** The hour angle of the true solar time agrees with that of the instant to the second. *)
Lemma tst_hour t tst lo eot : Rabs (IZR (tst - t) - (4 * lo + eot) * 60000000000) < 3000 ->
  near_turn (hour_angle tst) (solar_hour_angle t lo eot) 0.00007273.
Proof.
  intros H. unfold hour_angle, solar_hour_angle, day_hours, utc_hours, rad.
  assert (M1 : IZR (tst mod 86400000000000) = IZR tst - 86400000000000 * IZR (tst / 86400000000000)) by (rewrite <- mult_IZR, <- minus_IZR; f_equal; pose proof (Z.div_mod tst 86400000000000 ltac:(lia)); lia).
  assert (M2 : IZR (t / 1000000000 mod 86400) = IZR (t / 1000000000) - 86400 * IZR (t / 1000000000 / 86400)) by (rewrite <- mult_IZR, <- minus_IZR; f_equal; pose proof (Z.div_mod (t / 1000000000) 86400 ltac:(lia)); lia).
  assert (M3 : 0 <= IZR t - 1000000000 * IZR (t / 1000000000) <= 1000000000).
  { rewrite <- mult_IZR, <- minus_IZR. pose proof (Z.div_mod t 1000000000 ltac:(lia)). pose proof (Z.mod_pos_bound t 1000000000 ltac:(lia)). split; apply IZR_le; lia. }
  exists (t / 1000000000 / 86400 - tst / 86400000000000)%Z. rewrite M1, M2, minus_IZR. rewrite minus_IZR in H. apply Rabs_lt_inv in H.
  set (q := IZR (tst / _)) in *. set (r := IZR (_ / 86400)) in *. set (s := IZR (t / _)) in *.
  replace (_ - _ - _) with ((IZR tst / 1000000000 - s - (4 * lo + eot) * 60) * (PI / 43200)) by field.
  rewrite Rabs_mult, (Rabs_pos_eq (PI / 43200)) by interval.
  assert (B : Rabs (IZR tst / 1000000000 - s - (4 * lo + eot) * 60) <= 1.000004) by (apply Rabs_le; lra).
  assert (P : PI / 43200 <= 0.0000727221) by interval. pose proof (Rabs_pos (IZR tst / 1000000000 - s - (4 * lo + eot) * 60)).
  eapply Rle_trans; [apply Rmult_le_compat; [lra|interval|exact B|exact P]|]. lra.
Qed.

Lemma hour_angle_b tst : Rabs (hour_angle tst) <= PI.
Proof.
  unfold hour_angle, day_hours, rad. assert (B := Z.mod_pos_bound tst 86400000000000 ltac:(lia)).
  assert (B1 : 0 <= IZR (tst mod 86400000000000) <= 86400000000000) by (split; apply IZR_le; lia). pose proof PI_RGT_0.
  set (x := IZR (tst mod _)) in *. replace (15 * (x / 3600000000000 - 12) * (PI / 180)) with ((x / 43200000000000 - 1) * PI) by field.
  rewrite Rabs_mult, (Rabs_pos_eq PI) by lra. rewrite <- (Rmult_1_l PI) at 2; apply Rmult_le_compat_r; [lra|]. apply Rabs_le. lra.
Qed.

(** Sunrise [ru] and sunset [su] belong to the half-day [w] (degrees) around the solar noon of the day of [tst]. *)
Section Core.
  Variables (phi d w dl lo eot e : R) (t tst rt ru st su : Z).
  Hypothesis Hw : 0 <= w.
  Hypothesis Hdl : Rabs (dl - 2 * w / 15) <= / 10 ^ 13.
  Hypothesis Htst : Rabs (IZR (tst - t) - (4 * lo + eot) * 60000000000) < 3000.
  Hypothesis Hru : Rabs (IZR (rt - ru) - (4 * lo + eot) * 60000000000) < 3.
  Hypothesis Hlen : (su - ru = st - rt)%Z.
  Hypothesis Hrt : Rabs (IZR rt - (IZR (midnight_of tst) + (12 - dl / 2) * 3600000000000)) < 3.
  Hypothesis Hst : Rabs (IZR st - (IZR (midnight_of tst) + (12 + dl / 2) * 3600000000000)) < 3.
  Hypothesis He : 0 <= e.
  Hypothesis HUw : Rabs (sun_U phi d (rad w)) <= e.
  Hypothesis HU : forall h, Rabs h <= PI -> (Rabs h <= rad w -> - e <= sun_U phi d h) /\ (rad w <= Rabs h -> sun_U phi d h <= e).
  Let H := hour_angle tst.
  Lemma H_deg : H = rad ((IZR tst - IZR (midnight_of tst)) / 240000000000 - 180).
  Proof. unfold H, hour_angle, day_hours, midnight_of, rad. rewrite minus_IZR. field. Qed.
  Lemma outside : (t < ru \/ su < t)%Z -> sun_U phi d H <= e + / 10 ^ 8.
  Proof.
    intros O. assert (BH := hour_angle_b tst). fold H in BH. pose proof PI_RGT_0.
    assert (W : rad w - / 10 ^ 8 <= Rabs H).
    { apply Rabs_lt_inv in Htst, Hru, Hrt, Hst. apply Rabs_le_inv in Hdl. rewrite minus_IZR in Htst, Hru.
      assert (Q : forall x y, x <= y + / 10 ^ 7 -> rad x - / 10 ^ 8 <= rad y). { intros x y Hxy. unfold rad. assert (PI / 180 <= 0.02) by interval. nra. }
      rewrite H_deg. set (X := (IZR tst - IZR (midnight_of tst)) / 240000000000 - 180).
      destruct O as [O|O].
      - apply IZR_lt in O. replace (Rabs (rad X)) with (Rabs (- rad X)) by apply Rabs_Ropp. eapply Rle_trans; [|apply Rle_abs]. replace (- rad X) with (rad (- X)) by (unfold rad; ring). apply Q. unfold X. lra.
      - assert (E1 : IZR su - IZR ru = IZR st - IZR rt) by (rewrite <- !minus_IZR; now f_equal). apply IZR_lt in O. eapply Rle_trans; [|apply Rle_abs]. apply Q. unfold X. lra. }
    destruct (Rle_or_lt (rad w) (Rabs H)) as [L|L]; [pose proof (proj2 (HU H BH) L); lra|].
    assert (E1 : sun_U phi d H = sun_U phi d (Rabs H)) by (unfold Rabs; destruct (Rcase_abs H); [now rewrite U_even|reflexivity]).
    assert (L1 := U_lip phi d (Rabs H) (rad w)). rewrite <- E1 in L1. rewrite (Rabs_left1 (Rabs H - rad w)) in L1 by lra. apply Rabs_le_inv in L1, HUw. lra.
  Qed.
  Lemma inside : (ru <= t <= su)%Z -> - e - / 10 ^ 8 <= sun_U phi d H.
  Proof.
    intros [O1 O2]. assert (BH := hour_angle_b tst). fold H in BH. pose proof PI_RGT_0.
    assert (W : Rabs H <= rad w + / 10 ^ 8).
    { apply Rabs_lt_inv in Htst, Hru, Hrt, Hst. apply Rabs_le_inv in Hdl. rewrite minus_IZR in Htst, Hru.
      assert (Q : forall x y, x <= y + / 10 ^ 7 -> rad x <= rad y + / 10 ^ 8). { intros x y Hxy. unfold rad. assert (PI / 180 <= 0.02) by interval. nra. }
      rewrite H_deg. set (X := (IZR tst - IZR (midnight_of tst)) / 240000000000 - 180). apply IZR_le in O1, O2.
      assert (E1 : IZR su - IZR ru = IZR st - IZR rt) by (rewrite <- !minus_IZR; now f_equal).
      apply Rabs_le. split.
      - assert (Y := Q (- X) w). replace (rad (- X)) with (- rad X) in Y by (unfold rad; ring). apply Ropp_le_cancel. rewrite Ropp_involutive. apply Y. unfold X. lra.
      - apply Q. unfold X. lra. }
    destruct (Rle_or_lt (Rabs H) (rad w)) as [L|L]; [pose proof (proj1 (HU H BH) L); lra|].
    assert (E1 : sun_U phi d H = sun_U phi d (Rabs H)) by (unfold Rabs; destruct (Rcase_abs H); [now rewrite U_even|reflexivity]).
    assert (L1 := U_lip phi d (Rabs H) (rad w)). rewrite <- E1 in L1. rewrite (Rabs_pos_eq (Rabs H - rad w)) in L1 by lra. apply Rabs_le_inv in L1, HUw. lra.
  Qed.
  (** At the two instants themselves the hour angle is that of the horizon. *)
  Lemma at_rise : near_turn (solar_hour_angle ru lo eot) (- rad w) 0.00007274.
  Proof.
    assert (N := tst_hour ru (ru + (rt - ru)) lo eot). replace (ru + (rt - ru) - ru)%Z with (rt - ru)%Z in N by lia. specialize (N ltac:(lra)).
    replace (ru + (rt - ru))%Z with rt in N by lia. replace 0.00007274 with (0.00007273 + 0.00000001) by lra. eapply near_turn_add; [exact (near_turn_sym _ _ _ N)|].
    exists ((midnight_of tst / 86400000000000) - rt / 86400000000000)%Z.
    assert (M1 : IZR (rt mod 86400000000000) = IZR rt - 86400000000000 * IZR (rt / 86400000000000)) by (rewrite <- mult_IZR, <- minus_IZR; f_equal; pose proof (Z.div_mod rt 86400000000000 ltac:(lia)); lia).
    assert (M2 : IZR (midnight_of tst) = 86400000000000 * IZR (midnight_of tst / 86400000000000)).
    { rewrite <- mult_IZR. f_equal. unfold midnight_of. pose proof (Z.div_mod tst 86400000000000 ltac:(lia)). replace (tst - tst mod 86400000000000)%Z with (tst / 86400000000000 * 86400000000000)%Z by lia. rewrite Z.div_mul by lia. lia. }
    unfold hour_angle, day_hours, rad. rewrite M1, minus_IZR. apply Rabs_lt_inv in Hrt. apply Rabs_le_inv in Hdl.
    set (q := IZR (rt / _)) in *. set (r := IZR (midnight_of tst / _)) in *.
    replace (_ - _ - _) with ((IZR rt / 240000000000 - 360 * r - 180 + w) * (PI / 180)) by field.
    rewrite Rabs_mult, (Rabs_pos_eq (PI / 180)) by interval. assert (B : Rabs (IZR rt / 240000000000 - 360 * r - 180 + w) <= 0.0000001) by (apply Rabs_le; lra).
    assert (P : 0 <= PI / 180 <= 0.1) by (split; interval). pose proof (Rabs_pos (IZR rt / 240000000000 - 360 * r - 180 + w)). nra.
  Qed.
  Lemma at_set : near_turn (solar_hour_angle su lo eot) (rad w) 0.00007274.
  Proof.
    assert (N := tst_hour su (su + (rt - ru)) lo eot). replace (su + (rt - ru) - su)%Z with (rt - ru)%Z in N by lia. specialize (N ltac:(lra)).
    replace (su + (rt - ru))%Z with st in N by lia. replace 0.00007274 with (0.00007273 + 0.00000001) by lra. eapply near_turn_add; [exact (near_turn_sym _ _ _ N)|].
    exists ((midnight_of tst / 86400000000000) - st / 86400000000000)%Z.
    assert (M1 : IZR (st mod 86400000000000) = IZR st - 86400000000000 * IZR (st / 86400000000000)) by (rewrite <- mult_IZR, <- minus_IZR; f_equal; pose proof (Z.div_mod st 86400000000000 ltac:(lia)); lia).
    assert (M2 : IZR (midnight_of tst) = 86400000000000 * IZR (midnight_of tst / 86400000000000)).
    { rewrite <- mult_IZR. f_equal. unfold midnight_of. pose proof (Z.div_mod tst 86400000000000 ltac:(lia)). replace (tst - tst mod 86400000000000)%Z with (tst / 86400000000000 * 86400000000000)%Z by lia. rewrite Z.div_mul by lia. lia. }
    unfold hour_angle, day_hours, rad. rewrite M1, minus_IZR. apply Rabs_lt_inv in Hst. apply Rabs_le_inv in Hdl.
    set (q := IZR (st / _)) in *. set (r := IZR (midnight_of tst / _)) in *.
    replace (_ - _ - _) with ((IZR st / 240000000000 - 360 * r - 180 - w) * (PI / 180)) by field.
    rewrite Rabs_mult, (Rabs_pos_eq (PI / 180)) by interval. assert (B : Rabs (IZR st / 240000000000 - 360 * r - 180 - w) <= 0.0000001) by (apply Rabs_le; lra).
    assert (P : 0 <= PI / 180 <= 0.1) by (split; interval). pose proof (Rabs_pos (IZR st / 240000000000 - 360 * r - 180 - w)). nra.
  Qed.
  Lemma gaps : w <= 180.1 -> (Z.abs (ru - t) <= 86450000000000)%Z /\ (Z.abs (su - t) <= 86450000000000)%Z.
  Proof.
    intros Bw. apply Rabs_lt_inv in Htst, Hru, Hrt, Hst. apply Rabs_le_inv in Hdl. rewrite minus_IZR in Htst, Hru.
    assert (B := Z.mod_pos_bound tst 86400000000000 ltac:(lia)). assert (M : 0 <= IZR tst - IZR (midnight_of tst) <= 86400000000000) by (unfold midnight_of; rewrite <- minus_IZR; split; apply IZR_le; lia).
    assert (E1 : IZR su - IZR ru = IZR st - IZR rt) by (rewrite <- !minus_IZR; now f_equal).
    split; apply le_IZR; rewrite abs_IZR, minus_IZR; apply Rabs_le; lra.
  Qed.
End Core.
