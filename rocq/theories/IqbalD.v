(** * IqbalD: iqbal in double precision *)

From Coq Require Import ZArith QArith Reals Bool List Lra Lia.
From Flocq Require Import Core.Raux.
From Interval Require Import Tactic.
From Verif Require Import Num Ext ExtLemmas Sky SkyClose AstroTac AstroSpec SingleSpec Double DoubleTac DoubleLemmas
  Calendar CalendarSpec CalendarLemmas CalendarSweep Psa PsaR PsaD Iqbal IqbalR.
Open Scope R_scope.

Lemma i_doy_b s : (1 <= i_doy s <= 366)%Z.
Proof.
  unfold i_doy. rewrite civil_day. destruct (civil_of_day (s / 86400)) as [[y m] d] eqn:E. assert (C := civil_spec _ _ _ _ E).
  destruct C as (_ & _ & ->). unfold civil_of_day in E. destruct (days_to_yearsdays (s / 86400)) as [y' yd] eqn:Ey.
  apply ytd_spec in Ey as [E1 B]. destruct (month_loop _ 1 yd) as [m' d']. injection E as <- _ _. unfold year_length in B. destruct (leap y'); lia.
Qed.

Record iq_close (s : Z) (t : iq_time) : Prop := {
  ic_std : near (iq_std t) (i_std s) tol9;
  ic_ecf : near (iq_ecf t) (i_ecf s) tol9;
  ic_eot : near (iq_eot t) (i_eoth s) tol9;
  ic_dec : near (iq_dec t) (i_dec s) tol9 }.

Ltac nap D HD := lazymatch goal with |- near ?x _ _ => let H := fresh in eassert (H : apb x _ _ _) by (ap D HD); norm_in H; eapply apb_near; [exact H|tol] end.

Section Iqbal.
  Variable D : Env64.
  Hypothesis HD : double_like D.

  Lemma small_ap z n : (0 <= z <= n)%Z -> (n <= 2 ^ 53)%Z -> apb (ofZ (Ops := DoubleOps D) z) (IZR z) (n * S90) 0.
  Proof.
    intros H Hn. apply (ap_ofZ D HD); [apply Z.abs_le; lia|]. rewrite Rz_k. rewrite Rabs_pos_eq by (apply IZR_le; lia). apply IZR_le; lia.
  Qed.
  Lemma hms_b s : (0 <= hour_of s <= 23)%Z /\ (0 <= minute_of s <= 59)%Z /\ (0 <= second_of s <= 59)%Z.
  Proof. unfold hour_of, minute_of, second_of. Z.div_mod_to_equations. lia. Qed.

  Lemma ne_iqbal_time_D s : iq_close s (ne_iqbal_time (O := DoubleOps D) s).
  Proof.
    unfold ne_iqbal_time. assert (B := i_doy_b s). unfold i_doy in B. destruct (civil_of_seconds s) as [[y m] d] eqn:Ec.
    destruct (hms_b s) as (Bh & Bm & Bs).
    assert (Hh := small_ap _ 23 Bh ltac:(vm_compute; discriminate)). assert (Hm := small_ap _ 59 Bm ltac:(vm_compute; discriminate)).
    assert (Hs := small_ap _ 59 Bs ltac:(vm_compute; discriminate)). assert (Hd := small_ap (day_of_year y m d) 366 ltac:(lia) ltac:(vm_compute; discriminate)).
    norm_in Hh. norm_in Hm. norm_in Hs. norm_in Hd.
    generalize dependent (ofZ (Ops := DoubleOps D) (hour_of s)). intros h Hh.
    generalize dependent (ofZ (Ops := DoubleOps D) (minute_of s)). intros mi Hm.
    generalize dependent (ofZ (Ops := DoubleOps D) (second_of s)). intros se Hs.
    lazymatch goal with |- _ {| iq_std := ?a; iq_ecf := _; iq_eot := _; iq_dec := _ |} =>
      eassert (Hst : apb a _ _ _) by (ap D HD); norm_in Hst; generalize dependent a; intros st Hst end. fold (i_std s) in Hst. cbv beta zeta delta [ne_day_angle]. generalize dependent (ofZ (Ops := DoubleOps D) (day_of_year y m d)). intros dy Hd.
    replace (IZR (day_of_year y m d)) with (IZR (i_doy s)) in Hd by (unfold i_doy; now rewrite Ec).
    lazymatch goal with |- _ {| iq_std := _; iq_ecf := ne_eccentricity_correction_factor ?a; iq_eot := _; iq_dec := _ |} =>
      eassert (Ha : apb a _ _ _) by (ap D HD); norm_in Ha; generalize dependent a; intros a0 Ha end.
    change (2 * PI * (IZR (i_doy s) + i_std s / #24.0) / #365.0) with (i_ang s) in Ha.
    unfold ne_eccentricity_correction_factor, ne_equation_of_time, ne_solar_declination.
    constructor; cbn [iq_std iq_ecf iq_eot iq_dec].
    - eapply apb_near; [eassumption|tol].
    - unfold i_ecf, i_ecf0. nap D HD.
    - unfold i_eoth, i_eot0. nap D HD.
    - unfold i_dec, i_dec0. nap D HD.
  Qed.
  Lemma py_iqbal_time_D s : iq_close s (py_iqbal_time (O := DoubleOps D) s).
  Proof.
    replace (py_iqbal_time (O := DoubleOps D) s) with (ne_iqbal_time (O := DoubleOps D) s); [apply ne_iqbal_time_D|].
    unfold py_iqbal_time, ne_iqbal_time. generalize (hour_of s) (minute_of s) (second_of s) (civil_of_seconds s). intros h mi se [[y m] d].
    unfold py_day_angle, py_eccentricity_correction_factor, py_equation_of_time, py_solar_declination,
      ne_day_angle, ne_eccentricity_correction_factor, ne_equation_of_time, ne_solar_declination. reflexivity.
  Qed.
End Iqbal.
