(** * AlmanacR: the elements computed by psa, soltrack and nrel against the almanac *)
From Coq Require Import ZArith QArith Reals Bool List String Lra Lia.
From Flocq Require Import Core.Raux.
From Interval Require Import Tactic.
From Verif Require Import Num Ext ExtLemmas Sky SkyClose AstroTac AstroSpec PsaR SoltrackR NrelR Almanac.
Open Scope R_scope.

Definition TT (s : R) : R := (s / 86400 - 10957.5) / 36525.
Lemma TT_b s : in_ns_range s -> -3.223 <= TT s <= 2.623.
Proof. intros H. assert (B := jdc_bounds s H). unfold TT. replace (#86400) with 86400 in B by q2r. replace (#36525.0) with 36525 in B by q2r. exact B. Qed.

Lemma split_abs e T c k : (0 <= T -> e - k * T <= c) -> (0 <= T -> - c <= e + k * T) -> (T <= 0 -> e + k * T <= c) -> (T <= 0 -> - c <= e - k * T) ->
  Rabs e <= c + k * Rabs T.
Proof.
  intros H1 H2 H3 H4. apply Rabs_le. unfold Rabs. destruct (Rcase_abs T);
    [specialize (H3 ltac:(lra)); specialize (H4 ltac:(lra))|specialize (H1 ltac:(lra)); specialize (H2 ltac:(lra))]; lra.
Qed.
Ltac near_T T := apply split_abs; intros; interval with (i_bisect T, i_autodiff T, i_prec 60).
Lemma unit_sin x : -1 <= sin x <= 1. Proof. apply SIN_bound. Qed.
Lemma unit_cos x : -1 <= cos x <= 1. Proof. apply COS_bound. Qed.

Lemma unit_mul x p b : -1 <= x <= 1 -> Rabs p <= b -> Rabs (x * p) <= b.
Proof. intros H1 H2. rewrite Rabs_mult. assert (Rabs x <= 1) by (apply Rabs_le; lra). assert (0 <= Rabs x) by apply Rabs_pos. assert (0 <= Rabs p) by apply Rabs_pos. nra. Qed.
Ltac unit_m b := apply (unit_mul _ _ b); [apply unit_sin || apply unit_cos|].

Ltac tri := match goal with |- Rabs (?a + ?b) <= _ => eapply Rle_trans; [apply Rabs_triang|]; eapply Rle_trans; [apply Rplus_le_compat_r; tri; apply Rle_refl|] | |- _ => idtac end.

Section Psa.
  Variable s : R.
  Hypothesis Hs : in_ns_range s.
  Let T := TT s.
  Lemma p_jde_T : p_jde s = 36525 * T.
  Proof. unfold T, TT, p_jde. q2. lra. Qed.
  Lemma psa_L_near : Rabs (p_L s - al_L0 T) <= 0.00003 + 0.00018 * Rabs T.
  Proof.
    unfold p_L, al_L0, deg. rewrite p_jde_T. assert (B := TT_b s Hs). fold T in B. generalize dependent T. clear. intros T B. q2.
    near_T T.
  Qed.
  Definition psa_dg (T : R) : R := #6.239468336 + #1.720200135e-2 * (36525 * T) - al_M T.
  Lemma psa_lon_near : Rabs (p_l s - al_lon T) <= 0.00016 + 0.00032 * Rabs T.
  Proof.
    assert (B := TT_b s Hs). fold T in B.
    assert (Eg : p_g s = al_M T + psa_dg T) by (unfold psa_dg, p_g; rewrite p_jde_T; ring).
    unfold p_l, al_lon, al_C, deg. rewrite Eg.
    assert (HL := psa_L_near). unfold al_L0, p_L, deg in *. rewrite p_jde_T in *.
    replace (#2 * (al_M T + psa_dg T)) with (2 * al_M T + 2 * psa_dg T) by (q2; lra). rewrite !sin_plus.
    set (d := psa_dg T).
    match goal with |- Rabs ?e <= _ => replace e with
      ((p_L s - al_L0 T) + (deg 0.00569 - #1.544353226e-4)
       + sin (al_M T) * (#3.338320972e-2 * cos d - deg (1.914602 - 0.004817 * T - 0.000014 * T ^ 2)) + cos (al_M T) * (#3.338320972e-2 * sin d)
       + sin (2 * al_M T) * (#3.497596876e-4 * cos (2 * d) - deg (0.019993 - 0.000101 * T)) + cos (2 * al_M T) * (#3.497596876e-4 * sin (2 * d))
       + sin (3 * al_M T) * (- deg 0.000289) + sin (p_omega s) * (- #8.689729360e-6))
      by (unfold p_L, al_L0, deg; rewrite p_jde_T; ring) end.
    tri.
    assert (D : Rabs d <= 0.0006 + 0.0012 * Rabs T) by (unfold d, psa_dg, al_M, deg; clearbody T; clear - B; q2; near_T T).
    assert (Dd : -0.005 <= d <= 0.005) by (apply Rabs_le_inv in D; assert (Rabs T <= 3.223) by (apply Rabs_le; lra); lra).
    assert (K1 : Rabs (deg 0.00569 - #1.544353226e-4) <= 0.0000552) by (unfold deg; q2; interval).
    assert (K2 : Rabs (#3.338320972e-2 * cos d - deg (1.914602 - 0.004817 * T - 0.000014 * T ^ 2)) <= 0.000034 + 0.000086 * Rabs T).
    { unfold deg. q2. clearbody T. clear - B Dd. clearbody d. near_T T. }
    assert (K3 : Rabs (#3.338320972e-2 * sin d) <= #3.338320972e-2 * Rabs d).
    { rewrite Rabs_mult, (Rabs_right #3.338320972e-2) by (q2; lra). apply Rmult_le_compat_l; [q2; lra|]. replace (sin d) with (sin d - sin 0) by (rewrite sin_0; ring).
      eapply Rle_trans; [apply sin_lip|]. rewrite Rminus_0_r. lra. }
    assert (K4 : Rabs (#3.497596876e-4 * cos (2 * d) - deg (0.019993 - 0.000101 * T)) <= 0.000001 + 0.000002 * Rabs T).
    { unfold deg. q2. clearbody T. clear - B Dd. clearbody d. near_T T. }
    assert (K5 : Rabs (#3.497596876e-4 * sin (2 * d)) <= 0.000004) by (clearbody d; clear - Dd; q2; interval).
    assert (K6 : Rabs (- deg 0.000289) <= 0.0000051) by (unfold deg; interval).
    assert (K7 : Rabs (- #8.689729360e-6) <= 0.0000087) by (q2; interval).
    apply (unit_mul (sin (al_M T))) in K2; [|apply unit_sin]. apply (unit_mul (cos (al_M T))) in K3; [|apply unit_cos].
    apply (unit_mul (sin (2 * al_M T))) in K4; [|apply unit_sin]. apply (unit_mul (cos (2 * al_M T))) in K5; [|apply unit_cos].
    apply (unit_mul (sin (3 * al_M T))) in K6; [|apply unit_sin]. apply (unit_mul (sin (p_omega s))) in K7; [|apply unit_sin].
    assert (K8 := psa_L_near). assert (#3.338320972e-2 * Rabs d <= 0.0000201 + 0.0000401 * Rabs T) by (assert (0 <= Rabs T) by apply Rabs_pos; q2; lra). assert (0 <= Rabs T) by apply Rabs_pos. lra.
  Qed.
  Lemma psa_obl_near : Rabs (p_ep s - al_obl T) <= 0.000048.
  Proof.
    unfold p_ep, al_obl, deg. rewrite p_jde_T. assert (B := TT_b s Hs). fold T in B. clearbody T. generalize (p_omega s). intros o. clear Hs. q2.
    interval with (i_bisect T, i_autodiff T, i_prec 60).
  Qed.
End Psa.

Section Soltrack.
  Variable md : R -> R -> R.
  Hypothesis Hmd : mod_spec md.
  Variable s : R.
  Hypothesis Hs : in_ns_range s.
  Let T := TT s.
  Lemma t_JC_T : t_JC s = T.
  Proof. unfold T, TT, t_JC, t_JD. q2. lra. Qed.
  Lemma sol_L_near : Rabs (t_l0 s - al_L0 T) <= 0.0000001.
  Proof.
    unfold t_l0, t_JC2, al_L0, deg. rewrite t_JC_T. assert (B := TT_b s Hs). fold T in B. clearbody T. clear Hs. q2.
    interval with (i_bisect T, i_autodiff T, i_prec 60).
  Qed.
  Definition sol_dg (T : R) : R := #6.240060141 + #628.301955152 * T - #2.682571e-6 * T ^ 2 - al_M T.
  Lemma sol_sec_near : Rabs (t_sec s - al_C T) <= 0.0000055 /\ Rabs (t_ma s + t_sec s - (al_M T + al_C T)) <= 0.0000057.
  Proof.
    assert (B := TT_b s Hs). fold T in B.
    assert (Eg : t_ma s = al_M T + sol_dg T) by (unfold sol_dg, t_ma, t_JC2; rewrite t_JC_T; ring).
    set (d := sol_dg T) in *.
    assert (D : Rabs d <= 0.0000001) by (unfold d, sol_dg, al_M, deg; clearbody T; clear - B; q2; interval with (i_bisect T, i_autodiff T, i_prec 60)).
    assert (Dd := Rabs_le_inv _ _ D).
    assert (G : Rabs (t_sec s - al_C T) <= 0.0000055).
    { unfold t_sec, al_C, deg. rewrite Eg. unfold t_JC2. rewrite t_JC_T.
    replace (#2 * (al_M T + d)) with (2 * al_M T + 2 * d) by (q2; lra). rewrite !sin_plus.
    match goal with |- Rabs ?e <= _ => replace e with
      (sin (al_M T) * ((#3.34161088e-2 - #8.40725e-5 * T - #2.443e-7 * T ^ 2) * cos d - deg (1.914602 - 0.004817 * T - 0.000014 * T ^ 2))
       + cos (al_M T) * ((#3.34161088e-2 - #8.40725e-5 * T - #2.443e-7 * T ^ 2) * sin d)
       + sin (2 * al_M T) * ((#3.489437e-4 - #1.76278e-6 * T) * cos (2 * d) - deg (0.019993 - 0.000101 * T)) 
       + cos (2 * al_M T) * ((#3.489437e-4 - #1.76278e-6 * T) * sin (2 * d))
       + sin (3 * al_M T) * (- deg 0.000289))
      by (unfold deg; ring) end.
    tri. clearbody T. clear Eg. clearbody d.
    assert (K1 : Rabs ((#3.34161088e-2 - #8.40725e-5 * T - #2.443e-7 * T ^ 2) * cos d - deg (1.914602 - 0.004817 * T - 0.000014 * T ^ 2)) <= 0.00000001).
    { unfold deg. q2. clear - B Dd. interval with (i_bisect T, i_autodiff T, i_prec 60). }
    assert (K2 : Rabs ((#3.34161088e-2 - #8.40725e-5 * T - #2.443e-7 * T ^ 2) * sin d) <= 0.00000001) by (clear - B Dd; q2; interval).
    assert (K3 : Rabs ((#3.489437e-4 - #1.76278e-6 * T) * cos (2 * d) - deg (0.019993 - 0.000101 * T)) <= 0.00000001).
    { unfold deg. q2. clear - B Dd. interval with (i_bisect T, i_autodiff T, i_prec 60). }
    assert (K4 : Rabs ((#3.489437e-4 - #1.76278e-6 * T) * sin (2 * d)) <= 0.00000001) by (clear - B Dd; q2; interval).
    assert (K6 : Rabs (- deg 0.000289) <= 0.0000051) by (unfold deg; interval).
    apply (unit_mul (sin (al_M T))) in K1; [|apply unit_sin]. apply (unit_mul (cos (al_M T))) in K2; [|apply unit_cos].
    apply (unit_mul (sin (2 * al_M T))) in K3; [|apply unit_sin]. apply (unit_mul (cos (2 * al_M T))) in K4; [|apply unit_cos].
    apply (unit_mul (sin (3 * al_M T))) in K6; [|apply unit_sin]. lra. }
    split; [exact G|]. rewrite Eg. apply Rabs_le_inv in G. apply Rabs_le. lra.
  Qed.
  Lemma sol_lon_near : exists k : Z, Rabs (t_L md s - al_lon T - 2 * PI * IZR k) <= 0.0000915.
  Proof.
    unfold t_L. destruct (Hmd (t_l0 s + t_sec s + - #9.93087e-5 / t_R s + t_dpsi s) (2 * PI)) as (k & -> & _).
    { pose proof PI_RGT_0; lra. }
    exists (- k)%Z. rewrite opp_IZR. assert (H1 := sol_L_near). destruct sol_sec_near as [H2 _].
    unfold al_lon. replace (_ - _ - _) with ((t_l0 s - al_L0 T) + (t_sec s - al_C T) + (deg 0.00569 - #9.93087e-5 / t_R s) + t_dpsi s) by (field; apply (t_R_nz s Hs)).
    tri. assert (H3 : Rabs (deg 0.00569 - #9.93087e-5 / t_R s) <= 0.0000025).
    { pose proof (t_R_b s Hs) as B. generalize dependent (t_R s). intros r B. clear - B. unfold deg. q2. interval. }
    assert (H4 : Rabs (t_dpsi s) <= 0.0000834) by (unfold t_dpsi; generalize (t_omg s); intros o; q2; interval).
    lra.
  Qed.
  Lemma sol_obl_near : Rabs (t_obl s - al_obl T) <= 0.000045.
  Proof.
    unfold t_obl, al_obl, deg, t_JC2. rewrite t_JC_T. assert (B := TT_b s Hs). fold T in B. clearbody T. generalize (t_omg s). intros o. clear Hs. q2.
    interval with (i_bisect T, i_autodiff T, i_prec 60).
  Qed.
  Lemma sol_ecc : t_ecc s = al_e T.
  Proof. unfold t_ecc, al_e, t_JC2. rewrite t_JC_T. q2. lra. Qed.
  Lemma sol_R_near : Rabs (t_R s - al_R T) <= 0.0000002.
  Proof.
    unfold t_R, al_R. rewrite sol_ecc. destruct sol_sec_near as [_ H].
    assert (He : 0.0165 <= al_e T <= 0.0169) by (rewrite <- sol_ecc; apply (t_ecc_b s Hs)).
    set (x := t_ma s + t_sec s) in *. set (y := al_M T + al_C T) in *.
    assert (Hc : Rabs (cos x - cos y) <= 0.0000057) by (eapply Rle_trans; [apply cos_lip|exact H]). 
    assert (Bx := unit_cos x). assert (By := unit_cos y). generalize dependent (cos x). intros cx Hc Bx. generalize dependent (cos y). intros cy By Hc.
    generalize dependent (al_e T). intros e He. apply Rabs_le_inv in Hc. clearbody T. clear - He Hc Bx By.
    replace (#1.0000010178 * (#1.0 - e ^ 2) / (#1.0 + e * cx) - 1.000001018 * (1 - e ^ 2) / (1 + e * cy)) with
      ((1 - e ^ 2) * ((#1.0000010178 - 1.000001018) * (1 + e * cy) - 1.000001018 * e * (cx - cy)) / ((1 + e * cx) * (1 + e * cy))).
    2:{ assert (0 < 1 + e * cx) by nra. assert (0 < 1 + e * cy) by nra. replace (#1.0) with 1 by q2r. q2. field. lra. }
    set (w := cx - cy) in *. clearbody w. q2. interval.
  Qed.
End Soltrack.
