(** * AlmanacTime: declination, equation of time and distance factor of psa, soltrack and nrel against the almanac *)
From Coq Require Import ZArith QArith Reals Bool List String Lra Lia.
From Flocq Require Import Core.Raux.
From Interval Require Import Tactic.
From Verif Require Import Num Ext ExtLemmas Libspa Sky SkyClose AstroTac AstroSpec PsaR SoltrackR IqbalR NrelR Astro Core Almanac AlmanacR AlmanacN AlmanacSky.
Import ListNotations.
Open Scope R_scope.

Lemma eot_close L a m L' a' m' mu tau : eot_of_ra L a m -> eot_of_ra L' a' m' -> Rabs (L - L') <= mu -> near_turn a a' tau ->
  Rabs m <= 20 -> Rabs m' <= 20 -> mu + tau <= 1 -> Rabs (m - m') <= 229.2 * (mu + tau).
Proof.
  intros (k & Em) (k' & Em') HL (q & Hq) Bm Bm' S. pose proof PI_RGT_0 as P.
  set (w := (L - L') - (a - a' - 2 * PI * IZR q)).
  assert (Bw : Rabs w <= mu + tau).
  { unfold w. unfold Rminus at 1. eapply Rle_trans; [apply Rabs_triang|]. rewrite Rabs_Ropp. lra. }
  assert (E : m - m' = w * (720 / PI) + 1440 * IZR (k - k' - q)).
  { rewrite Em, Em', !minus_IZR. unfold w. field. lra. }
  assert (C : 0 <= 720 / PI <= 229.2) by (split; interval).
  assert (0 <= Rabs w) by apply Rabs_pos.
  assert (Bx : Rabs (w * (720 / PI)) <= 229.2 * (mu + tau)) by (rewrite Rabs_mult, (Rabs_right (720 / PI)) by lra; nra).
  assert (Z0 : (k - k' - q = 0)%Z).
  { apply Rabs_le_inv in Bx, Bm, Bm'. set (n := (k - k' - q)%Z) in *. assert (H1 : IZR n < 1) by lra. assert (H2 : -1 < IZR n) by lra. apply lt_IZR in H1, H2. lia. }
  rewrite E, Z0, Rmult_0_r, Rplus_0_r. exact Bx.
Qed.

Lemma al_obl_b T : -3.223 <= T <= 2.623 -> 0.4084 <= al_obl T <= 0.4099.
Proof. intros B. unfold al_obl, deg. split; interval. Qed.
Lemma al_dec_eq T : exists a, equatorial (al_lon T) 0 (al_obl T) a (al_dec T).
Proof. exists (Ratan2 (cos (al_obl T) * sin (al_lon T)) (cos (al_lon T))). unfold al_dec. apply (equatorial_plain _ _ _ 0). ring. Qed.

Lemma elements_dec T eta zeta bet mu d m : -3.223 <= T <= 2.623 -> eta <= 0.005 -> zeta <= 0.0003 -> bet <= 0.001 ->
  elements T eta zeta bet mu d m -> Rabs (d - al_dec T) <= 0.4375 * eta + 1.007 * zeta + 1.008 * bet.
Proof.
  intros B B1 B2 B3 (l & b & e & a & L & Q & _ & Hl & Hb & He & _). destruct (al_dec_eq T) as (a' & Q'). assert (Bo := al_obl_b T B).
  assert (Be := Rabs_le_inv _ _ He). apply (dec_close l b e a d (al_lon T) (al_obl T) a' (al_dec T) eta zeta bet); try assumption; lra.
Qed.
Lemma elements_eot T eta zeta bet mu d m m' : -3.223 <= T <= 2.623 -> eta <= 0.005 -> zeta <= 0.0003 -> bet <= 0.001 -> mu <= 0.1 ->
  elements T eta zeta bet mu d m -> Rabs m <= 20 -> al_eot T m' -> Rabs (m - m') <= 229.2 * (mu + (1.112 * eta + 0.485 * zeta + 0.485 * bet)).
Proof.
  intros B B1 B2 B3 B4 (l & b & e & a & L & Q & Em & Hl & Hb & He & HL) Bm (Bm' & a' & Q' & Em'). assert (Bo := al_obl_b T B).
  assert (Be := Rabs_le_inv _ _ He).
  apply (eot_close L a m (al_L0 T) a' m'); try assumption; [|lra].
  apply (ra_close l b e a d (al_lon T) (al_obl T) a' (al_dec T) eta zeta bet); try assumption; lra.
Qed.

(** The almanac's equation of time exists. *)
Lemma al_eot_exists T : -3.223 <= T <= 2.623 -> exists m, al_eot T m.
Proof.
  intros B. assert (Bo := al_obl_b T B). pose proof PI_RGT_0 as P.
  assert (Hep : 0.917 <= cos (al_obl T) <= 1) by (generalize dependent (al_obl T); intros x Hx; interval).
  destruct (reduction_small (cos (al_obl T)) (al_lon T) Hep) as (k & Hk). set (a := Ratan2 (cos (al_obl T) * sin (al_lon T)) (cos (al_lon T))) in *.
  exists (4 * ((al_L0 T - a) * (180 / PI) - 0.0057183) + 1440 * IZR (- k)). split.
  - set (x := al_L0 T - al_lon T + (al_lon T - a - 2 * PI * IZR k)).
    assert (Bx : Rabs x <= 0.079).
    { unfold x. eapply Rle_trans; [apply Rabs_triang|]. assert (Rabs (al_L0 T - al_lon T) <= 0.0346); [|lra].
      unfold al_lon, al_C. replace (al_L0 T - _) with (deg 0.00569 - deg ((1.914602 - 0.004817 * T - 0.000014 * T ^ 2) * sin (al_M T) + (0.019993 - 0.000101 * T) * sin (2 * al_M T) + 0.000289 * sin (3 * al_M T))) by ring.
      generalize (al_M T). intros M. unfold deg. clear - B. interval. }
    replace (4 * ((al_L0 T - a) * (180 / PI) - 0.0057183) + 1440 * IZR (- k)) with (x * (720 / PI) - 0.0228732) by (unfold x; rewrite opp_IZR; assert (4 * 0.0057183 = 0.0228732) by lra; field_simplify; [|lra..]; nra).
    apply Rabs_le_inv in Bx. assert (C : 0 <= 720 / PI <= 229.2) by (split; interval). apply Rabs_le. nra.
  - exists a. split; [unfold al_dec; apply (equatorial_plain _ _ _ 0); unfold a; ring|]. now exists (- k)%Z.
Qed.

Section Psa.
  Variable s : R.
  Hypothesis Hs : in_ns_range s.
  Lemma psa_elements : elements (TT s) (0.00016 + 0.00032 * Rabs (TT s)) 0.000048 0 (0.00014 + 0.00018 * Rabs (TT s)) (p_delta s) (p_eot s).
  Proof.
    destruct (p_eot_thm s Hs) as (_ & k & Ek). destruct (p_ra_spec s) as (_ & k1 & E1). pose proof PI_RGT_0 as P.
    exists (p_l s), 0, (p_ep s), (p_ra s), (p_L s + deg 0.0057183). split; [|split; [|split; [|split; [|split]]]].
    - unfold p_delta. apply (equatorial_plain _ _ _ k1). rewrite E1. reflexivity.
    - exists k. rewrite Ek. unfold deg. field. lra.
    - exists 0%Z. rewrite Rmult_0_r, Rminus_0_r. apply psa_lon_near, Hs.
    - rewrite Rabs_R0. lra.
    - apply psa_obl_near, Hs.
    - assert (H := psa_L_near s Hs). apply Rabs_le_inv in H. assert (0 <= deg 0.0057183 <= 0.00010) by (unfold deg; split; interval). apply Rabs_le. lra.
  Qed.
  Lemma psa_sol_R : p_R s = t_R s.
  Proof.
    assert (EJ : p_jdc s = t_JC s) by reflexivity.
    assert (E1 : p_ecc s = t_ecc s) by (unfold p_ecc, t_ecc, t_JC2; rewrite EJ; ring).
    assert (E2 : p_ma s = t_ma s) by (unfold p_ma, t_ma, t_JC2; rewrite EJ; ring).
    assert (E3 : p_sec s = t_sec s) by (unfold p_sec, t_sec, t_JC2; rewrite E2, EJ; ring).
    unfold p_R, t_R. now rewrite E1, E2, E3.
  Qed.
End Psa.
Section Sol.
  Variable md : R -> R -> R.
  Hypothesis Hmd : mod_spec md.
  Variable s : R.
  Hypothesis Hs : in_ns_range s.
  Lemma sol_elements : elements (TT s) 0.0000915 0.000045 0 0.000084 (t_dec md s) (t_eot md s).
  Proof.
    destruct (t_eot_thm md Hmd s Hs) as (_ & k & Ek). pose proof PI_RGT_0 as P. destruct (Hmd (t_ra0 md s) (2 * PI)) as (k1 & E1 & _); [lra|]. fold (t_ra md s) in E1.
    exists (t_L md s), 0, (t_obl s), (t_ra md s), (t_l0 s + t_dpsi s * cos (t_obl s)). split; [|split; [|split; [|split; [|split]]]].
    - unfold t_dec. apply (equatorial_plain _ _ _ (- k1)). rewrite E1, opp_IZR. unfold t_ra0. ring.
    - exists k. rewrite Ek. do 3 f_equal. ring.
    - exact (sol_lon_near md Hmd s Hs).
    - rewrite Rabs_R0. lra.
    - apply sol_obl_near, Hs.
    - assert (H := sol_L_near s Hs). apply Rabs_le_inv in H. assert (H4 : Rabs (t_dpsi s * cos (t_obl s)) <= 0.0000835) by (unfold t_dpsi; generalize (t_omg s) (t_obl s); intros o b; q2; interval).
      apply Rabs_le_inv in H4. apply Rabs_le. lra.
  Qed.
End Sol.
Section Nrel.
  Variable md : R -> R -> R.
  Hypothesis Hmd : mod_spec md.
  Variable s : R.
  Hypothesis Hs : in_ns_range s.
  Lemma nrel_elements : elements (TT s) 0.0005 0.000055 0.0000055 0.000109 (n_delta md s) (n_eot md s).
  Proof.
    destruct (n_eot_thm md Hmd s Hs) as (_ & k & Ek). pose proof PI_RGT_0 as P. destruct (Hmd (n_ra0 md s * (180 / PI)) #360) as (k1 & E1 & _); [q2r|]. fold (n_alpha md s) in E1.
    assert (Bb := n_beta_b s Hs).
    exists (n_lam md s), (n_beta s), (n_eps s), (n_alpha md s * (PI / 180)), (n_m s * (PI / 180) + n_dpsi s * cos (n_eps s) * (PI / 180)). split; [|split; [|split; [|split; [|split]]]].
    - unfold n_delta, n_sind. replace (cos (n_beta s) * sin (n_eps s) * sin (n_lam md s)) with (cos (n_beta s) * sin (n_lam md s) * sin (n_eps s)) by ring.
      apply (equatorial_polar _ _ _ _ (- k1)).
      + apply Rabs_le_inv in Bb. apply cos_gt_0; assert (1.5 < PI / 2) by interval; lra.
      + rewrite E1, opp_IZR. unfold n_ra0. replace (#360) with 360 by q2r. field. lra.
    - exists k. rewrite Ek. field. lra.
    - exact (nrel_lon_near md Hmd s Hs).
    - lra.
    - apply nrel_obl_near, Hs.
    - assert (H := nrel_m_near s Hs). apply Rabs_le_inv in H. assert (D := Rabs_le_inv _ _ (n_dpsi_b s Hs)).
      assert (H4 : Rabs (n_dpsi s * cos (n_eps s) * (PI / 180)) <= 0.0000945) by (clear Ek; generalize dependent (n_dpsi s); intros x D; generalize (n_eps s); intros y; clear - D; interval).
      apply Rabs_le_inv in H4. apply Rabs_le. lra.
  Qed.
End Nrel.
