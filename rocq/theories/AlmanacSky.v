(** * AlmanacSky: right ascension and declination of nearby points; the equation of time *)
From Coq Require Import ZArith QArith Reals Bool List String Lra Lia.
From Flocq Require Import Core.Raux.
From Interval Require Import Tactic.
From Verif Require Import Num Ext ExtLemmas Sky SkyClose AstroTac AstroSpec PsaR Almanac AlmanacR.
Open Scope R_scope.

Lemma sin_cos_pow x : sin x ^ 2 + cos x ^ 2 = 1.
Proof. pose proof (sc1 x). nra. Qed.
Lemma ecl_unit l b e : (cos b * cos l) ^ 2 + (cos b * sin l * cos e - sin b * sin e) ^ 2 + (sin b * cos e + cos b * sin l * sin e) ^ 2 = 1.
Proof.
  transitivity (cos b ^ 2 * (cos l ^ 2 + sin l ^ 2 * (sin e ^ 2 + cos e ^ 2)) + sin b ^ 2 * (sin e ^ 2 + cos e ^ 2)); [ring|].
  rewrite (sin_cos_pow e). replace (cos l ^ 2 + sin l ^ 2 * 1) with 1 by (pose proof (sin_cos_pow l); lra).
  pose proof (sin_cos_pow b). lra.
Qed.

Lemma equatorial_polar l b e a k : 0 < cos b ->
  a = Ratan2 (sin l * cos e - tan b * sin e) (cos l) + 2 * PI * IZR k ->
  equatorial l b e a (asin (sin b * cos e + cos b * sin l * sin e)).
Proof.
  intros Hb Ha. set (z := sin b * cos e + cos b * sin l * sin e). assert (U := ecl_unit l b e). fold z in U.
  assert (Hz : -1 <= z <= 1).
  { assert (z ^ 2 <= 1) by (pose proof (pow2_ge_0 (cos b * cos l)); pose proof (pow2_ge_0 (cos b * sin l * cos e - sin b * sin e)); lra). nra. }
  set (r := Ratan2 (sin l * cos e - tan b * sin e) (cos l)) in *.
  destruct (Ratan2_polar (sin l * cos e - tan b * sin e) (cos l)) as [Ex Ey]. fold r in Ex, Ey.
  assert (Ec : cos a = cos r /\ sin a = sin r).
  { rewrite Ha. rewrite <- (cos_2kpi _ k), <- (sin_2kpi _ k). replace (r + 2 * PI * IZR k - 2 * PI * IZR k) with r by ring. now split. }
  destruct Ec as [Ec1 Ec2].
  assert (Et : cos b * (sin l * cos e - tan b * sin e) = cos b * sin l * cos e - sin b * sin e) by (unfold tan; field; lra).
  assert (Ed : cos (asin z) = cos b * sqrt (cos l ^ 2 + (sin l * cos e - tan b * sin e) ^ 2)).
  { rewrite cos_asin by lra. assert (P1 := pow2_ge_0 (cos b)). assert (P2 := pow2_ge_0 (cos l)). assert (P3 := pow2_ge_0 (sin l * cos e - tan b * sin e)).
    rewrite <- (sqrt_pow2 (cos b)) at 1 by lra. rewrite <- sqrt_mult by lra. f_equal.
    replace (cos b ^ 2 * (cos l ^ 2 + (sin l * cos e - tan b * sin e) ^ 2)) with ((cos b * cos l) ^ 2 + (cos b * (sin l * cos e - tan b * sin e)) ^ 2) by ring.
    rewrite Et. unfold Rsqr. lra. }
  unfold equatorial. rewrite Ec1, Ec2, Ed, sin_asin by lra. repeat split.
  - rewrite Rmult_assoc, <- Ex. reflexivity.
  - rewrite Rmult_assoc, <- Ey. exact Et.
  - pose proof (asin_bound z). lra.
  - pose proof (asin_bound z). lra.
Qed.
Lemma equatorial_plain l e a k : a = Ratan2 (cos e * sin l) (cos l) + 2 * PI * IZR k -> equatorial l 0 e a (asin (sin e * sin l)).
Proof.
  intros H. replace (sin e * sin l) with (sin 0 * cos e + cos 0 * sin l * sin e) by (rewrite sin_0, cos_0; ring).
  apply (equatorial_polar l 0 e a k); [rewrite cos_0; lra|]. rewrite H. replace (sin l * cos e - tan 0 * sin e) with (cos e * sin l) by (rewrite tan_0; ring). reflexivity.
Qed.

Lemma sin_expand d d' : Rabs d <= 0.42 -> Rabs d' <= 0.42 -> Rabs (d - d') <= 1.096 * Rabs (sin d - sin d').
Proof.
  assert (W : forall x y, -0.42 <= x <= 0.42 -> -0.42 <= y <= 0.42 -> x < y -> y - x <= 1.096 * (sin y - sin x)).
  { intros x y Hx Hy Hxy. destruct (MVT_cor2 sin cos x y Hxy) as (c & Hc & B). { intros. apply derivable_pt_lim_sin. }
    assert (0.913 <= cos c) by (clear Hc; assert (-0.42 <= c <= 0.42) by lra; interval). rewrite Hc. nra. }
  intros H H'. apply Rabs_le_inv in H, H'. destruct (Rtotal_order d d') as [L|[->|L]].
  - specialize (W d d' ltac:(lra) ltac:(lra) L). rewrite (Rabs_left (d - d')) by lra. rewrite (Rabs_left (sin d - sin d')) by lra. lra.
  - rewrite !Rminus_diag_eq by reflexivity. rewrite Rabs_R0. lra.
  - specialize (W d' d ltac:(lra) ltac:(lra) L). rewrite (Rabs_right (d - d')) by lra. rewrite (Rabs_right (sin d - sin d')) by lra. lra.
Qed.
Lemma dec_small d x : - (PI / 2) <= d <= PI / 2 -> sin d = x -> Rabs x <= 0.406 -> Rabs d <= 0.42.
Proof.
  intros Hd E Hx. apply Rabs_le_inv in Hx. assert (1.5 < PI / 2) by interval. assert (0.407 <= sin 0.42) by interval.
  apply Rabs_le. split; apply Rnot_lt_le; intros C.
  - assert (sin d < sin (- (0.42))) by (apply sin_increasing_1; lra). rewrite sin_neg in *. lra.
  - assert (sin 0.42 < sin d) by (apply sin_increasing_1; lra). lra.
Qed.

Section Close.
  Variables l b e a d l' e' a' d' : R.
  Variables h z bb : R.
  Hypothesis Q : equatorial l b e a d.
  Hypothesis Q' : equatorial l' 0 e' a' d'.
  Hypothesis Hl : near_turn l l' h.
  Hypothesis He : Rabs (e - e') <= z.
  Hypothesis Hb : Rabs b <= bb.
  Hypothesis Be : 0.408 <= e <= 0.4102.
  Hypothesis Be' : 0.408 <= e' <= 0.4102.
  Hypothesis Bh : h <= 0.03.
  Hypothesis Bb : bb <= 0.001.

  Lemma lon_step : Rabs (sin (l - l')) <= h /\ 0.9995 <= cos (l - l') /\ Rabs (sin l - sin l') <= h /\ Rabs (cos l - cos l') <= h.
  Proof.
    destruct Hl as (k & Hk). set (w := l - l' - 2 * PI * IZR k) in *.
    assert (E1 : sin (l - l') = sin w) by (unfold w; now rewrite sin_2kpi). assert (E2 : cos (l - l') = cos w) by (unfold w; now rewrite cos_2kpi).
    rewrite E1, E2. split; [|split; [|split]].
    - eapply Rle_trans; [|exact Hk]. replace (sin w) with (sin w - sin 0) by (rewrite sin_0; ring). replace w with (w - 0) at 2 by ring. apply sin_lip.
    - apply Rabs_le_inv in Hk. assert (B : -0.03 <= w <= 0.03) by lra. clear - B. interval.
    - eapply Rle_trans; [|exact Hk]. rewrite <- (sin_2kpi l k). eapply Rle_trans; [apply sin_lip|]. unfold w. right. f_equal. ring.
    - eapply Rle_trans; [|exact Hk]. rewrite <- (cos_2kpi l k). eapply Rle_trans; [apply cos_lip|]. unfold w. right. f_equal. ring.
  Qed.
  Lemma h_pos : 0 <= h. Proof. destruct Hl as (k & Hk). eapply Rle_trans; [apply Rabs_pos|exact Hk]. Qed.
  Lemma bb_pos : 0 <= bb. Proof. eapply Rle_trans; [apply Rabs_pos|exact Hb]. Qed.
  Lemma z_pos : 0 <= z. Proof. eapply Rle_trans; [apply Rabs_pos|exact He]. Qed.
  Lemma sin_b : Rabs (sin b) <= bb.
  Proof. eapply Rle_trans; [|exact Hb]. replace (sin b) with (sin b - sin 0) by (rewrite sin_0; ring). replace b with (b - 0) at 2 by ring. apply sin_lip. Qed.
  Lemma cos_b : 0.999999 <= cos b <= 1 /\ Rabs (1 - cos b) <= 0.001 * bb.
  Proof.
    assert (B := sin_b). assert (P := bb_pos). assert (C : 0.99999 <= cos b). { assert (Hc := Rabs_le_inv _ _ Hb). assert (-0.001 <= b <= 0.001) by lra. clear - H. interval. }
    assert (U := sin_cos_pow b). assert (sin b ^ 2 <= bb ^ 2) by (rewrite <- (pow2_abs (sin b)); apply pow_incr; split; [apply Rabs_pos|exact B]).
    assert (cos b <= 1) by apply COS_bound. assert (1 - cos b ^ 2 <= bb * 0.001) by nra. assert (0 <= 1 - cos b <= 0.001 * bb) by nra.
    split; [nra|]. rewrite Rabs_right; lra.
  Qed.
  Lemma obl_b x : 0.408 <= x <= 0.4102 -> 0.3967 <= sin x <= 0.3988 /\ 0.917 <= cos x <= 0.918.
  Proof. intros H. repeat split; interval. Qed.

  Lemma dec_close : Rabs (d - d') <= 0.4375 * h + 1.007 * z + 1.008 * bb.
  Proof.
    destruct Q as (_ & _ & Ed & Rd). destruct Q' as (_ & _ & Ed' & Rd'). rewrite sin_0, cos_0 in Ed'.
    destruct (obl_b e Be) as [Se Ce]. destruct (obl_b e' Be') as [Se' Ce']. destruct lon_step as (L1 & L2 & L3 & L4). assert (SB := sin_b). destruct cos_b as [CB CB1].
    assert (Ph := h_pos). assert (Pb := bb_pos). assert (Pz := z_pos).
    assert (SE : Rabs (sin e - sin e') <= 0.9181 * z).
    { assert (W : forall x y, 0.408 <= x <= 0.4102 -> 0.408 <= y <= 0.4102 -> x < y -> 0 <= sin y - sin x <= 0.9181 * (y - x)).
      { intros x y Hx Hy Hxy. destruct (MVT_cor2 sin cos x y Hxy) as (c & Hc & B). { intros. apply derivable_pt_lim_sin. }
        destruct (obl_b c ltac:(lra)) as [_ Bc]. rewrite Hc. nra. }
      apply Rabs_le_inv in He. destruct (Rtotal_order e e') as [L|[->|L]].
      - specialize (W e e' Be Be' L). apply Rabs_le. lra.
      - rewrite Rminus_diag_eq by reflexivity. rewrite Rabs_R0. nra.
      - specialize (W e' e Be' Be L). apply Rabs_le. lra. }
    assert (D1 : Rabs d <= 0.42).
    { apply (dec_small d _ Rd Ed). eapply Rle_trans; [apply Rabs_triang|].
      assert (U1 : Rabs (sin b * cos e) <= bb * 0.918) by (apply Rabs_prod_le; [exact SB|apply Rabs_le; lra]).
      assert (U2 : Rabs (cos b * sin l * sin e) <= 1 * 1 * 0.3988) by (repeat apply Rabs_prod_le; apply Rabs_le; first [apply SIN_bound|apply COS_bound|lra]). lra. }
    assert (D2 : Rabs d' <= 0.42).
    { apply (dec_small d' _ Rd' Ed'). replace (0 * cos e' + 1 * sin l' * sin e') with (sin l' * sin e') by ring.
      assert (U2 : Rabs (sin l' * sin e') <= 1 * 0.3988) by (repeat apply Rabs_prod_le; apply Rabs_le; first [apply SIN_bound|apply COS_bound|lra]). lra. }
    eapply Rle_trans; [apply (sin_expand d d' D1 D2)|]. rewrite Ed, Ed'.
    replace (sin b * cos e + cos b * sin l * sin e - (0 * cos e' + 1 * sin l' * sin e')) with
      (sin b * cos e + (1 - cos b) * (- (sin l * sin e)) + (sin l - sin l') * sin e + sin l' * (sin e - sin e')) by ring.
    assert (T1 : Rabs (sin b * cos e) <= bb * 0.918) by (apply Rabs_prod_le; [exact SB|apply Rabs_le; lra]).
    assert (T2 : Rabs ((1 - cos b) * (- (sin l * sin e))) <= 0.001 * bb * 0.5).
    { apply Rabs_prod_le; [exact CB1|]. rewrite Rabs_Ropp. replace 0.5 with (1 * 0.5) by ring. apply Rabs_prod_le; [apply Rabs_le, SIN_bound|apply Rabs_le; lra]. }
    assert (T3 : Rabs ((sin l - sin l') * sin e) <= h * 0.3988) by (apply Rabs_prod_le; [exact L3|apply Rabs_le; lra]).
    assert (T4 : Rabs (sin l' * (sin e - sin e')) <= 0.9181 * z) by (apply unit_mul; [apply unit_sin|exact SE]).
    assert (S : Rabs (sin b * cos e + (1 - cos b) * - (sin l * sin e) + (sin l - sin l') * sin e + sin l' * (sin e - sin e')) <= bb * 0.918 + 0.001 * bb * 0.5 + h * 0.3988 + 0.9181 * z).
    { tri. lra. }
    lra.
  Qed.

  Lemma ra_close : near_turn a a' (1.112 * h + 0.485 * z + 0.485 * bb).
  Proof.
    destruct Q as (Ex & Ey & Ed & Rd). destruct Q' as (Ex' & Ey' & Ed' & Rd'). rewrite sin_0, cos_0 in *.
    destruct (obl_b e Be) as [Se Ce]. destruct (obl_b e' Be') as [Se' Ce']. destruct lon_step as (L1 & L2 & L3 & L4). assert (SB := sin_b). destruct cos_b as [CB CB1].
    assert (Ph := h_pos). assert (Pb := bb_pos). assert (Pz := z_pos).
    assert (CE : Rabs (cos e - cos e') <= 0.3989 * z).
    { assert (W : forall x y, 0.408 <= x <= 0.4102 -> 0.408 <= y <= 0.4102 -> x < y -> 0 <= cos x - cos y <= 0.3989 * (y - x)).
      { intros x y Hx Hy Hxy. destruct (MVT_cor2 cos (fun u => - sin u) x y Hxy) as (c & Hc & B). { intros. apply derivable_pt_lim_cos. }
        destruct (obl_b c ltac:(lra)) as [Bc _]. nra. }
      apply Rabs_le_inv in He. destruct (Rtotal_order e e') as [L|[->|L]].
      - specialize (W e e' Be Be' L). apply Rabs_le. lra.
      - rewrite Rminus_diag_eq by reflexivity. rewrite Rabs_R0. nra.
      - specialize (W e' e Be' Be L). apply Rabs_le. lra. }
    set (N := cos d * cos d').
    assert (Cr : N * sin (a - a') = cos b * (sin (l - l') * cos e + cos l * sin l' * (cos e - cos e')) + sin b * (- (sin e * cos l'))).
    { rewrite !sin_minus. unfold N. transitivity ((cos d * sin a) * (cos d' * cos a') - (cos d * cos a) * (cos d' * sin a')); [ring|]. rewrite Ex, Ey, Ex', Ey'. ring. }
    assert (Dt : N * cos (a - a') = cos b * (cos (l - l') - sin l * sin l' * (1 - cos e * cos e')) + sin b * (- (sin e * (sin l' * cos e')))).
    { rewrite !cos_minus. unfold N. transitivity ((cos d * cos a) * (cos d' * cos a') + (cos d * sin a) * (cos d' * sin a')); [ring|]. rewrite Ex, Ey, Ex', Ey'. ring. }
    assert (B1 : Rabs (N * sin (a - a')) <= 0.918 * h + 0.3989 * z + 0.3988 * bb).
    { rewrite Cr. eapply Rle_trans; [apply Rabs_triang|].
      assert (T1 : Rabs (sin (l - l') * cos e) <= h * 0.918) by (apply Rabs_prod_le; [exact L1|apply Rabs_le; lra]).
      assert (T2 : Rabs (cos l * sin l' * (cos e - cos e')) <= 0.3989 * z).
      { replace (0.3989 * z) with (1 * 1 * (0.3989 * z)) by ring. repeat apply Rabs_prod_le; [apply Rabs_le, COS_bound|apply Rabs_le, SIN_bound|exact CE]. }
      assert (T3 : Rabs (sin b * - (sin e * cos l')) <= bb * 0.3988).
      { apply Rabs_prod_le; [exact SB|]. rewrite Rabs_Ropp. replace 0.3988 with (0.3988 * 1) by ring. apply Rabs_prod_le; [apply Rabs_le; lra|apply Rabs_le, COS_bound]. }
      assert (T4 : Rabs (cos b * (sin (l - l') * cos e + cos l * sin l' * (cos e - cos e'))) <= h * 0.918 + 0.3989 * z).
      { apply unit_mul; [apply unit_cos|]. eapply Rle_trans; [apply Rabs_triang|]. lra. }
      lra. }
    assert (B2 : 0.8285 <= N * cos (a - a')).
    { rewrite Dt. 
      assert (0.84 <= cos e * cos e' <= 1) by nra.
      assert (S : -1 <= sin l * sin l' <= 1) by (pose proof (SIN_bound l); pose proof (SIN_bound l'); split; nra).
      assert (T1 : sin l * sin l' * (1 - cos e * cos e') <= 0.16) by nra.
      assert (T3 : Rabs (sin b * - (sin e * (sin l' * cos e'))) <= bb * 0.3988).
      { apply Rabs_prod_le; [exact SB|]. rewrite Rabs_Ropp. replace 0.3988 with (0.3988 * (1 * 1)) by ring. repeat apply Rabs_prod_le; apply Rabs_le; try lra. apply SIN_bound. }
      apply Rabs_le_inv in T3. nra. }
    assert (N0 : 0 < N).
    { unfold N. assert (0 <= cos d) by (apply cos_ge_0; lra). assert (0 <= cos d') by (apply cos_ge_0; lra).
      assert (cos d <> 0) by (intros Z; unfold N in B2; rewrite Z in B2; lra). assert (cos d' <> 0) by (intros Z; unfold N in B2; rewrite Z in B2; lra). nra. }
    unfold near_turn. apply small_tan.
    - apply Rmult_lt_reg_l with N; [exact N0|]. lra.
    - apply Rmult_le_reg_l with N; [exact N0|]. rewrite Rabs_mult, (Rabs_right N) in B1 by lra.
      eapply Rle_trans; [exact B1|]. set (t := 1.112 * h + 0.485 * z + 0.485 * bb).
      replace (N * (t * cos (a - a'))) with (t * (N * cos (a - a'))) by ring.
      assert (0 <= t) by (unfold t; lra). apply Rle_trans with (t * 0.8285); [unfold t; lra|]. apply Rmult_le_compat_l; assumption.
  Qed.
End Close.
