(** * SkyClose: how far parallax, rounding and hour-angle differences can move the cosine of the zenith *)

From Coq Require Import ZArith Reals Bool List String Lra Lia.
From Flocq Require Import Core.Raux.
From Interval Require Import Tactic.
From Verif Require Import Num Ext ExtLemmas Sky AstroSpec AstroTac.
Open Scope R_scope.

Lemma cos_lip a b : Rabs (cos a - cos b) <= Rabs (a - b).
Proof.
  rewrite form2, !Rabs_mult. rewrite (Rabs_left (-2)) by lra.
  assert (H1 : Rabs (sin ((a + b) / 2)) <= 1) by (apply Rabs_le, SIN_bound).
  assert (H2 : Rabs (sin ((a - b) / 2)) <= Rabs ((a - b) / 2)).
  { destruct (Rle_or_lt 0 ((a - b) / 2)) as [H|H].
    - rewrite (Rabs_pos_eq ((a - b) / 2)) by exact H. apply Rabs_le.
      destruct (Req_dec ((a - b) / 2) 0) as [->|Hn]; [rewrite sin_0; lra|].
      assert (sin ((a - b) / 2) < (a - b) / 2) by (apply sin_lt_x; lra).
      assert (sin (- ((a - b) / 2)) > - ((a - b) / 2) \/ True) by now right.
      destruct (Rle_or_lt ((a - b) / 2) 1) as [Hs|Hs].
      + assert (0 <= sin ((a - b) / 2)) by (apply sin_ge_0; [lra|]; assert (3 < PI) by interval; lra). lra.
      + pose proof (SIN_bound ((a - b) / 2)). lra.
    - rewrite (Rabs_left ((a - b) / 2)) by exact H. rewrite <- Rabs_Ropp, <- sin_neg. set (y := - ((a - b) / 2)). assert (Hy : 0 < y) by (unfold y; lra).
      apply Rabs_le. assert (sin y < y) by (apply sin_lt_x; lra).
      destruct (Rle_or_lt y 1) as [Hs|Hs].
      + assert (0 <= sin y) by (apply sin_ge_0; [lra|]; assert (3 < PI) by interval; lra). lra.
      + pose proof (SIN_bound y). lra. }
  replace (Rabs (a - b)) with (2 * Rabs ((a - b) / 2)).
  2: { unfold Rdiv. rewrite Rabs_mult, (Rabs_pos_eq (/ 2)) by lra. field. }
  assert (0 <= Rabs (sin ((a + b) / 2))) by apply Rabs_pos. assert (0 <= Rabs (sin ((a - b) / 2))) by apply Rabs_pos. nra.
Qed.
Lemma sin_lip a b : Rabs (sin a - sin b) <= Rabs (a - b).
Proof.
  rewrite <- !cos_shift. eapply Rle_trans; [apply cos_lip|]. replace (PI / 2 - a - (PI / 2 - b)) with (- (a - b)) by ring. rewrite Rabs_Ropp. lra.
Qed.
Lemma Rabs_prod_le x y a b : Rabs x <= a -> Rabs y <= b -> Rabs (x * y) <= a * b.
Proof. intros Hx Hy. rewrite Rabs_mult. apply Rmult_le_compat; auto using Rabs_pos. Qed.
Lemma sun_U_lip phi d h h' : Rabs (sun_U phi d h - sun_U phi d h') <= Rabs (h - h').
Proof.
  unfold sun_U. replace (sin phi * sin d + cos phi * cos d * cos h - (sin phi * sin d + cos phi * cos d * cos h')) with (cos phi * cos d * (cos h - cos h')) by ring.
  assert (H1 : Rabs (cos phi * cos d) <= 1).
  { replace 1 with (1 * 1) by ring. apply Rabs_prod_le; apply Rabs_le, COS_bound. }
  assert (H2 := cos_lip h h'). rewrite Rabs_mult. assert (0 <= Rabs (cos phi * cos d)) by apply Rabs_pos. assert (0 <= Rabs (cos h - cos h')) by apply Rabs_pos. nra.
Qed.
Lemma sun_U_turn phi d h h' e : near_turn h h' e -> Rabs (sun_U phi d h - sun_U phi d h') <= e.
Proof.
  intros [k Hk]. assert (H := sun_U_lip phi d (h - 2 * PI * IZR k) h').
  replace (sun_U phi d (h - 2 * PI * IZR k)) with (sun_U phi d h) in H.
  2: { unfold sun_U. now rewrite cos_2kpi. }
  replace (h - 2 * PI * IZR k - h') with (h - h' - 2 * PI * IZR k) in H by ring. lra.
Qed.

Lemma unit_sum x : Rabs (cos x) + Rabs (sin x) <= 1.4143.
Proof.
  pose proof (sc1 x) as H. assert (Hc : Rabs (cos x) * Rabs (cos x) = cos x * cos x) by (rewrite <- Rabs_mult; apply Rabs_pos_eq; nra).
  assert (Hs : Rabs (sin x) * Rabs (sin x) = sin x * sin x) by (rewrite <- Rabs_mult; apply Rabs_pos_eq; nra).
  assert (0 <= Rabs (cos x)) by apply Rabs_pos. assert (0 <= Rabs (sin x)) by apply Rabs_pos.
  set (a := Rabs (cos x)) in *. set (b := Rabs (sin x)) in *. clearbody a b.
  apply Rnot_lt_le. intros C. pose proof (pow2_ge_0 (a - b)). assert ((a + b) * (a + b) <= 2) by nra. nra.
Qed.
(** Parallax seen from the ellipsoid moves cos(zenith) by at most 1.5e-4. *)
Lemma sky_topo_close phi d h ecf z a : 0.96 <= ecf <= 1.04 -> sky_topo phi d h ecf z a -> Rabs (cos z - sun_U phi d h) <= 0.00015.
Proof.
  intros B3 (u & rho & d' & h' & H7). cbv zeta in H7. destruct H7 as (U1 & U2 & U3 & R1 & R2 & K1 & K2 & K3 & [_ Z] & A).
  assert (Hsx : 0 <= sin (8.794 / 3600 * sqrt ecf * (PI / 180)) <= 0.00005).
  { assert (0.97 <= sqrt ecf <= 1.02).
    { split; [apply Rsqr_incr_0_var; [|apply sqrt_pos]|apply Rsqr_incr_0_var; [|lra]]; rewrite Rsqr_sqrt by lra; unfold Rsqr; lra. }
    generalize dependent (sqrt ecf). intros q Hq. split; interval. }
  set (sx := sin (8.794 / 3600 * sqrt ecf * (PI / 180))) in *. pose proof (COS_bound u). pose proof (SIN_bound u).
  set (e1 := sx * cos u) in *. set (e3 := sx * (0.99664719 * sin u)) in *.
  assert (E1 : Rabs e1 <= 0.00005) by (unfold e1; apply Rabs_le; split; nra).
  assert (E3 : Rabs e3 <= 0.00005) by (unfold e3; apply Rabs_le; split; nra).
  assert (Hz : rho * cos z = sun_U phi d h - (cos phi * e1 + sin phi * e3)).
  { rewrite Z. unfold sun_U. replace (rho * (sin phi * sin d' + cos phi * cos d' * cos h')) with (sin phi * (rho * sin d') + cos phi * (rho * (cos d' * cos h'))) by ring.
    rewrite K1, K3. ring. }
  assert (Hsum : forall p q, Rabs p + Rabs q <= 1.4143 -> Rabs (p * e1 + q * e3) <= 0.000071).
  { intros p q Hpq. eapply Rle_trans; [apply Rabs_triang|]. rewrite !Rabs_mult. assert (0 <= Rabs p) by apply Rabs_pos. assert (0 <= Rabs q) by apply Rabs_pos.
    assert (0 <= Rabs e1) by apply Rabs_pos. assert (0 <= Rabs e3) by apply Rabs_pos. nra. }
  assert (H1 := Hsum _ _ (unit_sum phi)).
  assert (Hd : Rabs (cos d * cos h) + Rabs (sin d) <= 1.4143).
  { assert (Rabs (cos d * cos h) <= Rabs (cos d)). { rewrite Rabs_mult. assert (Rabs (cos h) <= 1) by (apply Rabs_le, COS_bound). assert (0 <= Rabs (cos d)) by apply Rabs_pos. nra. }
    pose proof (unit_sum d). lra. }
  assert (H2 := Hsum _ _ Hd).
  assert (Hr : rho * rho = 1 - 2 * (cos d * cos h * e1 + sin d * e3) + (e1 * e1 + e3 * e3)).
  { pose proof (sc1 d') as S1. pose proof (sc1 h') as S2. pose proof (sc1 d) as S3. pose proof (sc1 h) as S4.
    transitivity ((rho * (cos d' * cos h')) ^ 2 + (rho * (cos d' * sin h')) ^ 2 + (rho * sin d') ^ 2).
    - replace ((rho * (cos d' * cos h')) ^ 2 + (rho * (cos d' * sin h')) ^ 2 + (rho * sin d') ^ 2)
        with (rho * rho * (cos d' * cos d' * (sin h' * sin h' + cos h' * cos h') + sin d' * sin d')) by ring. rewrite S2.
      replace (cos d' * cos d' * 1 + sin d' * sin d') with 1 by lra. ring.
    - rewrite K1, K2, K3.
      replace ((cos d * cos h - e1) ^ 2 + (cos d * sin h) ^ 2 + (sin d - e3) ^ 2)
        with (cos d * cos d * (sin h * sin h + cos h * cos h) + sin d * sin d - 2 * (cos d * cos h * e1 + sin d * e3) + (e1 * e1 + e3 * e3)) by ring.
      rewrite S4. lra. }
  apply Rabs_le_inv in H1, H2, E1, E3.
  assert (Hrho : 0.999928 <= rho <= 1.000072) by (split; nra).
  pose proof (COS_bound z). apply Rabs_le. split; nra.
Qed.
Lemma parallax_close e z : 0 <= e -> Rabs (cos (z + e * sin z) - cos z) <= e.
Proof.
  intros He. eapply Rle_trans; [apply cos_lip|]. replace (z + e * sin z - z) with (e * sin z) by ring. rewrite Rabs_mult, (Rabs_pos_eq e) by exact He.
  assert (Rabs (sin z) <= 1) by (apply Rabs_le, SIN_bound). nra.
Qed.
Lemma sky_close alg eng phi d h ecf z a : 0.96 <= ecf <= 1.04 -> sky_position alg eng phi d h ecf z a -> Rabs (cos z - sun_U phi d h) <= 0.00015.
Proof.
  intros B. unfold sky_position. destruct (String.eqb alg "nrel"); [now apply sky_topo_close|].
  intros (z0 & _ & H1 & -> & _).
  assert (Hp : 0 <= parallax_coef alg <= 0.000043).
  { unfold parallax_coef. destruct (String.eqb alg "psa"); [lra|]. destruct (String.eqb alg "soltrack"); lra. }
  assert (Ht : cos_tol alg eng <= 0.000001) by (unfold cos_tol; destruct (String.eqb alg "psa" && String.eqb eng "numpy")%bool; lra).
  assert (H2 := parallax_close (parallax_coef alg) z0 ltac:(lra)). apply Rabs_le_inv in H1, H2. apply Rabs_le. lra.
Qed.
