(** * SingleLemmas: error of the computed direction under float32 rounding of the coordinates and of sin/cos of the latitude *)

From Coq Require Import ZArith QArith Reals Bool List String Lra Lia.
From Flocq Require Import Core.Raux.
From Interval Require Import Tactic.
From Verif Require Import Num Arrays Libspa Time Core Usecases Spec GenericLemmas GenericLemmas2 Ext ExtLemmas ExactLaws
  Sky SkyClose AstroTac Refraction AstroSpec SingleSpec Astro AstroCell Calendar
  Psa PsaR PsaCell Soltrack SoltrackR SoltrackCell Iqbal IqbalR.
Import ListNotations.
Open Scope R_scope.

Lemma abs_sub a b e : Rabs (a - b) <= e -> b - e <= a <= b + e.
Proof. intros H. apply Rabs_le_inv in H. lra. Qed.
Lemma pi_b : 3.1415926 <= PI <= 3.1415927. Proof. split; interval. Qed.

(** ** Directions from approximate sines and cosines of the latitude *)
Section Vector.
  Variables (phi d h sl cl e1 e2 : R).
  Hypothesis Hs : Rabs (sl - sin phi) <= e1.
  Hypothesis Hc : Rabs (cl - cos phi) <= e2.

  Lemma mul1 a b e : Rabs a <= e -> -1 <= b <= 1 -> Rabs (a * b) <= e.
  Proof.
    intros Ha Hb. rewrite Rabs_mult. assert (Rabs b <= 1) by (apply Rabs_le; lra).
    assert (0 <= Rabs a) by apply Rabs_pos. assert (0 <= Rabs b) by apply Rabs_pos. nra.
  Qed.
  Lemma cc : -1 <= cos d * cos h <= 1.
  Proof. pose proof (COS_bound d). pose proof (COS_bound h). split; nra. Qed.

  Lemma height_err : Rabs (sin d * sl + cos d * cl * cos h - sun_U phi d h) <= e1 + e2.
  Proof.
    unfold sun_U. replace (_ - _) with ((sl - sin phi) * sin d + (cl - cos phi) * (cos d * cos h)) by ring.
    eapply Rle_trans; [apply Rabs_triang|]. apply Rplus_le_compat; apply mul1; [exact Hs|apply SIN_bound|exact Hc|apply cc].
  Qed.
  Lemma south_err : Rabs (cos d * cos h * sl - sin d * cl - sun_S phi d h) <= e1 + e2.
  Proof.
    unfold sun_S. replace (_ - _) with ((sl - sin phi) * (cos d * cos h) + (cl - cos phi) * (- sin d)) by ring.
    eapply Rle_trans; [apply Rabs_triang|].
    apply Rplus_le_compat; apply mul1; [exact Hs|apply cc|exact Hc|pose proof (SIN_bound d); lra].
  Qed.
  Lemma err_nonneg : 0 <= e1 + e2.
  Proof. pose proof (Rabs_pos (sl - sin phi)). pose proof (Rabs_pos (cl - cos phi)). lra. Qed.
  Hypothesis Hd : 0 < cos d.
  Lemma st_az_near : near_azimuth (e1 + e2) (st_az d sl cl h) phi d h.
  Proof.
    unfold st_az. destruct (Ratan2_polar (sin h) (cos h * sl - tan d * cl)) as [Hx Hy].
    set (q := sqrt _) in *. set (a := Ratan2 _ _) in *.
    exists (cos d * q). split; [apply Rmult_le_pos; [lra|apply sqrt_pos]|].
    rewrite !Rmult_assoc, <- Hx, <- Hy. split.
    - eapply Rle_trans; [|apply south_err]. right. f_equal. unfold tan. field. lra.
    - unfold sun_W. rewrite Rminus_diag_eq by reflexivity. rewrite Rabs_R0. apply err_nonneg.
  Qed.
  Lemma psa_az_near : near_azimuth (e1 + e2) (psa_az d sl cl h) phi d h.
  Proof.
    unfold psa_az. destruct (Ratan2_polar (- sin h) (tan d * cl - sl * cos h)) as [Hx Hy].
    set (q := sqrt _) in *. set (a := Ratan2 _ _) in *.
    exists (cos d * q). split; [apply Rmult_le_pos; [lra|apply sqrt_pos]|].
    rewrite cos_turn, sin_turn. split.
    - eapply Rle_trans; [|apply south_err]. right. f_equal.
      replace (cos d * q * - cos a) with (- (cos d * (q * cos a))) by ring. rewrite <- Hx. unfold tan. field. lra.
    - replace (cos d * q * - sin a) with (- (cos d * (q * sin a))) by ring. rewrite <- Hy. unfold sun_W.
      replace (_ - _) with 0 by ring. rewrite Rabs_R0. apply err_nonneg.
  Qed.
End Vector.

Lemma near_azimuth_le t t' a phi d h : t <= t' -> near_azimuth t a phi d h -> near_azimuth t' a phi d h.
Proof. intros H (rho & H0 & H1 & H2). exists rho. split; [exact H0|]. split; lra. Qed.
Lemma near_zenith_le t t' k z phi d h : t <= t' -> near_zenith t k z phi d h -> near_zenith t' k z phi d h.
Proof. intros H (z0 & H0 & H1 & H2). exists z0. split; [exact H0|]. split; [lra|exact H2]. Qed.
Lemma near_turn_shift x y y' e e' : near_turn x y e -> Rabs (y - y') <= e' -> near_turn x y' (e + e').
Proof.
  intros (k & H) H'. exists k. replace (x - y' - 2 * PI * IZR k) with ((x - y - 2 * PI * IZR k) + (y - y')) by ring.
  eapply Rle_trans; [apply Rabs_triang|]. lra.
Qed.
Lemma near_turn_via x y z w e e' e'' : near_turn x y e -> near_turn z w e' -> Rabs (y - w) <= e'' -> near_turn x z (e + e' + e'').
Proof.
  intros (k & H) (k' & H') H''. exists (k - k')%Z. rewrite minus_IZR.
  replace (x - z - 2 * PI * (IZR k - IZR k')) with ((x - y - 2 * PI * IZR k) + (- (z - w - 2 * PI * IZR k') + (y - w))) by ring.
  eapply Rle_trans; [apply Rabs_triang|]. assert (T := Rabs_triang (- (z - w - 2 * PI * IZR k')) (y - w)). rewrite Rabs_Ropp in T. lra.
Qed.
Lemma near_turn_0 x y e : Rabs (x - y) <= e -> near_turn x y e.
Proof. intros H. exists 0%Z. rewrite Rmult_0_r, Rminus_0_r. exact H. Qed.
Lemma near_turn_le x y e e' : e <= e' -> near_turn x y e -> near_turn x y e'.
Proof. intros H (k & Hk). exists k. lra. Qed.
Lemma hour_shift t lo lo' eot e : Rabs (lo' - lo) <= e -> Rabs (solar_hour_angle t lo' eot - solar_hour_angle t lo eot) <= e * (PI / 180).
Proof.
  intros H. unfold solar_hour_angle. replace (_ - _) with ((lo' - lo) * (PI / 180)) by ring.
  rewrite Rabs_mult. pose proof pi_b. rewrite (Rabs_pos_eq (PI / 180)) by lra. apply Rmult_le_compat_r; lra.
Qed.

(** ** Rounding errors *)
Section Round.
  Variable E : Env.
  Hypothesis HE : float32_like E.
  Lemma rl_unit x : -1 <= x <= 1 -> Rabs (rnd E x - x) <= 3 / 100000000.
  Proof. intros H. destruct HE as (HA & _). eapply Rle_trans; [now apply HA|]. lra. Qed.
  Lemma rl_abs x b : Rabs x <= b -> Rabs (rnd E x - x) <= b / 16777216 + 1 / 10 ^ 40.
  Proof. intros H. destruct HE as (_ & HR & _). eapply Rle_trans; [apply HR|]. lra. Qed.
  Lemma rl_bound x n : (Z.abs n <= 16777216)%Z -> Rabs x <= IZR n -> Rabs (rnd E x) <= IZR n.
  Proof.
    intros Hn H. destruct HE as (_ & _ & HM & HI). apply Rabs_le_inv in H. apply Rabs_le.
    assert (H1 := HM (- IZR n) x ltac:(lra)). assert (H2 := HM x (IZR n) ltac:(lra)).
    rewrite <- opp_IZR in H1. rewrite (HI (- n)%Z) in H1 by lia. rewrite HI in H2 by lia. rewrite opp_IZR in H1. lra.
  Qed.

  Variables (la lo : R).
  Hypothesis Hla : -90 <= la <= 90.
  Hypothesis Hlo : -180 <= lo <= 180.
  Lemma r_la : Rabs (rnd E la - la) <= 5.37 / 1000000 /\ Rabs (rnd E la) <= 90.
  Proof.
    assert (H : Rabs la <= 90) by (apply Rabs_le; lra). split; [|apply (rl_bound la 90); [lia|exact H]].
    eapply Rle_trans; [apply (rl_abs la 90 H)|]. lra.
  Qed.
  Lemma r_lo : Rabs (rnd E lo - lo) <= 10.73 / 1000000 /\ Rabs (rnd E lo) <= 180.
  Proof.
    assert (H : Rabs lo <= 180) by (apply Rabs_le; lra). split; [|apply (rl_bound lo 180); [lia|exact H]].
    eapply Rle_trans; [apply (rl_abs lo 180 H)|]. lra.
  Qed.
  Lemma deg_mul x e : Rabs x <= e -> Rabs (x * (PI / 180)) <= e * (PI / 180).
  Proof. intros H. pose proof pi_b. rewrite Rabs_mult, (Rabs_pos_eq (PI / 180)) by lra. apply Rmult_le_compat_r; lra. Qed.

  (** Latitude in radians: the three ways it is computed. *)
  Lemma lat_f64 : Rabs (rnd E la * (PI / 180) - la * (PI / 180)) <= 0.94 / 10000000.
  Proof.
    rewrite <- Rmult_minus_distr_r. eapply Rle_trans; [apply deg_mul, r_la|]. pose proof pi_b. lra.
  Qed.
  Lemma lat_radians32 : Rabs (rnd E (rnd E la * (PI / 180)) - la * (PI / 180)) <= 1.88 / 10000000.
  Proof.
    replace (_ - _) with ((rnd E (rnd E la * (PI / 180)) - rnd E la * (PI / 180)) + (rnd E la * (PI / 180) - la * (PI / 180))) by ring.
    eapply Rle_trans; [apply Rabs_triang|].
    assert (B : Rabs (rnd E la * (PI / 180)) <= 90 * (PI / 180)) by apply deg_mul, r_la.
    pose proof (rl_abs _ _ B) as H1. pose proof lat_f64 as H2. pose proof pi_b. lra.
  Qed.
  Lemma lat_iqbal : Rabs (rnd E (rnd E la * rnd E (PI / #180.0)) - la * (PI / 180)) <= 2.9 / 10000000.
  Proof.
    pose proof pi_b as HP. assert (Eq : PI / #180.0 = PI / 180) by (f_equal; q2r). rewrite Eq. clear Eq.
    assert (C := rl_abs (PI / 180) (PI / 180) ltac:(rewrite Rabs_pos_eq; lra)).
    set (k := rnd E (PI / 180)) in *. destruct r_la as [L1 L2].
    assert (K : Rabs k <= 0.0175). { apply abs_sub in C. apply Rabs_le. lra. }
    assert (B : Rabs (rnd E la * k) <= 90 * 0.0175) by (rewrite Rabs_mult; apply Rmult_le_compat; try apply Rabs_pos; assumption).
    pose proof (rl_abs _ _ B) as H1.
    replace (rnd E (rnd E la * k) - la * (PI / 180))
      with ((rnd E (rnd E la * k) - rnd E la * k) + (rnd E la * (k - PI / 180) + (rnd E la - la) * (PI / 180))) by ring.
    eapply Rle_trans; [apply Rabs_triang|].
    assert (H2 : Rabs (rnd E la * (k - PI / 180)) <= 90 * (PI / 180 / 16777216 + 1 / 10 ^ 40)).
    { rewrite Rabs_mult. apply Rmult_le_compat; try apply Rabs_pos; assumption. }
    pose proof (deg_mul _ _ L1) as H3. assert (H4 := Rabs_triang (rnd E la * (k - PI / 180)) ((rnd E la - la) * (PI / 180))). lra.
  Qed.
  (** Longitudes. *)
  Lemma lon_radians32 : Rabs (rnd E (rnd E lo * (PI / 180)) - lo * (PI / 180)) <= 3.76 / 10000000.
  Proof.
    replace (_ - _) with ((rnd E (rnd E lo * (PI / 180)) - rnd E lo * (PI / 180)) + ((rnd E lo - lo) * (PI / 180))) by ring.
    eapply Rle_trans; [apply Rabs_triang|]. destruct r_lo as [L1 L2].
    pose proof (rl_abs _ _ (deg_mul _ _ L2)) as H1. pose proof (deg_mul _ _ L1) as H2. pose proof pi_b. lra.
  Qed.
  Lemma lon_15 : Rabs (15 * rnd E (rnd E lo / 15) - lo) <= 21.47 / 1000000 /\ Rabs (15 * rnd E (rnd E lo / 15)) <= 180.
  Proof.
    destruct r_lo as [L1 L2]. assert (B : Rabs (rnd E lo / 15) <= 12).
    { unfold Rdiv. rewrite Rabs_mult, (Rabs_pos_eq (/ 15)) by lra. lra. }
    pose proof (rl_abs _ _ B) as H1. pose proof (rl_bound _ 12 ltac:(lia) B) as H2.
    apply abs_sub in H1. apply abs_sub in L1. apply Rabs_le_inv in H2. split; apply Rabs_le; lra.
  Qed.

  (** sine and cosine of a rounded latitude. *)
  Lemma sin_r p q e : Rabs (p - q) <= e -> Rabs (rnd E (sin p) - sin q) <= e + 3 / 100000000.
  Proof.
    intros H. replace (_ - _) with ((rnd E (sin p) - sin p) + (sin p - sin q)) by ring.
    eapply Rle_trans; [apply Rabs_triang|]. pose proof (rl_unit _ (SIN_bound p)). pose proof (sin_lip p q). lra.
  Qed.
  Lemma cos_r p q e : Rabs (p - q) <= e -> Rabs (rnd E (cos p) - cos q) <= e + 3 / 100000000.
  Proof.
    intros H. replace (_ - _) with ((rnd E (cos p) - cos p) + (cos p - cos q)) by ring.
    eapply Rle_trans; [apply Rabs_triang|]. pose proof (rl_unit _ (COS_bound p)). pose proof (cos_lip p q). lra.
  Qed.
End Round.

(** cos_lat = sqrt(1 - sin_lat ** 2), all in float32 (soltrack/numpy). *)
Lemma cos_sq1 x : Rabs (cos x - 1) <= Rabs x * Rabs x / 2.
Proof.
  replace x with (2 * (x / 2)) at 1 by field. rewrite cos_2a_sin.
  replace (1 - 2 * sin (x / 2) * sin (x / 2) - 1) with (- (2 * (sin (x / 2) * sin (x / 2)))) by ring.
  rewrite Rabs_Ropp, Rabs_pos_eq by (pose proof (Rle_0_sqr (sin (x / 2))); unfold Rsqr in *; lra).
  assert (H := sin_lip (x / 2) 0). rewrite sin_0, !Rminus_0_r in H.
  unfold Rdiv in H. rewrite (Rabs_mult x (/ 2)), (Rabs_pos_eq (/ 2)) in H by lra. fold (x / 2) in H.
  assert (Rabs (sin (x / 2)) * Rabs (sin (x / 2)) = sin (x / 2) * sin (x / 2)) by (rewrite <- Rabs_mult; apply Rabs_pos_eq; apply Rle_0_sqr).
  pose proof (Rabs_pos (sin (x / 2))). nra.
Qed.
Lemma sin_near p q e : Rabs (p - q) <= e -> Rabs (sin p - sin q) <= e * (Rabs (cos q) + e).
Proof.
  intros H. set (u := p - q) in *. replace p with (q + u) by (unfold u; ring). rewrite sin_plus.
  replace (_ - _) with (sin q * (cos u - 1) + cos q * sin u) by ring.
  eapply Rle_trans; [apply Rabs_triang|]. rewrite !Rabs_mult.
  assert (H1 := cos_sq1 u). assert (H2 := sin_lip u 0). rewrite sin_0, !Rminus_0_r in H2.
  assert (Rabs (sin q) <= 1) by (apply Rabs_le; pose proof (SIN_bound q); lra).
  pose proof (Rabs_pos (sin q)). pose proof (Rabs_pos (cos q)). pose proof (Rabs_pos u). pose proof (Rabs_pos (cos u - 1)).
  assert (Rabs u * Rabs u <= e * e) by nra. assert (Rabs (cos q) * Rabs (sin u) <= Rabs (cos q) * e) by (apply Rmult_le_compat_l; lra).
  assert (Rabs (sin q) * Rabs (cos u - 1) <= 1 * Rabs (cos u - 1)) by (apply Rmult_le_compat_r; lra).
  assert (0 <= e * e) by nra. rewrite Rmult_plus_distr_l, (Rmult_comm e (Rabs (cos q))). lra.
Qed.

Section Sqrt.
  Variable E : Env.
  Hypothesis HE : float32_like E.
  Variables (p q : R).
  Hypothesis Hpq : Rabs (p - q) <= 1.88 / 10000000.
  Hypothesis Hcq : 0 <= cos q.
  Definition sq_s : R := rnd E (sin p).
  Definition sq_w : R := rnd E (1 - rnd E (sq_s * sq_s)).
  Definition sq_c : R := rnd E (sqrt sq_w).

  Lemma sq_facts : 0 <= sq_w <= 1 /\ 0 <= 1 - rnd E (sq_s * sq_s) /\ Rabs (sq_w - cos q * cos q) <= 1.21 / 10000000 + 3.8 / 10000000 * cos q.
  Proof.
    pose proof (SIN_bound p) as Bs. pose proof (SIN_bound q) as Bq.
    assert (S1 := rl_bound E HE (sin p) 1 ltac:(lia) ltac:(apply Rabs_le; lra)). fold sq_s in S1. apply Rabs_le_inv in S1.
    assert (V0 : 0 <= sq_s * sq_s <= 1) by (split; nra).
    destruct HE as (_ & _ & HM & HI).
    assert (V1 : 0 <= rnd E (sq_s * sq_s) <= 1).
    { split; [rewrite <- (HI 0%Z) by lia|rewrite <- (HI 1%Z) by lia]; apply HM; lra. }
    assert (V2 := rl_unit E HE (sq_s * sq_s) ltac:(lra)).
    set (v := rnd E (sq_s * sq_s)) in *.
    assert (W1 : 0 <= sq_w <= 1).
    { unfold sq_w. fold v. assert (A0 := HM 0 (1 - v) ltac:(lra)). assert (A1 := HM (1 - v) 1 ltac:(lra)).
      rewrite (HI 0%Z) in A0 by lia. rewrite (HI 1%Z) in A1 by lia. lra. }
    assert (W2 := rl_unit E HE (1 - v) ltac:(lra)). unfold sq_w in *. fold v in W1 |- *.
    split; [exact W1|]. split; [lra|].
    assert (D1 := sin_near p q _ Hpq). rewrite (Rabs_pos_eq (cos q)) in D1 by exact Hcq.
    assert (D2 := rl_unit E HE (sin p) Bs). fold sq_s in D2.
    assert (D3 : Rabs (sq_s - sin q) <= 3 / 100000000 + 1.88 / 10000000 * (cos q + 1.88 / 10000000)).
    { replace (sq_s - sin q) with ((sq_s - sin p) + (sin p - sin q)) by ring. eapply Rle_trans; [apply Rabs_triang|]. lra. }
    assert (D4 : Rabs (sq_s * sq_s - sin q * sin q) <= 2 * (3 / 100000000 + 1.88 / 10000000 * (cos q + 1.88 / 10000000))).
    { replace (sq_s * sq_s - sin q * sin q) with ((sq_s - sin q) * (sq_s + sin q)) by ring. rewrite Rabs_mult.
      assert (Rabs (sq_s + sin q) <= 2) by (apply Rabs_le; lra). rewrite (Rmult_comm 2). apply Rmult_le_compat; try apply Rabs_pos; assumption. }
    pose proof (sc1 q) as Hq. apply Rabs_le_inv in D4. apply Rabs_le_inv in V2. apply Rabs_le_inv in W2. apply Rabs_le. nra.
  Qed.

  Lemma sqrt_near c e : 0 <= c -> Rabs (sq_w - c * c) <= e -> 
    (forall b, 0 < b <= c -> Rabs (sqrt sq_w - c) <= e / b) /\ (forall b, 0 <= b -> e <= b * b -> Rabs (sqrt sq_w - c) <= b).
  Proof.
    intros Hc He. destruct sq_facts as (W & _). assert (Q := sqrt_sqrt sq_w ltac:(lra)). assert (Q0 := sqrt_pos sq_w).
    set (r := sqrt sq_w) in *. rewrite <- Q in He. replace (r * r - c * c) with ((r - c) * (r + c)) in He by ring.
    rewrite Rabs_mult, (Rabs_pos_eq (r + c)) in He by lra. assert (A := Rabs_pos (r - c)). split.
    - intros b Hb. apply Rmult_le_reg_r with b; [lra|]. unfold Rdiv. rewrite Rmult_assoc, Rinv_l, Rmult_1_r by lra. nra.
    - intros b Hb Hbb. assert (Rabs (r - c) <= r + c) by (apply Rabs_le; lra).
      assert (Rabs (r - c) * Rabs (r - c) <= b * b) by nra. nra.
  Qed.

  Lemma sq_c_err : Rabs (sq_c - cos q) <= 3.7 / 10000 /\ (0.17 <= cos q -> Rabs (sq_c - cos q) <= 1.2 / 1000000).
  Proof.
    destruct sq_facts as (W & _ & H). assert (Q0 := sqrt_pos sq_w).
    assert (Q1 : sqrt sq_w <= 1) by (rewrite <- sqrt_1; apply sqrt_le_1_alt; lra).
    assert (R1 := rl_unit E HE (sqrt sq_w) ltac:(lra)). fold sq_c in R1.
    assert (T : forall b, Rabs (sqrt sq_w - cos q) <= b -> Rabs (sq_c - cos q) <= b + 3 / 100000000).
    { intros b Hb. replace (sq_c - cos q) with ((sq_c - sqrt sq_w) + (sqrt sq_w - cos q)) by ring.
      eapply Rle_trans; [apply Rabs_triang|]. lra. }
    destruct (sqrt_near (cos q) _ Hcq H) as [N1 N2]. pose proof (COS_bound q) as Bc. split.
    - destruct (Rle_dec (cos q) 0.02) as [Hl|Hl].
      + eapply Rle_trans; [apply T, (N2 (3.6 / 10000)); lra|]. lra.
      + eapply Rle_trans; [apply T, (N1 0.02); lra|]. lra.
    - intros Hq. eapply Rle_trans; [apply T, (N1 (cos q)); lra|].
      replace ((1.21 / 10000000 + 3.8 / 10000000 * cos q) / cos q) with (1.21 / 10000000 * / cos q + 3.8 / 10000000) by (field; lra).
      assert (/ cos q <= / 0.17) by (apply Rinv_le_contravar; lra). lra.
  Qed.
End Sqrt.

Lemma cos_80 la : Rabs la <= 80 -> 0.17 <= cos (la * (PI / 180)).
Proof.
  intros H. apply Rabs_le_inv in H. interval_intro (cos (80 * (PI / 180))) as HC.
  destruct (Rle_dec 0 la) as [Hp|Hp].
  - pose proof pi_b. assert (cos (80 * (PI / 180)) <= cos (la * (PI / 180))) by (apply cos_decr_1; nra). lra.
  - pose proof pi_b. rewrite <- cos_neg. assert (cos (80 * (PI / 180)) <= cos (- (la * (PI / 180)))) by (apply cos_decr_1; nra). lra.
Qed.
