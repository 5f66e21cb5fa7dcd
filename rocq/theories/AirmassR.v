(** * AirmassR: how the air mass formulas vary with the zenith angle (reals only) *)
From Coq Require Import ZArith QArith Reals Bool List String Lra Lia.
From Flocq Require Import Core.Raux.
From Coquelicot Require Import Coquelicot.
From Interval Require Import Tactic.
From Verif Require Import Num Ext ExtLemmas Sky SkyClose Sunpos SunposSpec SunposR.
Import ListNotations.
Open Scope R_scope.

(** The second term of the slant path. *)
Definition bend (c : R * R * R * R) (z : R) : R := let '(a, p, b, q) := c in a * zpow z p * Rpower (b - z) (- q).
Lemma slant_bend c z : slant c z = cos (rad z) + bend c z.
Proof. destruct c as [[[a p] b] q]. reflexivity. Qed.
Lemma bend_pos name c z : In (name, c) am_table -> 0 <= z -> 0 <= bend c z.
Proof.
  intros Hin Hz. assert (P : exists a p b q, c = (a, p, b, q) /\ 0 <= a) by (cbn [In am_table] in Hin; destruct Hin as [H|[H|[H|[H|[]]]]]; injection H as <- <-; do 4 eexists; (split; [reflexivity|lra])).
  destruct P as (a & p & b & q & -> & Ha). unfold bend. apply Rmult_le_pos; [apply Rmult_le_pos; [exact Ha|]|left; apply exp_pos].
  unfold zpow. destruct (Req_EM_T p 0); [lra|]. destruct (Req_EM_T z 0); [lra|]. left; apply exp_pos.
Qed.

(** ** The slant path falls from 1 degree to the horizon, and is at least 1 below 1 degree *)
Lemma falls (f f' : R -> R) a b m M : (forall z, a <= z <= b -> derivable_pt_lim f z (f' z)) -> (forall z, a <= z <= b -> m <= f' z <= M) ->
  forall x y, a <= x -> x <= y -> y <= b -> m * (y - x) <= f y - f x <= M * (y - x).
Proof.
  intros Hd Hn x y Hx [Hxy| <-] Hy; [|lra]. destruct (MVT_cor2 f f' x y Hxy) as (c & E & Hc); [intros z Hz; apply Hd; lra|].
  assert (m <= f' c <= M) by (apply Hn; lra). nra.
Qed.
Definition path0 (a b q z : R) : R := cos (z * (PI / 180)) + a * 1 * exp (- q * ln (b - z)).
Definition path0' (a b q z : R) : R := - (PI / 180) * sin (z * (PI / 180)) + a * exp (- q * ln (b - z)) * (q / (b - z)).
Definition path1 (a p b q z : R) : R := cos (z * (PI / 180)) + a * exp (p * ln z) * exp (- q * ln (b - z)).
Definition path1' (a p b q z : R) : R := - (PI / 180) * sin (z * (PI / 180)) + a * exp (p * ln z) * exp (- q * ln (b - z)) * (p / z + q / (b - z)).
Lemma path0_d a b q z : z < b -> derivable_pt_lim (path0 a b q) z (path0' a b q z).
Proof. intros H. apply is_derive_Reals. unfold path0, path0'. auto_derive; [lra|]. change (b + - z) with (b - z). field; lra. Qed.
Lemma path1_d a p b q z : 0 < z < b -> derivable_pt_lim (path1 a p b q) z (path1' a p b q z).
Proof. intros H. apply is_derive_Reals. unfold path1, path1'. auto_derive; [lra|]. change (b + - z) with (b - z). field; lra. Qed.
Lemma slant_path0 a b q z : slant (a, 0, b, q) z = path0 a b q z.
Proof. unfold slant, zpow, rad, path0, Rpower. destruct (Req_EM_T 0 0); [reflexivity|contradiction]. Qed.
Lemma slant_path1 a p b q z : p <> 0 -> 0 < z -> slant (a, p, b, q) z = path1 a p b q z.
Proof. intros Hp Hz. unfold slant, zpow, rad, path1, Rpower. destruct (Req_EM_T p 0); [contradiction|]. destruct (Req_EM_T z 0); [lra|]. reflexivity. Qed.

(** The second term rises with the zenith angle in all four, so that bounds at grid points bound it in between. *)
Lemma bend_rises n c x y : In (n, c) am_table -> 0 <= x <= y -> y <= 90 -> bend c x <= bend c y.
Proof.
  intros Hin Hx Hy. assert (P : exists a p b q, c = (a, p, b, q) /\ 0 <= a /\ 0 <= p /\ 90 < b /\ 0 <= q) by (cbn [In am_table] in Hin; destruct Hin as [H|[H|[H|[H|[]]]]]; injection H as <- <-; do 4 eexists; (split; [reflexivity|lra])).
  destruct P as (a & p & b & q & -> & Ha & Hp & Hb & Hq). unfold bend, Rpower.
  assert (exp_le : forall u v, u <= v -> exp u <= exp v) by (intros u v [L| ->]; [left; now apply exp_increasing|lra]).
  assert (ln_le : forall u v, 0 < u -> u <= v -> ln u <= ln v) by (intros u v U [L| ->]; [left; now apply ln_increasing|lra]).
  apply Rmult_le_compat; [apply Rmult_le_pos; [exact Ha|]|left; apply exp_pos| |].
  - unfold zpow. destruct (Req_EM_T p 0); [lra|]. destruct (Req_EM_T x 0); [lra|]. left; apply exp_pos.
  - apply Rmult_le_compat_l; [exact Ha|]. unfold zpow, Rpower. destruct (Req_EM_T p 0); [lra|]. destruct (Req_EM_T x 0), (Req_EM_T y 0); try lra; [left; apply exp_pos|].
    apply exp_le. apply Rmult_le_compat_l; [lra|]. apply ln_le; lra.
  - apply exp_le. assert (ln (b - y) <= ln (b - x)) by (apply ln_le; lra). nra.
Qed.
Lemma bend_near name c z : In (name, c) am_table -> 0 <= z <= 1 -> bend c z <= 0.0007.
Proof.
  intros Hin Hz. assert (Bz : forall a p b q, 0 <= a -> 0 <= p -> a * exp (- q * ln (b - z)) <= 0.0007 -> bend (a, p, b, q) z <= 0.0007).
  { intros a p b q Ha Hp Hm. unfold bend, Rpower. assert (Z : 0 <= zpow z p <= 1) by (destruct (Req_dec p 0) as [->|]; [unfold zpow; destruct (Req_EM_T 0 0); lra|apply zpow_small; lra]).
    assert (0 < exp (- q * ln (b - z))) by apply exp_pos. assert (0 <= a * exp (- q * ln (b - z))) by (apply Rmult_le_pos; lra). nra. }
  cbn [In am_table] in Hin. destruct Hin as [H|[H|[H|[H|[]]]]]; injection H as <- <-; (apply Bz; [lra|lra|clear - Hz; interval]).
Qed.
Definition between_all (z lo hi : R) : Prop := forall n c, In (n, c) am_table -> lo <= bend c z <= hi.
Ltac at_point := intros ? ? Hin; cbn [In am_table] in Hin; destruct Hin as [H|[H|[H|[H|[]]]]]; injection H as <- <-; unfold bend, zpow, Rpower;
  match goal with |- context [Req_EM_T ?p 0] => destruct (Req_EM_T p 0); [try (exfalso; lra)|try (exfalso; lra)] end; try match goal with |- context [Req_EM_T ?z 0] => destruct (Req_EM_T z 0); [exfalso; lra|] end; clear; interval with (i_prec 30).
Lemma at_1 : between_all 64.35 0.001615 0.002157. Proof. at_point. Qed.
Lemma at_2 : between_all 72.05 0.002629 0.003150. Proof. at_point. Qed.
Lemma at_3 : between_all 75.45 0.003425 0.003893. Proof. at_point. Qed.
Lemma at_4 : between_all 77.50 0.004101 0.004513. Proof. at_point. Qed.
Lemma at_5 : between_all 78.95 0.004714 0.005069. Proof. at_point. Qed.
Lemma at_6 : between_all 80.05 0.005279 0.005578. Proof. at_point. Qed.
Lemma at_7 : between_all 80.95 0.005824 0.006069. Proof. at_point. Qed.
Lemma at_8 : between_all 81.70 0.006349 0.006540. Proof. at_point. Qed.
Lemma at_9 : between_all 82.35 0.006866 0.007005. Proof. at_point. Qed.
Lemma at_10 : between_all 82.95 0.007403 0.007490. Proof. at_point. Qed.
Lemma at_11 : between_all 83.45 0.007904 0.007977. Proof. at_point. Qed.
Lemma at_12 : between_all 83.85 0.008340 0.008414. Proof. at_point. Qed.
Lemma at_13 : between_all 84.20 0.008719 0.008827. Proof. at_point. Qed.
Lemma at_14 : between_all 84.50 0.009070 0.009207. Proof. at_point. Qed.
Lemma at_15 : between_all 84.75 0.009382 0.009545. Proof. at_point. Qed.
Lemma at_16 : between_all 84.95 0.009646 0.009829. Proof. at_point. Qed.
Lemma at_17 : between_all 85.00 0.009714 0.009902. Proof. at_point. Qed.
Lemma at_18 : between_all 86.90 0.013132 0.013480. Proof. at_point. Qed.
Lemma at_19 : between_all 87.85 0.015772 0.016105. Proof. at_point. Qed.
Lemma at_20 : between_all 88.45 0.017983 0.018207. Proof. at_point. Qed.
Lemma at_21 : between_all 88.90 0.020040 0.020090. Proof. at_point. Qed.
Lemma at_22 : between_all 89.25 0.021748 0.021956. Proof. at_point. Qed.
Lemma at_23 : between_all 89.50 0.023089 0.023535. Proof. at_point. Qed.
Lemma at_24 : between_all 89.65 0.023956 0.024584. Proof. at_point. Qed.
Lemma at_25 : between_all 89.75 0.024563 0.025332. Proof. at_point. Qed.
Lemma at_26 : between_all 89.85 0.025194 0.026121. Proof. at_point. Qed.
Lemma at_27 : between_all 89.90 0.025519 0.026532. Proof. at_point. Qed.
Lemma at_28 : between_all 89.95 0.025851 0.026955. Proof. at_point. Qed.
Lemma at_29 : between_all 90.00 0.026190 0.027390. Proof. at_point. Qed.
Lemma at_62 : between_all 62 0 0.00197. Proof. at_point. Qed.
Lemma drop c n z : In (n, c) am_table -> 1 <= z <= 90 -> let '(a, p, b, q) := c in - (PI / 180) <= - (PI / 180) * sin (rad z) + bend c z * (p / z + q / (b - z)) <= -0.00001.
Proof.
  intros Hin Hz. assert (P : exists a p b q, c = (a, p, b, q) /\ 0 <= p <= 0.096 /\ 0 <= q /\ q / (b - 62) <= 0.051 /\ 93 <= b /\ q / (b - 90) <= 0.33) by (cbn [In am_table] in Hin; destruct Hin as [H|[H|[H|[H|[]]]]]; injection H as <- <-; do 4 eexists; (split; [reflexivity|]); lra).
  destruct P as (a & p & b & q & E & Hp & Hq & H1 & Hb & H2). assert (B := bend_pos n c z Hin ltac:(lra)).
  assert (Iz : forall u v, 0 < u -> u <= z -> z <= v -> v <= 90 -> p / z <= 0.096 / u /\ q / (b - z) <= q / (b - v)).
  { intros u v Hu Huz Hzv Hv. split; apply Rmult_le_compat; try lra; try (left; apply Rinv_0_lt_compat; lra); apply Rinv_le_contravar; lra. }
  assert (Sn : forall u, 0 <= u <= 90 -> u <= z -> sin (rad u) <= sin (rad z)) by (intros u Hu Huz; assert (X := PI_RGT_0); apply sin_incr_1; unfold rad; nra).
  rewrite E. rewrite <- E. assert (K : forall x y, 0 <= x -> x <= y -> bend c z <= y -> bend c z * x <= y * x) by (intros; apply Rmult_le_compat_r; lra).
  assert (Pz : 0 <= p / z) by (apply Rle_mult_inv_pos; lra). assert (Qz : 0 <= q / (b - z)) by (apply Rle_mult_inv_pos; lra).
  assert (PB : 0 < PI / 180) by (clear; interval). split; [assert (SB := SIN_bound (rad z)); nra|].
  destruct (Rle_dec z 62) as [L|L].
  - destruct (Iz 1 62) as [I1 I2]; try lra. assert (R1 := bend_rises n c z 62 Hin ltac:(lra) ltac:(lra)). assert (R2 := proj2 (at_62 _ _ Hin)). assert (S1 := Sn 1 ltac:(lra) ltac:(lra)).
    assert (W : 0.000304 <= PI / 180 * sin (rad 1)) by (clear; unfold rad; interval with (i_prec 30)). nra.
  - destruct (Iz 62 90) as [I1 I2]; try lra. assert (R1 := bend_rises n c z 90 Hin ltac:(lra) ltac:(lra)). assert (R2 := proj2 (at_29 _ _ Hin)). replace 90.00 with 90 in R2 by lra. assert (S1 := Sn 62 ltac:(lra) ltac:(lra)).
    assert (W : 0.0154 <= PI / 180 * sin (rad 62)) by (clear; unfold rad; interval with (i_prec 30)). nra.
Qed.
Lemma slant_slope name c x y : In (name, c) am_table -> 1 <= x -> x <= y -> y <= 90 -> - (PI / 180) * (y - x) <= slant c y - slant c x <= -0.00001 * (y - x).
Proof.
  intros Hin Hx Hxy Hy. assert (K := fun z => drop c name z Hin). cbn [In am_table] in Hin. destruct Hin as [H|[H|[H|[H|[]]]]]; injection H as <- <-.
  1, 2: rewrite !slant_path0; refine (falls (path0 _ _ _) (path0' _ _ _) 1 90 _ _ _ _ x y Hx Hxy Hy); [intros z Hz; apply path0_d; lra|];
    intros z Hz; specialize (K z Hz); unfold bend, zpow, Rpower in K; destruct (Req_EM_T 0 0); [|contradiction]; unfold path0'; unfold rad in K; replace (0 / z) with 0 in K by (unfold Rdiv; ring); lra.
  all: rewrite !slant_path1 by lra; refine (falls (path1 _ _ _ _) (path1' _ _ _ _) 1 90 _ _ _ _ x y Hx Hxy Hy); [intros z Hz; apply path1_d; lra|];
    intros z Hz; specialize (K z Hz); unfold bend, zpow, Rpower in K; match type of K with context [Req_EM_T ?p 0] => destruct (Req_EM_T p 0); [exfalso; lra|] end; destruct (Req_EM_T z 0); [exfalso; lra|]; unfold path1'; unfold rad in K; lra.
Qed.
Lemma slant_falls name c x y : In (name, c) am_table -> 1 <= x -> x < y -> y <= 90 -> slant c y < slant c x.
Proof. intros Hin Hx Hxy Hy. assert (S := slant_slope name c x y Hin Hx ltac:(lra) Hy). lra. Qed.

Lemma vers0 x : 2 - 2 * cos x <= x * x.
Proof.
  assert (H := sin_lip (x / 2) 0). rewrite sin_0, !Rminus_0_r in H. replace x with (2 * (x / 2)) at 1 by field. rewrite cos_2a_sin.
  assert (Rabs (sin (x / 2)) * Rabs (sin (x / 2)) = sin (x / 2) * sin (x / 2)) by (rewrite <- Rabs_mult; apply Rabs_pos_eq; nra).
  assert (Rabs (x / 2) * Rabs (x / 2) = x / 2 * (x / 2)) by (rewrite <- Rabs_mult; apply Rabs_pos_eq; nra).
  pose proof (Rabs_pos (sin (x / 2))). nra.
Qed.
Lemma slant_near name c z : In (name, c) am_table -> 0 <= z <= 1 -> 1 <= slant c z.
Proof.
  intros Hin Hz. cbn [In am_table] in Hin.
  assert (Cz : 1 - 0.0001524 * (z * z) <= cos (rad z)).
  { assert (V := vers0 (rad z)). assert (P : PI / 180 * (PI / 180) <= 0.0003048) by interval. assert (0 <= z * z) by nra. replace (rad z * rad z) with (z * z * (PI / 180 * (PI / 180))) in V by (unfold rad; ring). nra. }
  assert (G : forall a p b q, 0 < p < 1 -> 0.000155 <= a * exp (- q * ln b) -> 0 <= q -> 1 < b -> 0 <= a -> 1 <= slant (a, p, b, q) z).
  { intros a p b q Hp Hm Hq Hb Ha. destruct (Req_dec z 0) as [->|Nz].
    - unfold slant, zpow, rad. destruct (Req_EM_T p 0); [lra|]. destruct (Req_EM_T 0 0); [|contradiction]. rewrite Rmult_0_l, cos_0. lra.
    - rewrite slant_path1 by lra. unfold path1. fold (rad z).
      assert (E1 : z <= exp (p * ln z)).
      { assert (L : ln z <= 0) by (rewrite <- ln_1; destruct (Req_dec z 1) as [->|]; [lra|left; apply ln_increasing; lra]).
        rewrite <- (exp_ln z) at 1 by lra. destruct (Req_dec (ln z) (p * ln z)) as [<-|]; [lra|]. left. apply exp_increasing. nra. }
      assert (E2 : exp (- q * ln b) <= exp (- q * ln (b - z))).
      { assert (L : ln (b - z) <= ln b) by (left; apply ln_increasing; lra). destruct (Req_dec (- q * ln b) (- q * ln (b - z))) as [<-|]; [lra|]. left. apply exp_increasing. nra. }
      assert (0.000155 * z <= a * exp (p * ln z) * exp (- q * ln (b - z))).
      { assert (0 < exp (- q * ln b)) by apply exp_pos. assert (a * z <= a * exp (p * ln z)) by (apply Rmult_le_compat_l; lra).
        assert (a * z * exp (- q * ln b) <= a * exp (p * ln z) * exp (- q * ln (b - z))) by (apply Rmult_le_compat; [apply Rmult_le_pos|left; apply exp_pos| |]; lra). nra. }
      nra. }
  destruct Hin as [H|[H|[H|[H|[]]]]]; injection H as <- <-.
  1, 2: rewrite slant_path0; unfold path0; clear - Hz; interval with (i_bisect z).
  all: apply G; try lra; interval.
Qed.

Definition am (c : R * R * R * R) (z : R) : R := Rmax 1 (1 / slant c z).
Lemma am_flat name c z : In (name, c) am_table -> 0 <= z <= 1 -> am c z = 1.
Proof.
  intros Hin Hz. assert (H := slant_near name c z Hin Hz). unfold am. apply Rmax_left. apply Rmult_le_reg_r with (slant c z); [lra|].
  unfold Rdiv. rewrite Rmult_assoc, Rinv_l by lra. lra.
Qed.
Lemma am_mono name c x y : In (name, c) am_table -> 0 <= x <= y -> y <= 90 -> am c x <= am c y.
Proof.
  intros Hin Hx Hy. destruct (Rle_dec x 1) as [H1|H1]; [rewrite (am_flat name) by (auto; lra); apply Rmax_l|].
  destruct (Req_dec x y) as [->|Ne]; [lra|]. assert (S := slant_falls name c x y Hin ltac:(lra) ltac:(lra) Hy). assert (L := slant_low c name y Hin ltac:(lra)).
  unfold am. apply Rle_max_compat_l. unfold Rdiv. rewrite !Rmult_1_l. left. apply Rinv_lt_contravar; [nra|lra].
Qed.
Lemma slant_two name c z : In (name, c) am_table -> 2 <= z <= 90 -> slant c z < 1.
Proof.
  intros Hin Hz. assert (S2 : slant c 2 < 1).
  { cbn [In am_table] in Hin. destruct Hin as [H|[H|[H|[H|[]]]]]; injection H as <- <-; rewrite ?slant_path0, ?slant_path1 by lra; unfold path0, path1; interval. }
  destruct (Req_dec z 2) as [->|]; [exact S2|]. assert (S := slant_falls name c 2 z Hin ltac:(lra) ltac:(lra) ltac:(lra)). lra.
Qed.
Lemma am_strict name c x y : In (name, c) am_table -> 2 <= x <= y -> y <= 90 -> am c x + 0.00001 * (y - x) <= am c y.
Proof.
  intros Hin Hx Hy. assert (S := slant_slope name c x y Hin ltac:(lra) ltac:(lra) Hy). assert (L := slant_low c name y Hin ltac:(lra)).
  assert (Hs := slant_two name c x Hin ltac:(lra)). assert (Hs' := slant_two name c y Hin ltac:(lra)). assert (L' := slant_low c name x Hin ltac:(lra)). unfold am, Rdiv. rewrite !Rmult_1_l.
  assert (G : forall u, 0 < u < 1 -> 1 < / u) by (intros u Hu; rewrite <- Rinv_1 at 1; apply Rinv_lt_contravar; lra).
  assert (G1 := G (slant c x) ltac:(lra)). assert (G2 := G (slant c y) ltac:(lra)). rewrite !Rmax_right by lra.
  assert (E : / slant c y - / slant c x = (slant c x - slant c y) * (/ slant c x * / slant c y)) by (field; lra).
  assert (1 <= / slant c x * / slant c y) by nra. nra.
Qed.
Lemma am_lip name c x y : In (name, c) am_table -> 2 <= x <= y -> y <= 90 -> am c y - am c x <= 27 * (y - x).
Proof.
  intros Hin Hx Hy. assert (S := slant_slope name c x y Hin ltac:(lra) ltac:(lra) Hy). assert (L := slant_low c name y Hin ltac:(lra)).
  assert (Hs := slant_two name c x Hin ltac:(lra)). assert (Hs' := slant_two name c y Hin ltac:(lra)). assert (L' := slant_low c name x Hin ltac:(lra)). unfold am, Rdiv. rewrite !Rmult_1_l.
  assert (G : forall u, 1 / 39 <= u < 1 -> 1 < / u <= 39) by (intros u Hu; split; [rewrite <- Rinv_1 at 1; apply Rinv_lt_contravar; lra|replace 39 with (/ (1 / 39)) by field; apply Rinv_le_contravar; lra]).
  assert (G1 := G (slant c x) ltac:(lra)). assert (G2 := G (slant c y) ltac:(lra)). rewrite !Rmax_right by lra.
  assert (E : / slant c y - / slant c x = (slant c x - slant c y) * (/ slant c x * / slant c y)) by (field; lra). rewrite E.
  assert (PB : 0 < PI / 180 <= 0.01746) by (split; interval). assert (0 <= / slant c x * / slant c y <= 39 * 39) by (split; [nra|apply Rmult_le_compat; lra]).
  assert (0 <= slant c x - slant c y <= 0.01746 * (y - x)) by (split; nra).
  assert ((slant c x - slant c y) * (/ slant c x * / slant c y) <= 0.01746 * (y - x) * (39 * 39)) by (apply Rmult_le_compat; lra). lra.
Qed.

(** ** Against 1 / cos z *)
Lemma am_secant name c z : In (name, c) am_table -> 0 <= z < 90 -> am c z <= 1 / cos (rad z).
Proof.
  intros Hin Hz. assert (C : 0 < cos (rad z) <= 1) by (split; [apply cos_lat_pos; lra|apply COS_bound]). assert (B := bend_pos name c z Hin ltac:(lra)).
  unfold am, Rdiv. rewrite !Rmult_1_l. apply Rmax_lub.
  - rewrite <- Rinv_1 at 1. apply Rinv_le_contravar; lra.
  - apply Rinv_le_contravar; [lra|]. rewrite slant_bend. lra.
Qed.
Lemma am_high name c z : In (name, c) am_table -> 0 <= z <= 60 -> 0.996 / cos (rad z) <= am c z.
Proof.
  intros Hin Hz. assert (C : 0 < cos (rad z)) by (apply cos_lat_pos; lra). assert (L := slant_low c name z Hin ltac:(lra)).
  assert (K : bend c z <= 0.004 * cos (rad z)).
  { assert (Ch : 0.49999 <= cos (rad z)) by (unfold rad; clear - Hz; interval with (i_bisect z)).
    assert (K : bend c z <= 0.0019); [|lra]. destruct (Rle_dec z 1) as [H1|H1].
    - assert (Bz : forall a p b q, 0 <= a -> 0 <= p -> 0 <= exp (- q * ln (b - z)) -> a * exp (- q * ln (b - z)) <= 0.0019 -> bend (a, p, b, q) z <= 0.0019).
      { intros a p b q Ha Hp _ Hm. unfold bend, Rpower. assert (Z : 0 <= zpow z p <= 1) by (destruct (Req_dec p 0) as [->|]; [unfold zpow; destruct (Req_EM_T 0 0); lra|apply zpow_small; lra]).
        assert (0 < exp (- q * ln (b - z))) by apply exp_pos. assert (0 <= a * exp (- q * ln (b - z))) by (apply Rmult_le_pos; lra). nra. }
      cbn [In am_table] in Hin. destruct Hin as [H|[H|[H|[H|[]]]]]; injection H as <- <-; (apply Bz; [lra|lra|left; apply exp_pos|clear - Hz H1; interval]).
    - cbn [In am_table] in Hin. destruct Hin as [H|[H|[H|[H|[]]]]]; injection H as <- <-; unfold bend, zpow, Rpower.
      1, 2: destruct (Req_EM_T 0 0); [|contradiction]; clear - Hz; interval with (i_bisect z, i_prec 50).
      all: match goal with |- context [Req_EM_T ?p 0] => destruct (Req_EM_T p 0); [lra|] end; destruct (Req_EM_T z 0); [lra|]; assert (H2 : 1 <= z <= 60) by lra; clear - H2; interval with (i_bisect z, i_prec 50). }
  unfold am. eapply Rle_trans; [|apply Rmax_r]. apply Rmult_le_reg_r with (cos (rad z)); [lra|]. unfold Rdiv. rewrite Rmult_assoc, Rinv_l, Rmult_1_r, Rmult_1_l by lra.
  apply Rmult_le_reg_l with (slant c z); [lra|]. rewrite <- Rmult_assoc, Rinv_r, Rmult_1_l by lra. rewrite slant_bend. nra.
Qed.

(** ** One parameterization against another *)
Lemma piece u v lo lo' hi hi' cl e n c n' c' z : between_all u lo hi -> between_all v lo' hi' -> 0 <= u -> v <= 90 -> cl <= cos (rad v) -> 0 <= e -> hi' - lo <= e * (cl + lo) ->
  In (n, c) am_table -> In (n', c') am_table -> u <= z <= v -> slant c z <= (1 + e) * slant c' z.
Proof.
  intros B B' Hu Hv Hc He Hn Hin Hin' Hz. assert (P := proj2 (B' _ _ Hin)). assert (P' := proj1 (B _ _ Hin')).
  assert (Q := bend_rises _ _ z v Hin ltac:(lra) Hv). assert (Q' := bend_rises _ _ u z Hin' ltac:(lra) ltac:(lra)).
  assert (C : cos (rad v) <= cos (rad z)) by (assert (X := PI_RGT_0); apply cos_decr_1; unfold rad; nra). rewrite !slant_bend. nra.
Qed.
Lemma at_0 : between_all 0 0 0.0007.
Proof. intros n c Hin. split; [apply (bend_pos n); [exact Hin|lra]|apply (bend_near n); [exact Hin|lra]]. Qed.
Lemma slant_agree n c n' c' z : In (n, c) am_table -> In (n', c') am_table -> 0 <= z <= 90 ->
  slant c z <= 1.06 * slant c' z /\ (z <= 85 -> slant c z <= 1.005 * slant c' z).
Proof.
  intros Hin Hin' Hz. assert (P := slant_low c' n' z Hin' Hz).
  assert (K : (z <= 85 -> slant c z <= (1 + 0.005) * slant c' z) /\ (85 <= z -> slant c z <= (1 + 0.06) * slant c' z)).
  { split; intros H.
    - destruct (Rle_dec z 64.35); [refine (piece _ _ _ _ _ _ 0.432872 _ _ _ _ _ z at_0 at_1 _ _ _ _ _ Hin Hin' _); [lra|lra|clear; unfold rad; interval with (i_prec 30)|lra|lra|lra]|].
      destruct (Rle_dec z 72.05); [refine (piece _ _ _ _ _ _ 0.308186 _ _ _ _ _ z at_1 at_2 _ _ _ _ _ Hin Hin' _); [lra|lra|clear; unfold rad; interval with (i_prec 30)|lra|lra|lra]|].
      destruct (Rle_dec z 75.45); [refine (piece _ _ _ _ _ _ 0.251224 _ _ _ _ _ z at_2 at_3 _ _ _ _ _ Hin Hin' _); [lra|lra|clear; unfold rad; interval with (i_prec 30)|lra|lra|lra]|].
      destruct (Rle_dec z 77.50); [refine (piece _ _ _ _ _ _ 0.216439 _ _ _ _ _ z at_3 at_4 _ _ _ _ _ Hin Hin' _); [lra|lra|clear; unfold rad; interval with (i_prec 30)|lra|lra|lra]|].
      destruct (Rle_dec z 78.95); [refine (piece _ _ _ _ _ _ 0.191665 _ _ _ _ _ z at_4 at_5 _ _ _ _ _ Hin Hin' _); [lra|lra|clear; unfold rad; interval with (i_prec 30)|lra|lra|lra]|].
      destruct (Rle_dec z 80.05); [refine (piece _ _ _ _ _ _ 0.172788 _ _ _ _ _ z at_5 at_6 _ _ _ _ _ Hin Hin' _); [lra|lra|clear; unfold rad; interval with (i_prec 30)|lra|lra|lra]|].
      destruct (Rle_dec z 80.95); [refine (piece _ _ _ _ _ _ 0.157296 _ _ _ _ _ z at_6 at_7 _ _ _ _ _ Hin Hin' _); [lra|lra|clear; unfold rad; interval with (i_prec 30)|lra|lra|lra]|].
      destruct (Rle_dec z 81.70); [refine (piece _ _ _ _ _ _ 0.144355 _ _ _ _ _ z at_7 at_8 _ _ _ _ _ Hin Hin' _); [lra|lra|clear; unfold rad; interval with (i_prec 30)|lra|lra|lra]|].
      destruct (Rle_dec z 82.35); [refine (piece _ _ _ _ _ _ 0.133121 _ _ _ _ _ z at_8 at_9 _ _ _ _ _ Hin Hin' _); [lra|lra|clear; unfold rad; interval with (i_prec 30)|lra|lra|lra]|].
      destruct (Rle_dec z 82.95); [refine (piece _ _ _ _ _ _ 0.122735 _ _ _ _ _ z at_9 at_10 _ _ _ _ _ Hin Hin' _); [lra|lra|clear; unfold rad; interval with (i_prec 30)|lra|lra|lra]|].
      destruct (Rle_dec z 83.45); [refine (piece _ _ _ _ _ _ 0.114069 _ _ _ _ _ z at_10 at_11 _ _ _ _ _ Hin Hin' _); [lra|lra|clear; unfold rad; interval with (i_prec 30)|lra|lra|lra]|].
      destruct (Rle_dec z 83.85); [refine (piece _ _ _ _ _ _ 0.107131 _ _ _ _ _ z at_11 at_12 _ _ _ _ _ Hin Hin' _); [lra|lra|clear; unfold rad; interval with (i_prec 30)|lra|lra|lra]|].
      destruct (Rle_dec z 84.20); [refine (piece _ _ _ _ _ _ 0.101055 _ _ _ _ _ z at_12 at_13 _ _ _ _ _ Hin Hin' _); [lra|lra|clear; unfold rad; interval with (i_prec 30)|lra|lra|lra]|].
      destruct (Rle_dec z 84.50); [refine (piece _ _ _ _ _ _ 0.095845 _ _ _ _ _ z at_13 at_14 _ _ _ _ _ Hin Hin' _); [lra|lra|clear; unfold rad; interval with (i_prec 30)|lra|lra|lra]|].
      destruct (Rle_dec z 84.75); [refine (piece _ _ _ _ _ _ 0.091501 _ _ _ _ _ z at_14 at_15 _ _ _ _ _ Hin Hin' _); [lra|lra|clear; unfold rad; interval with (i_prec 30)|lra|lra|lra]|].
      destruct (Rle_dec z 84.95); [refine (piece _ _ _ _ _ _ 0.088024 _ _ _ _ _ z at_15 at_16 _ _ _ _ _ Hin Hin' _); [lra|lra|clear; unfold rad; interval with (i_prec 30)|lra|lra|lra]|].
      refine (piece _ _ _ _ _ _ 0.087155 _ _ _ _ _ z at_16 at_17 _ _ _ _ _ Hin Hin' _); [lra|lra|clear; unfold rad; interval with (i_prec 30)|lra|lra|lra].
    - destruct (Rle_dec z 86.90); [refine (piece _ _ _ _ _ _ 0.054078 _ _ _ _ _ z at_17 at_18 _ _ _ _ _ Hin Hin' _); [lra|lra|clear; unfold rad; interval with (i_prec 30)|lra|lra|lra]|].
      destruct (Rle_dec z 87.85); [refine (piece _ _ _ _ _ _ 0.037515 _ _ _ _ _ z at_18 at_19 _ _ _ _ _ Hin Hin' _); [lra|lra|clear; unfold rad; interval with (i_prec 30)|lra|lra|lra]|].
      destruct (Rle_dec z 88.45); [refine (piece _ _ _ _ _ _ 0.027049 _ _ _ _ _ z at_19 at_20 _ _ _ _ _ Hin Hin' _); [lra|lra|clear; unfold rad; interval with (i_prec 30)|lra|lra|lra]|].
      destruct (Rle_dec z 88.90); [refine (piece _ _ _ _ _ _ 0.019197 _ _ _ _ _ z at_20 at_21 _ _ _ _ _ Hin Hin' _); [lra|lra|clear; unfold rad; interval with (i_prec 30)|lra|lra|lra]|].
      destruct (Rle_dec z 89.25); [refine (piece _ _ _ _ _ _ 0.013089 _ _ _ _ _ z at_21 at_22 _ _ _ _ _ Hin Hin' _); [lra|lra|clear; unfold rad; interval with (i_prec 30)|lra|lra|lra]|].
      destruct (Rle_dec z 89.50); [refine (piece _ _ _ _ _ _ 0.008726 _ _ _ _ _ z at_22 at_23 _ _ _ _ _ Hin Hin' _); [lra|lra|clear; unfold rad; interval with (i_prec 30)|lra|lra|lra]|].
      destruct (Rle_dec z 89.65); [refine (piece _ _ _ _ _ _ 0.006108 _ _ _ _ _ z at_23 at_24 _ _ _ _ _ Hin Hin' _); [lra|lra|clear; unfold rad; interval with (i_prec 30)|lra|lra|lra]|].
      destruct (Rle_dec z 89.75); [refine (piece _ _ _ _ _ _ 0.004363 _ _ _ _ _ z at_24 at_25 _ _ _ _ _ Hin Hin' _); [lra|lra|clear; unfold rad; interval with (i_prec 30)|lra|lra|lra]|].
      destruct (Rle_dec z 89.85); [refine (piece _ _ _ _ _ _ 0.002617 _ _ _ _ _ z at_25 at_26 _ _ _ _ _ Hin Hin' _); [lra|lra|clear; unfold rad; interval with (i_prec 30)|lra|lra|lra]|].
      destruct (Rle_dec z 89.90); [refine (piece _ _ _ _ _ _ 0.001745 _ _ _ _ _ z at_26 at_27 _ _ _ _ _ Hin Hin' _); [lra|lra|clear; unfold rad; interval with (i_prec 30)|lra|lra|lra]|].
      destruct (Rle_dec z 89.95); [refine (piece _ _ _ _ _ _ 0.000872 _ _ _ _ _ z at_27 at_28 _ _ _ _ _ Hin Hin' _); [lra|lra|clear; unfold rad; interval with (i_prec 30)|lra|lra|lra]|].
      refine (piece _ _ _ _ _ _ 0 _ _ _ _ _ z at_28 at_29 _ _ _ _ _ Hin Hin' _); [lra|lra|replace (rad 90.00) with (PI / 2) by (unfold rad; lra); rewrite cos_PI2; lra|lra|lra|lra]. }
  split; [|intros L; assert (X := proj1 K L); lra]. destruct (Rle_dec z 85) as [L|L]; [assert (X := proj1 K L)|assert (X := proj2 K ltac:(lra))]; lra.
Qed.
Lemma am_agree n c n' c' z : In (n, c) am_table -> In (n', c') am_table -> 0 <= z <= 90 -> am c z <= 1.06 * am c' z /\ (z <= 85 -> am c z <= 1.005 * am c' z).
Proof.
  intros Hin Hin' Hz. assert (S := slant_agree _ _ _ _ z Hin' Hin Hz). assert (L := slant_low c n z Hin Hz). assert (L' := slant_low c' n' z Hin' Hz).
  assert (G : forall e, 0 <= e -> slant c' z <= (1 + e) * slant c z -> am c z <= (1 + e) * am c' z).
  { intros e He Hs. unfold am. assert (M := Rmax_l 1 (1 / slant c' z)). assert (M' := Rmax_r 1 (1 / slant c' z)). apply Rmax_lub; [nra|].
    eapply Rle_trans; [|apply Rmult_le_compat_l; [lra|exact M']]. apply Rmult_le_reg_r with (slant c z); [lra|]. unfold Rdiv. rewrite !Rmult_1_l, Rinv_l by lra.
    apply Rmult_le_reg_r with (slant c' z); [lra|]. replace ((1 + e) * / slant c' z * slant c z * slant c' z) with ((1 + e) * slant c z) by (field; lra). lra. }
  split; [replace 1.06 with (1 + 0.06) by lra; apply G; lra|]. intros H85. replace 1.005 with (1 + 0.005) by lra. apply G; [lra|]. apply S in H85. lra.
Qed.

(** ** The clearness-index corrections *)
Lemma perez_d0 g k l u v m : 0 < m -> 0 < u + v / m -> 0 < u * m + v ->
  derivable_pt_lim (fun m => g + k * exp (l / (u + v / m))) m (k * exp (l / (u + v / m)) * (l * v / ((u * m + v) * (u * m + v)))).
Proof. intros H H1 H2. apply is_derive_Reals. auto_derive; [repeat split; lra|]. change (l * / (u + v * / m)) with (l / (u + v / m)). set (E := exp (l / (u + v / m))). field. lra. Qed.
Lemma gonz_d0 g h k u v m : 0 < m ->
  derivable_pt_lim (fun m => g + h * exp (k * m * (u - v * ln m))) m (h * exp (k * m * (u - v * ln m)) * (k * (u - v - v * ln m))).
Proof. intros H. apply is_derive_Reals. auto_derive; [repeat split; lra|]. change (u + - (v * ln m)) with (u - v * ln m). set (E := exp (k * m * (u - v * ln m))). field. lra. Qed.
Definition perez' (m : R) : R := 1.031 * exp (- 1.4 / (0.9 + 9.4 / m)) * (- 1.4 * 9.4 / ((0.9 * m + 9.4) * (0.9 * m + 9.4))).
Definition gonz' (m : R) : R := 0.957 * exp (- 1.74 * m * (0.124 - 0.0285 * ln m)) * (- 1.74 * (0.124 - 0.0285 - 0.0285 * ln m)).
Lemma perez_d m : 1 <= m -> derivable_pt_lim perez m (perez' m).
Proof. intros H. apply (perez_d0 0.1 1.031 (- 1.4) 0.9 9.4 m); [lra| |lra]. assert (0 < 9.4 / m) by (apply Rdiv_lt_0_compat; lra). lra. Qed.
Lemma gonz_d m : 1 <= m -> derivable_pt_lim gonzalez_calbo m (gonz' m).
Proof. intros H. apply (gonz_d0 0.229 0.957 (- 1.74) 0.124 0.0285 m). lra. Qed.

(** Both fall with the air mass, perez_1990 everywhere, gonzalez_and_calbo_1999 up to air mass 28; and neither changes fast. *)
Lemma perez_slope x y : 1 <= x -> x <= y -> y <= 39.1 -> - 0.2 * (y - x) <= perez y - perez x <= 0 * (y - x).
Proof.
  intros Hx Hxy Hy. refine (falls perez perez' 1 39.1 _ _ _ _ x y Hx Hxy Hy).
  - intros z Hz. apply perez_d. lra.
  - clear. intros m Hm. unfold perez'. interval with (i_prec 30).
Qed.
Lemma gonz_slope x y : 1 <= x -> x <= y -> y <= 39.1 -> - 0.2 * (y - x) <= gonzalez_calbo y - gonzalez_calbo x <= 0.2 * (y - x).
Proof.
  intros Hx Hxy Hy. refine (falls gonzalez_calbo gonz' 1 39.1 _ _ _ _ x y Hx Hxy Hy).
  - intros z Hz. apply gonz_d. lra.
  - clear. intros m Hm. unfold gonz'. interval with (i_prec 30).
Qed.
Lemma gonz_falls x y : 1 <= x -> x <= y -> y <= 28 -> gonzalez_calbo y <= gonzalez_calbo x.
Proof.
  intros Hx Hxy Hy. assert (F : -1 * (y - x) <= gonzalez_calbo y - gonzalez_calbo x <= 0 * (y - x)); [|lra].
  refine (falls gonzalez_calbo gonz' 1 28 _ _ _ _ x y Hx Hxy Hy).
  - intros z Hz. apply gonz_d. lra.
  - clear. intros m Hm. unfold gonz'. interval with (i_prec 30).
Qed.
Lemma gonz_end x y : 25 <= x -> x <= y -> y <= 39.1 -> gonzalez_calbo y - gonzalez_calbo x <= 0.007 * (y - x) /\ 0.33 <= gonzalez_calbo x.
Proof.
  intros Hx Hxy Hy. split; [|assert (H : 25 <= x <= 39.1) by lra; clear - H; unfold gonzalez_calbo; interval with (i_prec 30)].
  assert (F : -1 * (y - x) <= gonzalez_calbo y - gonzalez_calbo x <= 0.007 * (y - x)); [|lra].
  refine (falls gonzalez_calbo gonz' 25 39.1 _ _ _ _ x y Hx Hxy Hy).
  - intros z Hz. apply gonz_d. lra.
  - clear. intros m Hm. unfold gonz'. interval with (i_prec 30).
Qed.
Lemma skart_falls x y : x <= y -> skartveit y <= skartveit x.
Proof. intros H. unfold skartveit. assert (exp (- 0.06 * (90 - x)) <= exp (- 0.06 * (90 - y))); [|lra]. destruct H as [H| ->]; [left; apply exp_increasing; lra|lra]. Qed.

(** ** Irradiance on the horizontal, for a unit solar constant at unit distance *)
Definition cor (name : string) (z : R) : R :=
  if String.eqb name "perez_1990" then perez (am (0.50572, 0, 96.07995, 1.6364) z)
  else if String.eqb name "skarveith_1998" then skartveit z
  else if String.eqb name "gonzalez_and_calbo_1999" then gonzalez_calbo (am (0.48353, 0.095846, 96.741, 1.754) z) else 1.
Lemma cosd_falls x y : 0 <= x <= y -> y <= 90 -> 0 <= cos (rad y) <= cos (rad x).
Proof. intros H Hy. assert (X := PI_RGT_0). split; [apply cos_ge_0; unfold rad; nra|apply cos_decr_1; unfold rad; nra]. Qed.
Lemma cosd_slope x y : 89 <= x -> x <= y -> y <= 90 -> -1 * (y - x) <= cos (rad y) - cos (rad x) <= -0.0174 * (y - x).
Proof.
  intros Hx Hxy Hy. unfold rad. refine (falls (fun z => cos (z * (PI / 180))) (fun z => - (PI / 180) * sin (z * (PI / 180))) 89 90 _ _ _ _ x y Hx Hxy Hy).
  - intros z Hz. apply is_derive_Reals. auto_derive; [exact I|]. field.
  - clear. intros z Hz. cbv beta. interval with (i_prec 30).
Qed.
Lemma am_range n c z : In (n, c) am_table -> 0 <= z <= 90 -> 1 <= am c z <= 39.
Proof.
  intros Hin Hz. assert (L := slant_low c n z Hin Hz). unfold am. split; [apply Rmax_l|]. apply Rmax_lub; [lra|]. unfold Rdiv. rewrite Rmult_1_l. replace 39 with (/ (1 / 39)) by field. apply Rinv_le_contravar; lra.
Qed.
Lemma unit_irradiance_falls name x y : 0 <= x <= y -> y <= 90 -> cos (rad y) * cor name y <= cos (rad x) * cor name x.
Proof.
  intros Hx Hy. assert (C := cosd_falls x y Hx Hy). unfold cor.
  assert (I1 : In ("kasten_and_young_1989"%string, (0.50572, 0, 96.07995, 1.6364)) am_table) by (cbn; tauto). assert (I2 : In ("gueymard_2003"%string, (0.48353, 0.095846, 96.741, 1.754)) am_table) by (cbn; tauto).
  destruct (String.eqb name "perez_1990").
  { set (c := (0.50572, 0, 96.07995, 1.6364)) in *. assert (M := am_mono _ _ x y I1 Hx Hy). assert (R1 := am_range _ _ x I1 ltac:(lra)). assert (R2 := am_range _ _ y I1 ltac:(lra)).
    assert (P := perez_slope (am c x) (am c y) ltac:(lra) M ltac:(lra)). assert (B := perez_bounds (am c y) R2). apply Rmult_le_compat; lra. }
  destruct (String.eqb name "skarveith_1998").
  { assert (S := skart_falls x y (proj2 Hx)). assert (B := skartveit_bounds y ltac:(lra)). apply Rmult_le_compat; lra. }
  destruct (String.eqb name "gonzalez_and_calbo_1999"); [|lra].
  set (c := (0.48353, 0.095846, 96.741, 1.754)) in *.
  assert (Fl : forall u v, 0 <= u <= v -> v <= 89 -> cos (rad v) * gonzalez_calbo (am c v) <= cos (rad u) * gonzalez_calbo (am c u)).
  { intros u v Hu Hv. assert (M := am_mono _ _ u v I2 Hu ltac:(lra)). assert (M9 := am_mono _ _ v 89 I2 ltac:(lra) ltac:(lra)). assert (R1 := am_range _ _ u I2 ltac:(lra)). assert (R2 := am_range _ _ v I2 ltac:(lra)).
    assert (A9 : am c 89 <= 28). { unfold am. apply Rmax_lub; [lra|]. unfold c. rewrite slant_path1 by lra. unfold path1. clear. interval with (i_prec 30). }
    assert (P := gonz_falls (am c u) (am c v) ltac:(lra) M ltac:(lra)). assert (B := gonzalez_bounds (am c v) R2). assert (Cu := cosd_falls u v Hu ltac:(lra)). apply Rmult_le_compat; lra. }
  assert (Fe : forall u v, 89 <= u <= v -> v <= 90 -> cos (rad v) * gonzalez_calbo (am c v) <= cos (rad u) * gonzalez_calbo (am c u)).
  { intros u v Hu Hv. assert (M := am_mono _ _ u v I2 ltac:(lra) Hv). assert (M9 := am_mono _ _ 89 u I2 ltac:(lra) ltac:(lra)). assert (R2 := am_range _ _ v I2 ltac:(lra)).
    assert (A9 : 25 <= am c 89). { unfold am. eapply Rle_trans; [|apply Rmax_r]. unfold c. rewrite slant_path1 by lra. unfold path1. clear. interval with (i_prec 30). }
    destruct (gonz_end (am c u) (am c v) ltac:(lra) M ltac:(lra)) as [G1 G2]. assert (A := am_lip _ _ u v I2 ltac:(lra) Hv). assert (S := cosd_slope u v ltac:(lra) ltac:(lra) Hv).
    assert (Cv : 0 <= cos (rad v) <= 0.0175) by (split; [apply (cosd_falls v v); lra|]; assert (H : 89 <= v <= 90) by lra; clear - H; unfold rad; interval with (i_prec 30)).
    assert (G3 : gonzalez_calbo (am c v) <= gonzalez_calbo (am c u) + 0.189 * (v - u)) by nra. nra. }
  destruct (Rle_dec y 89) as [H1|H1]; [now apply Fl|]. destruct (Rle_dec x 89) as [H2|H2]; [|apply Fe; lra].
  eapply Rle_trans; [apply (Fe 89 y); lra|apply (Fl x 89); lra].
Qed.
