(** * Float64: IEEE binary64 with correctly rounded library functions is [double_like] *)

From Coq Require Import ZArith QArith Reals Bool List Lra Lia.
From Flocq Require Import Core Relative.
From Interval Require Import Tactic.
From Verif Require Import Num Ext ExtLemmas Sky AstroSpec SingleSpec Float32 Float32L Double.
Open Scope R_scope.

#[local] Instance p53 : Prec_gt_0 53 := eq_refl.
#[local] Instance v64 : Valid_exp (FLT_exp (-1074) 53) := FLT_exp_valid (-1074) 53.
(** binary64: 53-bit significands, least exponent -1074. *)
Definition r64n (x : R) : R := round radix2 (FLT_exp (-1074) 53) ZnearestE x.

Definition float64_env : Env64 := {|
  single := float32_env; r64 := r64n;
  sin64 x := r64n (sin x); cos64 x := r64n (cos x); tan64 x := if Req_EM_T (cos x) 0 then 2 ^ 53 else r64n (tan x);
  asin64 x := r64n (asin x); acos64 x := r64n (acos x); atan64 x := r64n (atan x); atan264 y x := r64n (Ratan2 y x);
  exp64 x := r64n (exp x); ln64 x := r64n (ln x); pow64 x n := r64n (x ^ n); powf64 x y := r64n (Rpower x y);
  sum64 l := r64n (Rsum l);
  sinf x := r32 (sin x); cosf x := r32 (cos x); nesinf x := r32 (sin x); necosf x := r32 (cos x);
  radf x := r32 (x * (PI / 180)) |}.

Lemma r64_generic x : generic_format radix2 (FLT_exp (-1074) 53) x -> r64n x = x.
Proof. intros H. apply round_generic; [apply valid_rnd_N|exact H]. Qed.
Lemma r64_is_generic x : generic_format radix2 (FLT_exp (-1074) 53) (r64n x).
Proof. apply generic_format_round; [exact v64|apply valid_rnd_N]. Qed.
Lemma r64_float m e : (Z.abs m < 2 ^ 53)%Z -> (-1074 <= e)%Z -> r64n (IZR m * bpow radix2 e) = IZR m * bpow radix2 e.
Proof. intros Hm He. apply r64_generic, generic_format_FLT. exists (Float radix2 m e); [reflexivity|exact Hm|exact He]. Qed.
Lemma r64_int n : (Z.abs n <= 2 ^ 53)%Z -> r64n (IZR n) = IZR n.
Proof.
  intros H. destruct (Z.eq_dec (Z.abs n) (2 ^ 53)) as [E|E].
  - replace (IZR n) with (IZR (Z.sgn n) * bpow radix2 53).
    + apply r64_float; [change (2 ^ 53)%Z with 9007199254740992%Z in *; lia|lia].
    + change (bpow radix2 53) with (IZR (2 ^ 53)). rewrite <- mult_IZR. f_equal. rewrite <- E. change (2 ^ 53)%Z with 9007199254740992%Z in *. lia.
  - replace (IZR n) with (IZR n * bpow radix2 0) by (cbn; ring). apply r64_float; lia.
Qed.
Lemma r64_mono x y : x <= y -> r64n x <= r64n y.
Proof. intros H. apply round_le; [exact v64|apply valid_rnd_N|exact H]. Qed.
Lemma r64_err x : Rabs (r64n x - x) <= Rabs x / 2 ^ 53 + / 2 ^ 1000.
Proof.
  destruct (error_N_FLT radix2 (-1074) 53 eq_refl (fun z => negb (Z.even z)) x) as (eps & eta & H1 & H2 & _ & H3).
  unfold r64n. fold ZnearestE in H3. rewrite H3.
  replace (x * (1 + eps) + eta - x) with (x * eps + eta) by ring.
  eapply Rle_trans; [apply Rabs_triang|]. rewrite Rabs_mult.
  assert (B1 : / 2 * bpow radix2 (- (53) + 1) <= / 2 ^ 53).
  { change (bpow radix2 (- (53) + 1)) with (/ IZR (2 ^ 52)). lra. }
  assert (B2 : / 2 * bpow radix2 (-1074) <= / 2 ^ 1000).
  { assert (Hb : bpow radix2 (-1074) <= bpow radix2 (-1000)) by (apply bpow_le; lia).
    replace (/ 2 ^ 1000) with (bpow radix2 (-1000)).
    - pose proof (bpow_gt_0 radix2 (-1000)). lra.
    - change (-1000)%Z with (- (1000))%Z. rewrite bpow_opp. f_equal. rewrite (pow_IZR 2 1000). reflexivity. }
  assert (0 <= Rabs x) by apply Rabs_pos.
  assert (Rabs x * Rabs eps <= Rabs x * / 2 ^ 53) by (apply Rmult_le_compat_l; lra). unfold Rdiv. lra.
Qed.
Lemma tiny_1000 : 0 < / 2 ^ 1000 <= / 2 ^ 60.
Proof.
  split; [apply Rinv_0_lt_compat, pow_lt; lra|]. apply Rinv_le_contravar; [apply pow_lt; lra|]. apply Rle_pow; [lra|lia].
Qed.
Lemma r64_near x b : Rabs x <= b -> b <= 7 -> Rabs (r64n x - x) <= / 2 ^ 50.
Proof.
  intros H Hb. eapply Rle_trans; [apply r64_err|]. pose proof tiny_1000. lra.
Qed.
Lemma r64_unit f x : -1 <= f <= 1 -> x = f -> -1 <= r64n x <= 1.
Proof. intros H ->. assert (A := r64_mono _ _ (proj1 H)). assert (B := r64_mono _ _ (proj2 H)).
  rewrite (r64_int (-1)) in A by lia. rewrite (r64_int 1) in B by lia. lra. Qed.
Lemma r32_unit x : -1 <= x <= 1 -> -1 <= r32 x <= 1.
Proof. intros H. destruct r32_like as (_ & _ & M & I). cbn [rnd float32_env] in M, I. assert (A := M _ _ (proj1 H)). assert (B := M _ _ (proj2 H)).
  rewrite (I (-1)%Z) in A by lia. rewrite (I 1%Z) in B by lia. lra. Qed.
Lemma r64_opp x : r64n (- x) = - r64n x.
Proof. unfold r64n. apply round_NE_opp. Qed.
Lemma r64_PI : 3.14 <= r64n PI <= 3.15.
Proof.
  assert (H := r64_err PI). pose proof tiny_1000 as HT. rewrite (Rabs_pos_eq PI) in H by (pose proof PI_RGT_0; lra).
  assert (3.141 <= PI <= 3.142) by (split; interval). generalize dependent (/ 2 ^ 1000). intros t H HT. apply Rabs_le_inv in H. lra.
Qed.
Lemma Rsum_abs l : Rabs (Rsum l) <= Rsum (map Rabs l).
Proof. unfold Rsum. induction l as [|x l IH]; cbn [map fold_right]; [rewrite Rabs_R0; lra|]. eapply Rle_trans; [apply Rabs_triang|]. lra. Qed.

Lemma r64_half_PI : r64n (1 / 2 * r64n PI) = 1 / 2 * r64n PI.
Proof.
  assert (G := r64_is_generic PI). apply FLT_format_generic in G; [|exact eq_refl]. destruct G as [[m e] H1 H2 H3].
  rewrite H1. unfold F2R. cbn [Fnum Fexp] in *.
  assert (He : (-1073 <= e)%Z).
  { destruct (Z.le_gt_cases (-1073) e) as [|C]; [assumption|exfalso]. pose proof r64_PI as HP. rewrite H1 in HP. unfold F2R in HP. cbn [Fnum Fexp] in HP.
    assert (Hb : bpow radix2 e <= bpow radix2 (-53)) by (apply bpow_le; lia). pose proof (bpow_gt_0 radix2 e) as Hg.
    assert (Hm : IZR m <= IZR (2 ^ 53)) by (apply IZR_le; change (radix2 ^ 53)%Z with (2 ^ 53)%Z in H2; lia).
    assert (Hbb : IZR (2 ^ 53) * bpow radix2 (-53) = 1).
    { change (bpow radix2 (-53)) with (/ IZR (2 ^ 53)). field. apply not_0_IZR. discriminate. }
    assert (IZR m * bpow radix2 e <= IZR (2 ^ 53) * bpow radix2 e) by (apply Rmult_le_compat_r; lra).
    assert (IZR (2 ^ 53) * bpow radix2 e <= IZR (2 ^ 53) * bpow radix2 (-53)) by (apply Rmult_le_compat_l; [apply IZR_le; lia|lra]).
    lra. }
  replace (1 / 2 * (IZR m * bpow radix2 e)) with (IZR m * bpow radix2 (e - 1)).
  - apply r64_float; [exact H2|lia].
  - replace (e - 1)%Z with (-1 + e)%Z by lia. rewrite bpow_plus. change (bpow radix2 (-1)) with (/ 2). field.
Qed.

Lemma r64_PI2 : r64n (PI / 2) = 1 / 2 * r64n PI.
Proof.
  assert (M1 : mag radix2 PI = 2%Z :> Z).
  { apply mag_unique. rewrite Rabs_pos_eq by (pose proof PI_RGT_0; lra). change (bpow radix2 (2 - 1)) with 2. change (bpow radix2 2) with 4. split; interval. }
  assert (M2 : mag radix2 (PI / 2) = 1%Z :> Z).
  { apply mag_unique. rewrite Rabs_pos_eq by (pose proof PI_RGT_0; lra). change (bpow radix2 (1 - 1)) with 1. change (bpow radix2 1) with 2. split; interval. }
  unfold r64n, round, scaled_mantissa, cexp, F2R. cbn [Fnum Fexp]. rewrite M1, M2.
  change (FLT_exp (-1074) 53 2%Z) with (-51)%Z. change (FLT_exp (-1074) 53 1%Z) with (-52)%Z.
  assert (B1 : bpow radix2 (- (-52)) = 2 * bpow radix2 (- (-51))) by (cbn [bpow Z.opp]; rewrite <- mult_IZR; reflexivity).
  assert (B2 : bpow radix2 (-51) = 2 * bpow radix2 (-52)) by (replace (-51)%Z with (1 + -52)%Z by lia; rewrite bpow_plus; reflexivity).
  rewrite B1, B2. replace (PI / 2 * (2 * bpow radix2 (- (-51)))) with (PI * bpow radix2 (- (-51))) by field. field.
Qed.

(** A number within half a unit in the last place of m * 2^e. *)
Lemma r64_value x m e : (-1074 <= e)%Z -> bpow radix2 (e + 52) <= x < bpow radix2 (e + 53) -> Rabs (x * bpow radix2 (- e) - IZR m) < 1 / 2 ->
  r64n x = IZR m * bpow radix2 e.
Proof.
  intros He Hx Hm. pose proof (bpow_gt_0 radix2 (e + 52)) as P.
  assert (M : mag radix2 x = (e + 53)%Z :> Z) by (apply mag_unique; rewrite Rabs_pos_eq by lra; replace (e + 53 - 1)%Z with (e + 52)%Z by lia; exact Hx).
  unfold r64n, round, scaled_mantissa, cexp, F2R. cbn [Fnum Fexp]. rewrite M.
  assert (C : FLT_exp (-1074) 53 (e + 53) = e) by (unfold FLT_exp; lia). rewrite C.
  f_equal. f_equal. apply Znearest_imp. lra.
Qed.
Lemma r64_pi_value : r64n PI = 7074237752028440 / 2251799813685248.
Proof.
  rewrite (r64_value PI 7074237752028440 (-51)).
  - change (bpow radix2 (-51)) with (/ IZR (2 ^ 51)). change (2 ^ 51)%Z with 2251799813685248%Z. lra.
  - lia.
  - change (bpow radix2 (-51 + 52)) with 2. change (bpow radix2 (-51 + 53)) with 4. split; interval.
  - change (bpow radix2 (- -51)) with (IZR (2 ^ 51)). change (2 ^ 51)%Z with 2251799813685248%Z.
    assert (3.14159265358979323 <= PI <= 3.14159265358979324) by (split; interval with (i_prec 80)). apply Rabs_def1; lra.
Qed.
Lemma r64_rad_value : r64n (r64n PI / 180) = 5030569068109113 / 288230376151711744.
Proof.
  rewrite r64_pi_value. rewrite (r64_value _ 5030569068109113 (-58)).
  - change (bpow radix2 (-58)) with (/ IZR (2 ^ 58)). change (2 ^ 58)%Z with 288230376151711744%Z. lra.
  - lia.
  - change (bpow radix2 (-58 + 52)) with (/ IZR (2 ^ 6)). change (bpow radix2 (-58 + 53)) with (/ IZR (2 ^ 5)). change (2 ^ 6)%Z with 64%Z. change (2 ^ 5)%Z with 32%Z. lra.
  - change (bpow radix2 (- -58)) with (IZR (2 ^ 58)). change (2 ^ 58)%Z with 288230376151711744%Z. apply Rabs_def1; lra.
Qed.
Lemma r64_pole : r64n (90 * r64n (r64n PI / 180)) < PI / 2.
Proof.
  rewrite r64_rad_value. rewrite (r64_value _ 7074237752028440 (-52)).
  - change (bpow radix2 (-52)) with (/ IZR (2 ^ 52)). change (2 ^ 52)%Z with 4503599627370496%Z.
    assert (3.14159265358979323 <= PI) by (interval with (i_prec 80)). lra.
  - lia.
  - change (bpow radix2 (-52 + 52)) with 1. change (bpow radix2 (-52 + 53)) with 2. lra.
  - change (bpow radix2 (- -52)) with (IZR (2 ^ 52)). change (2 ^ 52)%Z with 4503599627370496%Z. apply Rabs_def1; lra.
Qed.

Theorem float64_like : double_like float64_env.
Proof.
  pose proof tiny_1000 as HT. pose proof PI_RGT_0 as HP0. assert (HP : PI <= 3.15) by interval.
  assert (S32 : forall (f : R -> R) x, -1 <= f x <= 1 -> Rabs (r32 (f x) - f x) <= / 2 ^ 23).
  { intros f x Hf. eapply Rle_trans; [exact (r32_accurate (f x) Hf)|]. lra. }
  split; cbn [float64_env single r64 sin64 cos64 tan64 asin64 acos64 atan64 atan264 exp64 ln64 pow64 powf64 sum64 sinf cosf nesinf necosf radf].
  - exact r32_like.
  - exact r64_err.
  - exact r64_mono.
  - exact r64_int.
  - intros x. apply r64_generic, r64_is_generic.
  - exact r64_opp.
  - exact r64_pole.
  - split; [|exact r64_half_PI]. replace (1 / 2) with (IZR 1 * bpow radix2 (-1)) by (change (bpow radix2 (-1)) with (/ 2); lra).
    apply r64_float; lia.
  - split; intros x; [apply (r64_near _ 1); [apply Rabs_le, SIN_bound|lra]|apply (r64_unit (sin x)); [apply SIN_bound|reflexivity]].
  - split; intros x; [apply (r64_near _ 1); [apply Rabs_le, COS_bound|lra]|apply (r64_unit (cos x)); [apply COS_bound|reflexivity]].
  - intros x Hx. destruct (Req_EM_T (cos x) 0) as [E|_]; [contradiction|]. eapply Rle_trans; [apply r64_err|]. assert (0 <= Rabs (tan x)) by apply Rabs_pos. lra.
  - intros x Hx. destruct (Req_EM_T (cos x) 0) as [_|E]; [|contradiction]. rewrite Rabs_pos_eq by (apply pow_le; lra). apply Rle_pow; [lra|lia].
  - intros x Hx. pose proof (asin_bound x) as Hb. split; [apply (r64_near _ 2); [apply Rabs_le; lra|lra]|].
    rewrite <- r64_half_PI.
    assert (B : Rabs (asin x) <= PI / 2) by (apply Rabs_le; lra).
    assert (Q : r64n (PI / 2) = r64n (1 / 2 * r64n PI)).
    { rewrite r64_half_PI. apply r64_PI2. }
    rewrite <- Q. apply Rabs_le_inv in B. apply Rabs_le. rewrite <- r64_opp. split; apply r64_mono; lra.
  - intros x Hx. pose proof (acos_bound x) as Hb. split; [apply (r64_near _ 4); [apply Rabs_le; lra|lra]|].
    split; [rewrite <- (r64_int 0) by lia|]; apply r64_mono; lra.
  - intros x. pose proof (atan_bound x) as Hb. apply (r64_near _ 2); [apply Rabs_le; lra|lra].
  - intros y x. pose proof (Ratan2_range y x) as Hb. split.
    + apply Rabs_le. rewrite <- r64_opp. split; apply r64_mono; lra.
    + exists 0%Z. intros _. rewrite Rmult_0_r, Rminus_0_r. apply (r64_near _ 4); [apply Rabs_le; lra|lra].
  - intros x n. eapply Rle_trans; [apply r64_err|]. assert (0 <= Rabs (x ^ n)) by apply Rabs_pos. lra.
  - intros x. eapply Rle_trans; [apply r64_err|]. assert (0 < exp x) by apply exp_pos. rewrite Rabs_pos_eq by lra. lra.
  - intros x _. eapply Rle_trans; [apply r64_err|]. assert (0 <= Rabs (ln x)) by apply Rabs_pos. lra.
  - intros x y _. eapply Rle_trans; [apply r64_err|]. unfold Rpower. assert (0 < exp (y * ln x)) by apply exp_pos. rewrite Rabs_pos_eq by lra. lra.
  - intros l _. eapply Rle_trans; [apply r64_err|]. pose proof (Rsum_abs l) as H. assert (0 <= Rabs (Rsum l)) by apply Rabs_pos.
    assert (/ 2 ^ 1000 <= / 2 ^ 900) by (apply Rinv_le_contravar; [apply pow_lt; lra|apply Rle_pow; [lra|lia]]). lra.
  - split; intros x; [apply (S32 sin), SIN_bound|apply r32_unit, SIN_bound].
  - split; intros x; [apply (S32 cos), COS_bound|apply r32_unit, COS_bound].
  - split; intros x; [apply (S32 sin), SIN_bound|apply r32_unit, SIN_bound].
  - split; intros x; [apply (S32 cos), COS_bound|apply r32_unit, COS_bound].
  - intros x. eapply Rle_trans; [apply r32_rel|]. rewrite Rabs_mult, (Rabs_pos_eq (PI / 180)) by lra.
    assert (0 <= Rabs x) by apply Rabs_pos. assert (0 <= Rabs x * (PI / 180)) by nra. lra.
Qed.
