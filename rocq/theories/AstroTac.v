(** * AstroTac: the time range and helpers for interval bounds *)

From Coq Require Import ZArith QArith Reals Lra Lia.
From Interval Require Import Tactic.
From Verif Require Import Num Ext ExtLemmas Sky.
Open Scope R_scope.

(** Seconds since 1970 inside the datetime64[ns] range (1677-09-21 .. 2262-04-11). *)
Definition in_ns_range (s : R) : Prop := -9223372037 <= s <= 9223372037.

Lemma jde_bounds s : in_ns_range s -> -117710 <= s / #86400 - #10957.5 <= 95795.
Proof. unfold in_ns_range. q2r. Qed.
Lemma jdc_bounds s : in_ns_range s -> -3.223 <= (s / #86400 - #10957.5) / #36525.0 <= 2.623.
Proof. unfold in_ns_range. q2r. Qed.

(** |asin (sin e * sin l)| <= e for an acute e. *)
Lemma asin_sinsin e l : 0 <= e <= PI / 2 -> - e <= asin (sin e * sin l) <= e.
Proof.
  intros He. pose proof PI_RGT_0. pose proof (SIN_bound l) as [Hl1 Hl2].
  assert (0 <= sin e) by (apply sin_ge_0; lra). pose proof (SIN_bound e) as [He1 He2].
  assert (Ee : asin (sin e) = e) by (apply asin_sin; lra).
  assert (En : asin (- sin e) = - e) by (rewrite asin_opp, Ee; reflexivity).
  assert (Hm : forall a b, -1 <= a <= 1 -> -1 <= b <= 1 -> a <= b -> asin a <= asin b).
  { intros a b Ha Hb Hab. pose proof (asin_bound a). pose proof (asin_bound b).
    destruct (Rle_or_lt (asin a) (asin b)) as [|Hlt]; [assumption|].
    assert (sin (asin b) < sin (asin a)) by (apply sin_increasing_1; lra).
    rewrite !sin_asin in * by assumption. lra. }
  split; [rewrite <- En|rewrite <- Ee at 2]; apply Hm; try split; nra.
Qed.

(** ** Angles modulo whole turns *)
Lemma angle_reduce d : exists k : Z, - PI <= d - 2 * PI * IZR k < PI.
Proof.
  pose proof PI_RGT_0. destruct (floor_mod_spec (d + PI) (2 * PI)) as (k & Hk & Hb); [lra|].
  exists k. rewrite Hk in Hb. lra.
Qed.
Lemma IZR_nat_cases k : exists n : nat, IZR k = INR n \/ IZR k = - INR n.
Proof.
  exists (Z.to_nat (Z.abs k)). rewrite INR_IZR_INZ, Z2Nat.id by lia.
  destruct (Z.abs_eq_or_opp k) as [->| ->]; [now left|right]. rewrite opp_IZR. ring.
Qed.
Lemma cos_2kpi d k : cos (d - 2 * PI * IZR k) = cos d.
Proof.
  destruct (IZR_nat_cases k) as (n & [->| ->]).
  - rewrite <- (cos_period (d - 2 * PI * INR n) n). f_equal. ring.
  - rewrite <- (cos_period d n). f_equal. ring.
Qed.
Lemma sin_2kpi d k : sin (d - 2 * PI * IZR k) = sin d.
Proof.
  destruct (IZR_nat_cases k) as (n & [->| ->]).
  - rewrite <- (sin_period (d - 2 * PI * INR n) n). f_equal. ring.
  - rewrite <- (sin_period d n). f_equal. ring.
Qed.

Lemma atan_le_abs x t : Rabs x <= t -> Rabs (atan x) <= t.
Proof.
  intros H. assert (Hp : forall y, 0 <= y -> 0 <= atan y <= y).
  { intros y [Hy| <-]; [|rewrite atan_0; lra]. split.
    - rewrite <- atan_0. left. now apply atan_increasing.
    - destruct (MVT_cor2 atan (fun x => / (1 + x^2)) 0 y Hy) as (c & Hc & Hcb).
      { intros c _. apply derivable_pt_lim_atan. }
      rewrite atan_0 in Hc.
      assert (/ (1 + c ^ 2) <= 1). { rewrite <- Rinv_1. apply Rinv_le_contravar; nra. } nra. }
  destruct (Rle_or_lt 0 x) as [Hx|Hx].
  - specialize (Hp x Hx). rewrite Rabs_pos_eq in * by lra. lra.
  - specialize (Hp (- x)). rewrite atan_opp in Hp. rewrite Rabs_left in H by lra.
    rewrite Rabs_left1 by lra. lra.
Qed.

(** cos d > 0 and |sin d| <= t cos d: d is within t of a whole turn. *)
Lemma small_tan d t : 0 < cos d -> Rabs (sin d) <= t * cos d -> exists k : Z, Rabs (d - 2 * PI * IZR k) <= t.
Proof.
  intros Hc Ht. pose proof PI_RGT_0. destruct (angle_reduce d) as (k & Hk). exists k.
  rewrite <- (cos_2kpi d k) in Hc, Ht. rewrite <- (sin_2kpi d k) in Ht. set (x := d - 2 * PI * IZR k) in *.
  assert (Hx : - (PI / 2) < x < PI / 2).
  { split.
    - apply Rnot_le_lt. intros Hn. assert (cos (- x) <= 0) by (apply cos_le_0; lra). rewrite cos_neg in *. lra.
    - apply Rnot_le_lt. intros Hn. assert (cos x <= 0) by (apply cos_le_0; lra). lra. }
  rewrite <- (atan_tan x) by lra. apply atan_le_abs. unfold tan, Rdiv. rewrite Rabs_mult, Rabs_inv, (Rabs_pos_eq (cos x)) by lra.
  apply Rmult_le_reg_r with (cos x); [assumption|]. rewrite Rmult_assoc, Rinv_l by lra. lra.
Qed.

(** Reduction to the equator: ecliptic longitude minus right ascension. *)
Lemma reduction_small c l : 0.917 <= c <= 1 -> exists k : Z, Rabs (l - Ratan2 (c * sin l) (cos l) - 2 * PI * IZR k) <= 0.0434.
Proof.
  intros Hc. apply small_tan; rewrite ?cos_minus, ?sin_minus;
  destruct (Sky.Ratan2_polar (c * sin l) (cos l)) as [Hx Hy];
  assert (Hq := sqrt_pos (cos l ^ 2 + (c * sin l) ^ 2));
  set (q := sqrt _) in *; set (r := Ratan2 _ _) in *; pose proof (Sky.sc1 l) as H1;
  set (cl := cos l) in *; set (sl := sin l) in *.
  - assert (Hp : 0 < q * (cl * cos r + sl * sin r)).
    { replace (q * (cl * cos r + sl * sin r)) with (cl * (q * cos r) + sl * (q * sin r)) by ring.
      rewrite <- Hx, <- Hy. nra. }
    destruct (Rle_or_lt (cl * cos r + sl * sin r) 0); [nra|lra].
  - assert (Hcos : q * (cl * cos r + sl * sin r) = cl * cl + c * (sl * sl)).
    { replace (q * (cl * cos r + sl * sin r)) with (cl * (q * cos r) + sl * (q * sin r)) by ring.
      rewrite <- Hx, <- Hy. ring. }
    assert (Hsin : q * (sl * cos r - cl * sin r) = (1 - c) * (sl * cl)).
    { replace (q * (sl * cos r - cl * sin r)) with (sl * (q * cos r) - cl * (q * sin r)) by ring.
      rewrite <- Hx, <- Hy. ring. }
    assert (Hpos : 0 < cl * cl + c * (sl * sl)) by nra.
    assert (Hq0 : 0 < q). { destruct Hq as [|E]; [assumption|]. rewrite <- E in Hcos. lra. }
    apply Rmult_le_reg_l with q; [assumption|].
    rewrite <- (Rabs_pos_eq q) at 1 by lra. rewrite <- Rabs_mult, Hsin.
    replace (q * (0.0434 * (cl * cos r + sl * sin r))) with (0.0434 * (q * (cl * cos r + sl * sin r))) by ring.
    rewrite Hcos. assert (Hsq : Rsqr ((1 - c) * (sl * cl)) <= Rsqr (0.0434 * (cl * cl + c * (sl * sl)))).
    { unfold Rsqr. assert (4 * c * (sl * cl) * (sl * cl) <= (cl * cl + c * (sl * sl)) * (cl * cl + c * (sl * sl))).
      { assert (0 <= (cl * cl - c * (sl * sl)) * (cl * cl - c * (sl * sl))) by apply Rle_0_sqr. lra. }
      assert (0 <= (sl * cl) * (sl * cl)) by apply Rle_0_sqr.
      assert ((1 - c) * (1 - c) <= 0.0434 * 0.0434 * (4 * c)) by nra.
      replace ((1 - c) * (sl * cl) * ((1 - c) * (sl * cl))) with ((1 - c) * (1 - c) * (sl * cl * (sl * cl))) by ring.
      nra. }
    apply Rsqr_le_abs_0 in Hsq. rewrite (Rabs_pos_eq (0.0434 * _)) in Hsq by nra. exact Hsq.
Qed.

(** Wrapping of the equation of time by whole days. *)
Lemma eot_wrap_lt_first x e (n : Z) :
  x = e + 1440 * IZR n -> Rabs e < 20 -> Rabs x < 1461 ->
  let y := where_ (Rltb x (- 20)) (x + 1440) x in
  where_ (Rltb 20 y) (y - 1440) y = e.
Proof.
  intros Hx He Hn. apply Rabs_def2 in He, Hn.
  assert (Hn3 : (n = -1 \/ n = 0 \/ n = 1)%Z).
  { assert (-2 < IZR n < 2) by lra. assert (-2 < n < 2)%Z by (split; apply lt_IZR; lra). lia. }
  cbv zeta. unfold where_, Rltb. destruct Hn3 as [->|[->| ->]];
  repeat match goal with |- context [Rlt_dec ?a ?b] => destruct (Rlt_dec a b) end; lra.
Qed.
Lemma eot_wrap_gt_first x e (n : Z) :
  x = e + 1440 * IZR n -> Rabs e < 20 -> Rabs x < 1461 ->
  let y := where_ (Rltb 20 x) (x - 1440) x in
  where_ (Rltb y (- 20)) (y + 1440) y = e.
Proof.
  intros Hx He Hn. apply Rabs_def2 in He, Hn.
  assert (Hn3 : (n = -1 \/ n = 0 \/ n = 1)%Z).
  { assert (-2 < IZR n < 2) by lra. assert (-2 < n < 2)%Z by (split; apply lt_IZR; lra). lia. }
  cbv zeta. unfold where_, Rltb. destruct Hn3 as [->|[->| ->]];
  repeat match goal with |- context [Rlt_dec ?a ?b] => destruct (Rlt_dec a b) end; lra.
Qed.

Lemma Q0 : #0 = 0. Proof. q2r. Qed.
Lemma Q00 : #0.0 = 0. Proof. q2r. Qed.
Lemma Q20 : #20.0 = 20. Proof. q2r. Qed.
Lemma Q1440 : #1440 = 1440. Proof. q2r. Qed.
Lemma Q14400 : #1440.0 = 1440. Proof. q2r. Qed.
Lemma Q1 : #1 = 1. Proof. q2r. Qed.
Lemma Q10 : #1.0 = 1. Proof. q2r. Qed.
Lemma Q4 : #4 = 4. Proof. q2r. Qed.
Lemma Q360 : #360 = 360. Proof. q2r. Qed.
Lemma Q3600 : #360.0 = 360. Proof. q2r. Qed.
Ltac qs := rewrite ?Q0, ?Q00, ?Q20, ?Q1440, ?Q14400, ?Q1, ?Q10, ?Q4, ?Q360, ?Q3600 in *.

Lemma rad_minutes_abs x : Rabs (4 * x * (180 / PI)) = Rabs x * (720 / PI).
Proof.
  assert (0 < 720 / PI) by (apply Rdiv_lt_0_compat; [lra|apply PI_RGT_0]).
  replace (4 * x * (180 / PI)) with (x * (720 / PI)) by (field; apply PI_neq).
  rewrite Rabs_mult. now rewrite (Rabs_pos_eq (720 / PI)) by lra.
Qed.
Lemma rad_minutes x : Rabs x <= 0.0776 -> Rabs (4 * x * (180 / PI)) <= 17.8.
Proof.
  intros H. rewrite rad_minutes_abs.
  assert (0 <= 720 / PI <= 229.2) by (split; interval). assert (0 <= Rabs x) by apply Rabs_pos. nra.
Qed.
