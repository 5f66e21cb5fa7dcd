(** * SunposD: the accessors in double precision *)

From Coq Require Import ZArith QArith Reals Bool List String Lra Lia.
From Flocq Require Import Core.Raux.
From Interval Require Import Tactic.
From Verif Require Import Num Arrays Libspa Time Core Usecases Spec Ext ExtLemmas Sky SkyClose AstroTac SingleSpec
  Double DoubleTac DoubleLemmas DoubleSpec RefrD Sunpos SunposSpec SunposLemmas SunposR SunposCells.
Import ListNotations.
Open Scope R_scope.

Ltac rz := unfold Rz, u90, S90; match goal with |- context[IZR ?z * _] => let z' := eval vm_compute in z in change z with z' end; lra.
Lemma ap_exact v b : Rabs v <= Rz b -> apb (Fin v) v b 0.
Proof. intros H. apply ap_fin; [|exact H]. rewrite Rminus_diag_eq, Rabs_R0 by reflexivity. unfold Rz. lra. Qed.
Lemma Rz_int n : Rz (n * S90) = IZR n.
Proof. unfold Rz. rewrite mult_IZR, Rmult_assoc. fold (Rz S90). rewrite Rz_S. ring. Qed.
Lemma tiny30 : / 2 ^ 1000 <= / 10 ^ 27.
Proof. apply Rle_trans with u90; [exact tiny_u90|]. unfold u90, S90. lra. Qed.

Lemma reads_mapv {A B} (f : A -> B) a k j i x y : reads a k j i x -> f x = y -> reads (da_map f a) k j i y.
Proof. intros H <-. now apply reads_map. Qed.
Lemma reads_map2v {A B C} (f : A -> B -> C) a b k j i x y z : reads a k j i x -> reads b k j i y -> f x y = z -> reads (da_map2 f a b) k j i z.
Proof. intros H1 H2 <-. now apply reads_map2. Qed.

Lemma exp_close v a e M : Rabs (v - a) <= e -> e <= 0.001 -> exp a <= M -> Rabs (exp v - exp a) <= 1.002 * M * e.
Proof.
  intros H He HM. assert (K : forall c, a - e <= c <= a + e -> exp c <= 1.002 * M).
  { intros c Hc. replace c with (a + (c - a)) by ring. rewrite exp_plus. assert (0 < exp a) by apply exp_pos.
    assert (exp (c - a) <= 1.002) by (assert (Hd : -0.001 <= c - a <= 0.001) by lra; clear - Hd; set (d := c - a) in *; clearbody d; interval). assert (0 < exp (c - a)) by apply exp_pos. nra. }
  apply Rabs_le_inv in H. destruct (Rtotal_order v a) as [L|[->|L]].
  - destruct (MVT_cor2 exp exp v a L) as (c & Hc & Hi); [intros; apply derivable_pt_lim_exp|]. assert (T := K c ltac:(lra)).
    assert (0 < exp c) by apply exp_pos. rewrite Rabs_left1 by nra. nra.
  - rewrite Rminus_diag_eq, Rabs_R0 by reflexivity. assert (0 < exp a) by apply exp_pos. nra.
  - destruct (MVT_cor2 exp exp a v L) as (c & Hc & Hi); [intros; apply derivable_pt_lim_exp|]. assert (T := K c ltac:(lra)).
    assert (0 < exp c) by apply exp_pos. rewrite Rabs_pos_eq by nra. nra.
Qed.
Lemma ln_close m v a : 0 < m -> m <= v -> m <= a -> Rabs (ln v - ln a) <= Rabs (v - a) / m.
Proof.
  intros Hm. assert (K : forall x y, m <= x -> x < y -> 0 <= ln y - ln x <= (y - x) / m).
  { intros x y Hx Hxy. destruct (MVT_cor2 ln Rinv x y Hxy) as (c & Hc & Hi); [intros c Hc; apply derivable_pt_lim_ln; lra|].
    rewrite Hc. assert (0 < / c) by (apply Rinv_0_lt_compat; lra). assert (/ c <= / m) by (apply Rinv_le_contravar; lra). unfold Rdiv. nra. }
  intros Hv Ha. destruct (Rtotal_order v a) as [L|[->|L]].
  - destruct (K v a Hv L). rewrite (Rabs_left1 (v - a)), (Rabs_left1 (ln v - ln a)) by lra. replace (- (v - a)) with (a - v) by ring. lra.
  - rewrite !Rminus_diag_eq, Rabs_R0 by reflexivity. unfold Rdiv. lra.
  - destruct (K a v Ha L). rewrite (Rabs_pos_eq (v - a)), (Rabs_pos_eq (ln v - ln a)) by lra. lra.
Qed.
Lemma mul_exp_neg x : 0 <= x -> x * exp (- x) <= 1.
Proof.
  intros H. rewrite exp_Ropp. assert (P := exp_pos x). assert (L := exp_ineq1_le x). apply Rmult_le_reg_r with (exp x); [exact P|].
  rewrite Rmult_assoc, Rinv_l by lra. lra.
Qed.

Section D64.
  Variable D : Env64.
  Hypothesis HD : double_like D.
  Notation O64 := (DoubleOps D).

  Lemma lit_int q n : Q2R q = IZR n -> (Z.abs n <= 2 ^ 53)%Z -> lit (Ops := O64) q = Fin (IZR n).
  Proof. intros H1 H2. cbn [lit DoubleOps]. now rewrite H1, (dl_int D HD). Qed.
  Lemma r64_0 : r64 D 0 = 0. Proof. exact (dl_int D HD 0 ltac:(cbn; lia)). Qed.
  Lemma r64_1 : r64 D 1 = 1. Proof. exact (dl_int D HD 1 ltac:(cbn; lia)). Qed.
  Lemma r64_pos x : 0 <= x -> 0 <= r64 D x.
  Proof. intros H. rewrite <- r64_0. now apply (dl_mono D HD). Qed.
  Lemma rd x : Rabs (r64 D x - x) <= Rabs x / 2 ^ 53 + / 10 ^ 27.
  Proof. eapply Rle_trans; [apply (dl_err D HD)|]. pose proof tiny30. lra. Qed.

  (** ** Degrees *)
  Definition degc : R := r64 D (180 / r64 D PI).
  Definition radc : R := r64 D (r64 D PI / 180).
  Lemma degc_ok : Rabs (degc - 180 / PI) <= 1.4 / 10 ^ 14 /\ 57.2 <= degc <= 57.3.
  Proof.
    assert (H := ap_degc D HD). fold degc in H. apply ap_inv in H as [H _].
    assert (H0 : Rabs (degc - 180 / PI) <= 1.4 / 10 ^ 14) by (eapply Rle_trans; [exact H|rz]). split; [exact H0|].
    apply Rabs_le_inv in H0. assert (57.25 <= 180 / PI <= 57.299) by (split; interval). lra.
  Qed.
  Lemma radc_ok : Rabs (radc - PI / 180) <= / 10 ^ 17.
  Proof.
    assert (H := ap_radc D HD). fold radc in H. apply ap_inv in H as [H _]. eapply Rle_trans; [exact H|rz].
  Qed.
  (** The angle returned by np.degrees stands for the raw one. *)
  Lemma degrees_close z : Rabs (rad (r64 D (z * degc)) - z) <= 5 / 10 ^ 16 * Rabs z + / 10 ^ 27.
  Proof.
    destruct degc_ok as [H1 H2]. assert (R := rd (z * degc)). unfold rad.
    assert (P : 3.14159 <= PI <= 3.1416) by (split; interval).
    assert (M : Rabs (z * degc) <= Rabs z * 57.3) by (rewrite Rabs_mult, (Rabs_pos_eq degc) by lra; apply Rmult_le_compat_l; [apply Rabs_pos|lra]).
    assert (N : Rabs (z * (degc - 180 / PI)) <= Rabs z * (1.4 / 10 ^ 14)) by (rewrite Rabs_mult; apply Rmult_le_compat_l; [apply Rabs_pos|exact H1]).
    replace (r64 D (z * degc) * (PI / 180) - z) with (((r64 D (z * degc) - z * degc) + z * (degc - 180 / PI)) * (PI / 180)) by (field; lra).
    rewrite Rabs_mult, (Rabs_pos_eq (PI / 180)) by lra. assert (T := Rabs_triang (r64 D (z * degc) - z * degc) (z * (degc - 180 / PI))).
    pose proof (Rabs_pos z). set (q := Rabs (_ + _)) in *. assert (Hq : q <= Rabs z * (2.04 / 10 ^ 14) + / 10 ^ 27) by lra. assert (0 <= q) by apply Rabs_pos.
    apply Rle_trans with (q * 0.017454); [apply Rmult_le_compat_l; lra|]. lra.
  Qed.

  Section Cells.
  Variables (sp : Sunpos ext) (k j i : nat).
  Notation zenith := (zenith (O := O64) sp).
  Notation rawz := (raw_zenith sp).

  (** *** Zenith, elevation, cosine of the zenith *)
  Lemma zenith_inv zd : reads zenith k j i (Fin zd) -> exists z, reads rawz k j i (Fin z) /\ zd = r64 D (z * degc).
  Proof.
    intros H. apply reads_map_inv in H as (y & Hy & Hx). destruct y as [| | |z]; try discriminate Hx;
      try (exfalso; cbn [degrees DoubleOps] in Hx; unfold e_mul in Hx; cbn [e_sgn] in Hx; repeat destruct (Rlt_dec _ _) in Hx; discriminate Hx). exists z. split; [exact Hy|]. cbn [degrees DoubleOps] in Hx. rewrite fin_mul in Hx. cbn [e_rd] in Hx. symmetry in Hx. exact (fin64_inv _ _ Hx).
  Qed.
  Lemma degrees_fin z : Rabs z <= 10 ^ 20 -> degrees (Ops := O64) (Fin z) = Fin (r64 D (z * degc)).
  Proof.
    intros B. cbn [degrees DoubleOps]. rewrite fin_mul. apply (rd_fin_s D HD). destruct degc_ok as [_ Hd]. fold degc.
    rewrite Rabs_mult, (Rabs_pos_eq degc) by lra. pose proof (Rabs_pos z). nra.
  Qed.
  Lemma zenith_of z : Rabs z <= 10 ^ 20 -> reads rawz k j i (Fin z) -> reads zenith k j i (Fin (r64 D (z * degc))).
  Proof.
    intros B H. apply (reads_mapv (degrees (Ops := O64)) _ k j i _ _ H). cbn [degrees DoubleOps]. rewrite fin_mul. apply (rd_fin_s D HD). destruct degc_ok as [_ Hd]. fold degc.
    rewrite Rabs_mult, (Rabs_pos_eq degc) by lra. pose proof (Rabs_pos z). nra.
  Qed.
  Lemma zenith_nan : reads rawz k j i NaN -> reads zenith k j i NaN.
  Proof. intros H. exact (reads_map (degrees (Ops := O64)) _ k j i _ H). Qed.
  Lemma elevation_of zd : Rabs zd <= 10 ^ 20 -> reads zenith k j i (Fin zd) -> reads (elevation (O := O64) sp) k j i (Fin (r64 D (90 - zd))).
  Proof.
    intros B H. apply (reads_mapv _ _ k j i _ _ H). rewrite (lit_int 90.0 90) by (try q2r; cbn; lia). cbn [sub DoubleOps]. rewrite fin_sub. apply (rd_fin_s D HD).
    apply Rabs_le_inv in B. apply Rabs_le. lra.
  Qed.
  Lemma cosz_of z : reads rawz k j i (Fin z) -> reads (cosz (O := O64) sp) k j i (Fin (cos64 D z)).
  Proof. intros H. exact (reads_map (fcos (Ops := O64)) _ k j i _ H). Qed.
  (** The raw zenith from the returned one. *)
  Lemma raw_bound z : Rabs (r64 D (z * degc)) <= 300 -> Rabs z <= 5.3.
  Proof.
    intros H. assert (T := degrees_close z). assert (P : 3.14159 <= PI <= 3.1416) by (split; interval).
    assert (B : Rabs (rad (r64 D (z * degc))) <= 5.24) by (unfold rad; rewrite Rabs_mult, (Rabs_pos_eq (PI / 180)) by lra; pose proof (Rabs_pos (r64 D (z * degc))); nra).
    assert (Q := Rabs_triang (- (rad (r64 D (z * degc)) - z)) (rad (r64 D (z * degc)))). rewrite Rabs_Ropp in Q.
    replace (- (rad (r64 D (z * degc)) - z) + rad (r64 D (z * degc))) with z in Q by ring. lra.
  Qed.
  Lemma cosz_close z : Rabs (r64 D (z * degc)) <= 300 -> Rabs (cos64 D z - cos (rad (r64 D (z * degc)))) <= 4 / 10 ^ 15 /\ -1 <= cos64 D z <= 1.
  Proof.
    intros H. split; [|apply (dl_cos D HD)]. assert (B := raw_bound z H). assert (T := degrees_close z). assert (C := proj1 (dl_cos D HD) z).
    assert (L := cos_lip z (rad (r64 D (z * degc)))). rewrite (Rabs_minus_sym z) in L.
    replace (cos64 D z - cos (rad (r64 D (z * degc)))) with ((cos64 D z - cos z) + (cos z - cos (rad (r64 D (z * degc))))) by ring.
    eapply Rle_trans; [apply Rabs_triang|]. lra.
  Qed.

  (** *** Extraterrestrial irradiance *)
  Definition eth0 (s f c : R) : R := r64 D (r64 D (s * f) * Rmax 0 c).
  Lemma mul_small a b : Rabs (a * b) <= 10 ^ 20 -> mul (Ops := O64) (Fin a) (Fin b) = Fin (r64 D (a * b)).
  Proof. intros H. cbn [mul DoubleOps]. rewrite fin_mul. apply (rd_fin_s D HD). lra. Qed.
  Lemma eth0_muls s f c : 0 <= s <= 100000 -> 0 <= f <= 2 -> -1 <= c <= 1 -> mul (Ops := O64) (mul (Ops := O64) (Fin s) (Fin f)) (Fin (Rmax 0 c)) = Fin (eth0 s f c) /\ Rabs (eth0 s f c) <= 400000.
  Proof.
    intros Hs Hf Hc. assert (P : 0 <= s * f <= 200000) by nra. assert (M : 0 <= Rmax 0 c <= 1) by (split; [apply Rmax_l|apply Rmax_lub; lra]).
    rewrite mul_small by (rewrite Rabs_pos_eq; lra). assert (R := rd (s * f)). rewrite (Rabs_pos_eq (s * f)) in R by lra. apply Rabs_le_inv in R.
    assert (X : Rabs (r64 D (s * f)) <= 300000) by (apply Rabs_le; lra). 
    assert (Y : Rabs (r64 D (s * f) * Rmax 0 c) <= 300000) by (rewrite Rabs_mult, (Rabs_pos_eq (Rmax 0 c)) by lra; pose proof (Rabs_pos (r64 D (s * f))); nra).
    rewrite mul_small by lra. split; [reflexivity|]. unfold eth0. assert (R2 := rd (r64 D (s * f) * Rmax 0 c)).
    set (y := r64 D (s * f) * Rmax 0 c) in *. assert (T := Rabs_triang y (r64 D y - y)). replace (y + (r64 D y - y)) with (r64 D y) in T by ring. lra.
  Qed.
  Lemma eth_none s f c : 0 <= s <= 100000 -> 0 <= f <= 2 -> -1 <= c <= 1 -> reads (ecf sp) k j i (Fin f) -> reads (cosz (O := O64) sp) k j i (Fin c) ->
    exists e, Sunpos.eth (O := O64) sp (Fin s) "none" = Ok e /\ reads e k j i (Fin (eth0 s f c)).
  Proof.
    intros Bs Bf Bc Hf Hc. eexists. split; [reflexivity|]. destruct (eth0_muls s f c Bs Bf Bc) as [Em Bm].
    assert (H1 := reads_map (mul (Ops := O64) (Fin s)) _ k j i _ Hf).
    assert (H2 := reads_mapv (fmaximum (Ops := O64) (lit (Ops := O64) 0.0)) _ k j i _ (Fin (Rmax 0 c)) Hc ltac:(rewrite (lit_int 0.0 0) by (try q2r; cbn; lia); reflexivity)).
    assert (H3 := reads_map2 (mul (Ops := O64)) _ _ k j i _ _ H1 H2).
    refine (reads_mapv _ _ k j i _ _ H3 _). rewrite (lit_int 1.0 1) by (try q2r; cbn; lia).
    rewrite Em, mul_small by (rewrite Rmult_1_r; lra). unfold eth0. now rewrite Rmult_1_r, (dl_idem D HD).
  Qed.
  Lemma eth0_close s f c : 0 <= s <= 100000 -> 0 <= f <= 2 -> -1 <= c <= 1 ->
    0 <= eth0 s f c /\ Rabs (eth0 s f c - s * f * Rmax 0 c) <= 2.3 / 10 ^ 16 * (s * f * Rmax 0 c) + / 10 ^ 26 /\ (c <= 0 -> eth0 s f c = 0).
  Proof.
    intros Hs Hf Hc. assert (P : 0 <= s * f) by nra. assert (M : 0 <= Rmax 0 c <= 1) by (split; [apply Rmax_l|apply Rmax_lub; lra]).
    unfold eth0. set (m := Rmax 0 c) in *. assert (P1 := r64_pos _ P). assert (R1 := rd (s * f)). rewrite (Rabs_pos_eq (s * f)) in R1 by exact P.
    set (x := r64 D (s * f)) in *. assert (P2 : 0 <= x * m) by nra. assert (R2 := rd (x * m)). rewrite (Rabs_pos_eq (x * m)) in R2 by exact P2.
    split; [now apply r64_pos|]. split.
    - apply Rabs_le_inv in R1, R2. assert (-(s * f * m / 2 ^ 53 + / 10 ^ 27) <= x * m - s * f * m <= s * f * m / 2 ^ 53 + / 10 ^ 27) by nra.
      assert (0 <= s * f * m <= 200000) by nra. apply Rabs_le. split; nra.
    - intros H. assert (m = 0) as -> by (unfold m; apply Rmax_left; lra). rewrite Rmult_0_r. exact r64_0.
  Qed.
  End Cells.

  (** ** Air mass *)
  Lemma powf64_fin a b : 0 < a -> powf (Ops := O64) (Fin a) (Fin b) = fin64 (powf64 D a b).
  Proof. intros H. cbn [powf DoubleOps]. destruct (Rlt_dec 0 a); [reflexivity|contradiction]. Qed.
  Lemma max_lit a : 0.01 <= a -> fmaximum (Ops := O64) (lit (Ops := O64) 1e-4) (Fin a) = Fin a.
  Proof.
    intros H. cbn [fmaximum lit DoubleOps e_max]. rewrite Rmax_right; [reflexivity|]. assert (R := rd (Q2R 1e-4)).
    assert (E : Q2R 1e-4 = 0.0001) by q2r. rewrite E in *. rewrite (Rabs_pos_eq 0.0001) in R by lra. apply Rabs_le_inv in R. lra.
  Qed.
  Lemma pow_Da qb qq b q z : Q2R qb = b -> Q2R qq = - q -> 93 <= b <= 97 -> 1 <= q <= 2 -> 0 <= z <= 90 -> Rpower (b - z) (- q) <= 0.2 ->
    near (powf (Ops := O64) (fmaximum (Ops := O64) (lit (Ops := O64) 1e-4) (sub (Ops := O64) (lit (Ops := O64) qb) (Fin z))) (lit (Ops := O64) qq))
      (Rpower (b - z) (- q)) (5 / 10 ^ 15).
  Proof.
    intros Eb Eq Hb Hq Hz Hp. cbn [sub lit DoubleOps]. rewrite Eb, Eq, fin_sub.
    assert (R1 := rd b). rewrite (Rabs_pos_eq b) in R1 by lra. assert (R2 := rd (r64 D b - z)).
    assert (B1 : Rabs (r64 D b - z) <= 98) by (apply Rabs_le_inv in R1; apply Rabs_le; lra).
    rewrite (rd_fin_s D HD) by lra. set (y := r64 D (r64 D b - z)) in *. assert (D1 : Rabs (y - (b - z)) <= 2.2 / 10 ^ 14).
    { replace (y - (b - z)) with ((y - (r64 D b - z)) + (r64 D b - b)) by ring. eapply Rle_trans; [apply Rabs_triang|]. lra. }
    assert (Y : 2.9 <= y <= 98) by (apply Rabs_le_inv in D1; lra). rewrite max_lit by lra. rewrite powf64_fin by lra.
    assert (R3 := rd (- q)). rewrite Rabs_Ropp, (Rabs_pos_eq q) in R3 by lra. set (x := r64 D (- q)) in *. 
    assert (L1 := ln_close 2.9 y (b - z) ltac:(lra) ltac:(lra) ltac:(lra)).
    assert (L2 : 1 <= ln (b - z) <= 4.6) by (assert (Hd : 3 <= b - z <= 97) by lra; clear - Hd; set (d := b - z) in *; clearbody d; split; interval).
    assert (D2 : Rabs (x * ln y - - q * ln (b - z)) <= 1.7 / 10 ^ 14).
    { replace (x * ln y - - q * ln (b - z)) with (x * (ln y - ln (b - z)) + (x - - q) * ln (b - z)) by ring. eapply Rle_trans; [apply Rabs_triang|].
      rewrite !Rabs_mult, (Rabs_pos_eq (ln (b - z))) by lra. assert (Bx : Rabs x <= 2.0001) by (apply Rabs_le_inv in R3; apply Rabs_le; lra).
      assert (T1 : Rabs x * Rabs (ln y - ln (b - z)) <= 2.0001 * (2.2 / 10 ^ 14 / 2.9)) by (apply Rmult_le_compat; try apply Rabs_pos; lra).
      assert (T2 : Rabs (x - - q) * ln (b - z) <= (2 / 2 ^ 53 + / 10 ^ 27) * 4.6) by (apply Rmult_le_compat; try apply Rabs_pos; lra). lra. }
    assert (X := exp_close _ _ _ 0.2 D2 ltac:(lra) Hp). fold (Rpower y x) in X. fold (Rpower (b - z) (- q)) in X.
    assert (W := dl_powf D HD y x ltac:(lra)). pose proof tiny30.
    assert (Px : Rpower y x <= 0.21) by (apply Rabs_le_inv in X; lra).
    assert (Pp : 0 < Rpower y x) by apply exp_pos. exists (powf64 D y x). split; [apply fin64_s; apply Rabs_le_inv in W; apply Rabs_le; lra|].
    replace (powf64 D y x - Rpower (b - z) (- q)) with ((powf64 D y x - Rpower y x) + (Rpower y x - Rpower (b - z) (- q))) by ring.
    eapply Rle_trans; [apply Rabs_triang|]. lra.
  Qed.
  Lemma pow_z qp p z : Q2R qp = p -> 0.06 <= p <= 0.1 -> 0 <= z <= 90 ->
    near (powf (Ops := O64) (Fin z) (lit (Ops := O64) qp)) (zpow z p) (/ 10 ^ 14) /\ 0 <= zpow z p <= 1.6.
  Proof.
    intros Ep Hp Hz. cbn [lit DoubleOps]. rewrite Ep. assert (R := rd p). rewrite (Rabs_pos_eq p) in R by lra. set (x := r64 D p) in *.
    assert (Bx : 0.055 <= x <= 0.101) by (apply Rabs_le_inv in R; lra).
    unfold zpow. destruct (Req_EM_T p 0) as [E|_]; [lra|]. destruct (Req_EM_T z 0) as [->|Nz].
    - split; [|lra]. exists 0. split; [|rewrite Rminus_diag_eq, Rabs_R0 by reflexivity; lra]. cbn [powf DoubleOps]. destruct (Rlt_dec 0 0); [lra|].
      unfold e_powf. destruct (Rlt_dec 0 0); [lra|]. destruct (Req_EM_T 0 0); [|lra]. destruct (Req_EM_T x 0); [lra|]. destruct (Rlt_dec 0 x); [reflexivity|lra].
    - assert (Pz : 0 < z) by lra.
      assert (Dx : Rabs (x - p) <= 2 / 10 ^ 17) by lra.
      assert (K : Rabs (Rpower z x - Rpower z p) <= 5 / 10 ^ 16 /\ Rpower z p <= 1.6 /\ Rpower z x <= 1.61).
      { unfold Rpower. destruct (Rle_or_lt 1 z) as [H1|H1].
        - assert (L : 0 <= ln z <= 4.5) by (clear - H1 Hz; split; interval). assert (E1 : exp (p * ln z) <= 1.6) by (assert (p * ln z <= 0.45) by nra; apply Rle_trans with (exp 0.45); [|interval]; destruct (Req_dec (p * ln z) 0.45) as [->|]; [lra|left; apply exp_increasing; lra]).
          assert (D1 : Rabs (x * ln z - p * ln z) <= 9.1 / 10 ^ 17) by (rewrite <- Rmult_minus_distr_r, Rabs_mult, (Rabs_pos_eq (ln z)) by lra; pose proof (Rabs_pos (x - p)); nra).
          assert (X := exp_close _ _ _ _ D1 ltac:(lra) E1). split; [lra|]. split; [exact E1|]. apply Rabs_le_inv in X. lra.
        - assert (L : ln z < 0) by (rewrite <- ln_1; apply ln_increasing; lra). set (l := - ln z). assert (Pl : 0 < l) by (unfold l; lra).
          assert (E : forall y, 0.05 <= y -> exp (y * ln z) <= 1 /\ exp (y * ln z) * l <= 20).
          { intros y Hy. replace (y * ln z) with (- (y * l)) by (unfold l; ring). assert (T := mul_exp_neg (y * l) ltac:(nra)). split.
            - rewrite <- exp_0. destruct (Req_dec (- (y * l)) 0) as [->|]; [lra|left; apply exp_increasing; nra].
            - assert (0 < exp (- (y * l))) by apply exp_pos. generalize dependent (exp (- (y * l))); intros g T Hg. assert (0 <= (y - 0.05) * (g * l)) by (apply Rmult_le_pos; [lra|apply Rmult_le_pos; lra]). nra. }
          destruct (E p ltac:(lra)) as [E1 E2]. destruct (E x ltac:(lra)) as [E3 E4]. split; [|lra].
          assert (C : forall c, 0.05 <= c -> 0 < exp (c * ln z) * l <= 20) by (intros c Hc; split; [apply Rmult_lt_0_compat; [apply exp_pos|exact Pl]|apply (E c Hc)]).
          assert (M : forall a b, 0.05 <= a -> a < b -> 0 <= exp (a * ln z) - exp (b * ln z) <= 20 * (b - a)).
          { intros a b Ha Hab. destruct (MVT_cor2 (fun c => exp (c * ln z)) (fun c => exp (c * ln z) * ln z) a b Hab) as (c & Hc & Hi).
            - intros c _. replace (exp (c * ln z) * ln z) with (exp (c * ln z) * (1 * ln z + c * 0)) by ring.
              apply (derivable_pt_lim_comp (fun c => c * ln z) exp); [|apply derivable_pt_lim_exp].
              apply (derivable_pt_lim_mult id (fun _ => ln z)); [apply derivable_pt_lim_id|apply derivable_pt_lim_const].
            - cbv beta in Hc. assert (T := C c ltac:(lra)). replace (exp (c * ln z) * ln z) with (- (exp (c * ln z) * l)) in Hc by (unfold l; ring). nra. }
          destruct (Rtotal_order x p) as [H|[->|H]].
          + assert (T := M x p ltac:(lra) H). rewrite Rabs_pos_eq by lra. apply Rabs_le_inv in Dx. lra.
          + rewrite Rminus_diag_eq, Rabs_R0 by reflexivity. lra.
          + assert (T := M p x ltac:(lra) H). rewrite Rabs_left1 by lra. apply Rabs_le_inv in Dx. lra. }
      destruct K as (K1 & K2 & K3). split; [|split; [left; apply exp_pos|exact K2]]. rewrite powf64_fin by exact Pz. 
      assert (W := dl_powf D HD z x Pz). pose proof tiny30.
      assert (Pp : 0 < Rpower z x) by apply exp_pos. exists (powf64 D z x). split; [apply fin64_s; apply Rabs_le_inv in W; apply Rabs_le; lra|].
      replace (powf64 D z x - Rpower z p) with ((powf64 D z x - Rpower z x) + (Rpower z x - Rpower z p)) by ring. eapply Rle_trans; [apply Rabs_triang|]. lra.
  Qed.

  Lemma Q2R_up q : Q2R q <= Rz (qbnd q).
  Proof. eapply Rle_trans; [apply Rle_abs|apply Q2R_abs_up]. Qed.
  Lemma near_q x a tol qb qe : near x a tol -> Rabs a <= Q2R qb -> tol <= Q2R qe -> apb x a (qbnd qb) (qbnd qe).
  Proof. intros (v & -> & H) Hb He. apply ap_fin; eapply Rle_trans; [exact H| |exact Hb|]; [|apply Q2R_up]. eapply Rle_trans; [exact He|apply Q2R_up]. Qed.
  Lemma Rpower_pos a b : 0 < Rpower a b. Proof. apply exp_pos. Qed.

  Lemma near_eq x a b tol : near x a tol -> a = b -> near x b tol. Proof. now intros H <-. Qed.
  Ltac apd := 
    lazymatch goal with |- near ?t _ _ => let W := fresh "W" in eassert (W : apb t _ _ _) by (ap D HD); norm_in W;
      lazymatch type of W with apb _ ?a _ _ => apply (near_eq _ a) end; [refine (apb_near _ _ _ _ _ W _); unfold Rz, u90, S90; lra|] end.
  Lemma rec64 name c z cz : In (name, c) am_table -> 0 <= z <= 90 -> Rabs (cz - cos (rad z)) <= 4 / 10 ^ 15 ->
    exists r, rec_airmass (O := O64) name (Fin cz) (Fin z) = Some r /\ near r (slant c z) (2 / 10 ^ 14).
  Proof.
    intros Hin Hz Hc. assert (HC : apb (Fin cz) (cos (rad z)) (qbnd 1) (qbnd 4e-15)).
    { apply (near_q _ _ (4 / 10 ^ 15)); [now exists cz|replace (Q2R 1) with 1 by q2r; apply Rabs_le, COS_bound|q2r]. }
    assert (PB : forall x, 0 < x -> x <= 0.2 -> Rabs x <= Q2R 0.2) by (intros x P1 P2; rewrite Rabs_pos_eq by lra; replace (Q2R 0.2) with 0.2 by q2r; exact P2).
    cbn [In am_table] in Hin. destruct Hin as [H|[H|[H|[H|[]]]]]; injection H as <- <-; unfold rec_airmass; cbn [String.eqb Ascii.eqb Bool.eqb]; cbv zeta;
      (eexists; split; [reflexivity|]); unfold slant.
    - assert (PP : Rpower (93.885 - z) (- (1.253)) <= 0.2) by (unfold Rpower; clear - Hz; interval).
      assert (P1 := pow_Da 93.885 (-1.253) 93.885 1.253 z eq_refl ltac:(q2r) ltac:(lra) ltac:(lra) Hz PP).
      apply (near_q _ _ _ 0.2 5e-15) in P1; [|apply PB; [apply Rpower_pos|exact PP]|q2r].
      match type of P1 with apb ?x _ _ _ => set (P := x) in * end. clearbody P.
      apd. unfold zpow. destruct (Req_EM_T 0 0); [|contradiction]. ring.
    - assert (PP : Rpower (96.07995 - z) (- (1.6364)) <= 0.2) by (unfold Rpower; clear - Hz; interval).
      assert (P1 := pow_Da 96.07995 (-1.6364) 96.07995 1.6364 z eq_refl ltac:(q2r) ltac:(lra) ltac:(lra) Hz PP).
      apply (near_q _ _ _ 0.2 5e-15) in P1; [|apply PB; [apply Rpower_pos|exact PP]|q2r].
      match type of P1 with apb ?x _ _ _ => set (P := x) in * end. clearbody P. apd. unfold zpow. destruct (Req_EM_T 0 0); [|contradiction]. ring.
    - assert (PP : Rpower (96.4836 - z) (- (1.697)) <= 0.2) by (unfold Rpower; clear - Hz; interval).
      assert (P1 := pow_Da 96.4836 (-1.697) 96.4836 1.697 z eq_refl ltac:(q2r) ltac:(lra) ltac:(lra) Hz PP).
      apply (near_q _ _ _ 0.2 5e-15) in P1; [|apply PB; [apply Rpower_pos|exact PP]|q2r].
      match type of P1 with apb ?x _ _ _ => set (P := x) in * end. clearbody P.
      destruct (pow_z 0.07 0.07 z eq_refl ltac:(lra) Hz) as [P2 P3]. apply (near_q _ _ _ 1.6 1e-14) in P2; [|rewrite Rabs_pos_eq by lra; replace (Q2R 1.6) with 1.6 by q2r; lra|q2r].
      match type of P2 with apb ?x _ _ _ => set (Y := x) in * end. clearbody Y. apd. ring.
    - assert (PP : Rpower (96.741 - z) (- (1.754)) <= 0.2) by (unfold Rpower; clear - Hz; interval).
      assert (P1 := pow_Da 96.741 (-1.754) 96.741 1.754 z eq_refl ltac:(q2r) ltac:(lra) ltac:(lra) Hz PP).
      apply (near_q _ _ _ 0.2 5e-15) in P1; [|apply PB; [apply Rpower_pos|exact PP]|q2r].
      match type of P1 with apb ?x _ _ _ => set (P := x) in * end. clearbody P.
      destruct (pow_z 0.095846 0.095846 z eq_refl ltac:(lra) Hz) as [P2 P3]. apply (near_q _ _ _ 1.6 1e-14) in P2; [|rewrite Rabs_pos_eq by lra; replace (Q2R 1.6) with 1.6 by q2r; lra|q2r].
      match type of P2 with apb ?x _ _ _ => set (Y := x) in * end. clearbody Y. apd. ring.
  Qed.

  Definition amf (name : string) (cz z : ext) : ext :=
    match rec_airmass (O := O64) name cz z with
    | Some r => fmaximum (Ops := O64) (div (Ops := O64) (lit (Ops := O64) 1.0) (where_ (fle (Ops := O64) z (lit (Ops := O64) 90.0)) r (fnan (Ops := O64)))) (lit (Ops := O64) 1.0)
    | None => fnan (Ops := O64)
    end.
  Lemma fle90 z : fle (Ops := O64) (Fin z) (lit (Ops := O64) 90.0) = Rleb z 90.
  Proof. rewrite (lit_int 90.0 90) by (try q2r; cbn; lia). reflexivity. Qed.
  Lemma Rmax1_lip a b : Rabs (Rmax a 1 - Rmax b 1) <= Rabs (a - b).
  Proof. unfold Rmax. destruct (Rle_dec a 1), (Rle_dec b 1); unfold Rabs; repeat destruct (Rcase_abs _); lra. Qed.
  Lemma am64 name c z cz : In (name, c) am_table -> 0 <= z <= 90 -> Rabs (cz - cos (rad z)) <= 4 / 10 ^ 15 ->
    exists m, amf name (Fin cz) (Fin z) = Fin m /\ 1 <= m /\ Rabs (m - am_value c z) <= / 10 ^ 10.
  Proof.
    intros Hin Hz Hc. destruct (rec64 name c z cz Hin Hz Hc) as (r & E & N). unfold amf. rewrite E, fle90.
    replace (Rleb z 90) with true by (symmetry; apply Rleb_true; lra). cbn [where_].
    destruct (slant_low c name z Hin Hz) as [S1 S2]. assert (A : apb r (slant c z) (qbnd 2) (qbnd 2e-14)) by (apply (near_q _ _ _ _ _ N); [rewrite Rabs_pos_eq by lra; replace (Q2R 2) with 2 by q2r; lra|q2r]).
    assert (L : Rz (qlow 0.0256) <= Rabs (slant c z)) by (rewrite Rabs_pos_eq by lra; eapply Rle_trans; [apply Q2R_low; reflexivity|]; replace (Q2R 0.0256) with 0.0256 by q2r; lra).
    assert (W := ap_div D HD _ _ _ _ _ _ _ _ _ (ap_lit D HD 1.0) A L ltac:(vm_compute; reflexivity) ltac:(vm_compute; reflexivity)). norm_in W.
    destruct W as (v & -> & W1 & _). rewrite (lit_int 1.0 1) by (try q2r; cbn; lia). cbn [fmaximum DoubleOps e_max]. exists (Rmax v 1). split; [reflexivity|].
    split; [apply Rmax_r|]. unfold am_value. eapply Rle_trans; [apply Rmax1_lip|]. replace (Q2R 1.0) with 1 in W1 by q2r. eapply Rle_trans; [exact W1|]. unfold Rz, u90, S90. lra.
  Qed.
  Lemma div_nan x : div (Ops := O64) x (fnan (Ops := O64)) = NaN.
  Proof. destruct x; reflexivity. Qed.
  Lemma amf_night name cz z : 90 < z -> (exists c, In (name, c) am_table) -> amf name cz (Fin z) = NaN.
  Proof.
    intros H (c & Hin). unfold amf. destruct (rec_airmass name cz (Fin z)); [|reflexivity]. rewrite fle90.
    replace (Rleb z 90) with false by (symmetry; apply Rleb_false; lra). cbn [where_]. rewrite div_nan. reflexivity.
  Qed.
  Lemma amf_nan name cz : amf name cz NaN = NaN.
  Proof. unfold amf. destruct (rec_airmass name cz NaN); [|reflexivity]. cbn [fle DoubleOps e_le lit where_]. rewrite div_nan. reflexivity. Qed.
  Lemma airmass64 sp name c : In (name, c) am_table -> airmass (O := O64) sp name = Ok (da_map2 (amf name) (cosz (O := O64) sp) (sza (O := O64) sp)).
  Proof.
    intros Hin. cbn [In am_table] in Hin. unfold airmass. destruct Hin as [H|[H|[H|[H|[]]]]]; injection H as <- <-; reflexivity.
  Qed.

  (** ** Corrected irradiance *)
  Lemma ap_exp x a b e : apb x a b e -> a <= 0 -> (1000 * e <=? S90)%Z = true -> apb (fexp (Ops := O64) x) (exp a) S90 (2 * e + 2 ^ 41).
  Proof.
    intros (v & -> & H1 & H2) Ha He. cbn [fexp DoubleOps]. assert (E1 : exp a <= 1) by (rewrite <- exp_0; destruct (Req_dec a 0) as [->|]; [lra|left; apply exp_increasing; lra]).
    apply ap_fin64; [|rewrite Rz_S, Rabs_pos_eq by (left; apply exp_pos); exact E1|apply Z.leb_le in He; apply (fits64_mono S90 (3 * S90)); [vm_compute; reflexivity|lia|unfold S90 in *; lia]].
    assert (E3 : Rz e <= 0.001).
    { apply Z.leb_le, Rz_le in He. rewrite Rz_S in He. unfold Rz in *. rewrite mult_IZR in He. lra. }
    assert (X := exp_close _ _ _ 1 H1 E3 E1). assert (W := dl_exp D HD v). pose proof tiny30. assert (Ev : exp v <= 1.01) by (apply Rabs_le_inv in X; lra).
    replace (exp64 D v - exp a) with ((exp64 D v - exp v) + (exp v - exp a)) by ring. eapply Rle_trans; [apply Rabs_triang|].
    rewrite Rz_plus. replace (Rz (2 * e)) with (2 * Rz e) by (unfold Rz; rewrite mult_IZR; ring).
    assert (0 <= Rz e) by (pose proof (Rabs_pos (v - a)); lra). assert (P : 2 * / 2 ^ 50 = Rz (2 ^ 41)) by (rewrite pow50; unfold Rz; change (2 ^ 41)%Z with (2 * 2 ^ 40)%Z; rewrite mult_IZR; ring). lra.
  Qed.
  Lemma ap_ln m : 1 <= m <= 40 -> apb (fln (Ops := O64) (Fin m)) (ln m) (qbnd 3.7) (qbnd 4e-15).
  Proof.
    intros H. cbn [fln DoubleOps]. destruct (Rlt_dec 0 m) as [P|P]; [|lra]. assert (L : 0 <= ln m <= 3.69) by (clear - H; split; interval).
    apply (near_q _ _ (4 / 10 ^ 15)); [|rewrite Rabs_pos_eq by lra; replace (Q2R 3.7) with 3.7 by q2r; lra|q2r].
    exists (ln64 D m). split; [reflexivity|]. assert (W := dl_ln D HD m P). rewrite (Rabs_pos_eq (ln m)) in W by lra. pose proof tiny30. lra.
  Qed.
  Definition perezf (am : ext) : ext := add (Ops := O64) (lit (Ops := O64) 0.1) (mul (Ops := O64) (lit (Ops := O64) 1.031)
    (fexp (Ops := O64) (div (Ops := O64) (lit (Ops := O64) (-1.4)) (add (Ops := O64) (lit (Ops := O64) 0.9) (div (Ops := O64) (lit (Ops := O64) 9.4) am))))).
  Definition skartf (z : ext) : ext := sub (Ops := O64) (lit (Ops := O64) 0.83) (mul (Ops := O64) (lit (Ops := O64) 0.56)
    (fexp (Ops := O64) (mul (Ops := O64) (lit (Ops := O64) (-0.06)) (sub (Ops := O64) (lit (Ops := O64) 90.0) z)))).
  Definition gonzf (am : ext) : ext := let dCDA := sub (Ops := O64) (lit (Ops := O64) 0.124) (mul (Ops := O64) (lit (Ops := O64) 0.0285) (fln (Ops := O64) am)) in
    add (Ops := O64) (lit (Ops := O64) 0.229) (mul (Ops := O64) (lit (Ops := O64) 0.957) (fexp (Ops := O64) (mul (Ops := O64) (mul (Ops := O64) (lit (Ops := O64) (-1.74)) am) dCDA))).
  Lemma Rz_low q x : (0 <=? Qnum q)%Z = true -> Q2R q <= x -> 0 <= x -> Rz (qlow q) <= Rabs x.
  Proof. intros H1 H2 H3. rewrite Rabs_pos_eq by exact H3. eapply Rle_trans; [now apply Q2R_low|exact H2]. Qed.
  Lemma perezf_ok m : 1 <= m <= 40 -> near (perezf (Fin m)) (perez m) (/ 10 ^ 13).
  Proof.
    intros H. unfold perezf. assert (A := ap_exact m (qbnd 40) ltac:(rewrite Rabs_pos_eq by lra; eapply Rle_trans; [|apply Q2R_up]; replace (Q2R 40) with 40 by q2r; lra)).
    assert (L : Rz (qlow 1) <= Rabs m) by (apply Rz_low; [reflexivity|replace (Q2R 1) with 1 by q2r; lra|lra]).
    assert (W1 := ap_div D HD _ _ _ _ _ _ _ _ _ (ap_lit D HD 9.4) A L ltac:(vm_compute; reflexivity) ltac:(vm_compute; reflexivity)). norm_in W1.
    assert (P9 : 0 < Q2R 9.4 / m) by (apply Rdiv_lt_0_compat; [q2r|lra]).
    assert (W2 := ap_add D HD _ _ _ _ _ _ _ _ (ap_lit D HD 0.9) W1 ltac:(vm_compute; reflexivity)). norm_in W2.
    assert (L2 : Rz (qlow 0.9) <= Rabs (Q2R 0.9 + Q2R 9.4 / m)) by (apply Rz_low; [reflexivity|lra|replace (Q2R 0.9) with 0.9 by q2r; lra]).
    assert (W3 := ap_div D HD _ _ _ _ _ _ _ _ _ (ap_lit D HD (-1.4)) W2 L2 ltac:(vm_compute; reflexivity) ltac:(vm_compute; reflexivity)). norm_in W3.
    assert (P : Q2R (-1.4) / (Q2R 0.9 + Q2R 9.4 / m) <= 0).
    { replace (Q2R (-1.4)) with (- (1.4)) by q2r. assert (0 < Q2R 0.9) by q2r. unfold Rdiv at 1. assert (0 < / (Q2R 0.9 + Q2R 9.4 / m)) by (apply Rinv_0_lt_compat; lra). nra. }
    assert (W4 := ap_exp _ _ _ _ W3 P ltac:(vm_compute; reflexivity)). norm_in W4.
    match type of W4 with apb ?x _ _ _ => set (X := x) in * end. clearbody X. clear W1 W2 W3 A. apd. unfold perez. 
    replace (Q2R (-1.4)) with (- (1.4)) by q2r. reflexivity.
  Qed.
  Lemma skartf_ok z : 0 <= z <= 90 -> near (skartf (Fin z)) (skartveit z) (/ 10 ^ 13).
  Proof.
    intros H. unfold skartf. assert (A := ap_exact z (qbnd 90) ltac:(rewrite Rabs_pos_eq by lra; eapply Rle_trans; [|apply Q2R_up]; replace (Q2R 90) with 90 by q2r; lra)).
    eassert (W : apb (mul (Ops := O64) (lit (Ops := O64) (-0.06)) (sub (Ops := O64) (lit (Ops := O64) 90.0) (Fin z))) _ _ _) by (ap D HD). norm_in W.
    assert (P : Q2R (-0.06) * (Q2R 90.0 - z) <= 0) by (replace (Q2R (-0.06)) with (- (0.06)) by q2r; replace (Q2R 90.0) with 90 by q2r; nra).
    assert (W4 := ap_exp _ _ _ _ W P ltac:(vm_compute; reflexivity)). norm_in W4.
    match type of W4 with apb ?x _ _ _ => set (X := x) in * end. clearbody X. clear W A. apd. unfold skartveit.
    replace (Q2R (-0.06)) with (- (0.06)) by q2r. replace (Q2R 90.0) with 90 by q2r. reflexivity.
  Qed.
  (** With the sun down the correction is a number too. *)
  Lemma skartf_fin z : 0 <= z <= 180 -> exists y, skartf (Fin z) = Fin y.
  Proof.
    intros H. unfold skartf. assert (A := ap_exact z (qbnd 180) ltac:(rewrite Rabs_pos_eq by lra; eapply Rle_trans; [|apply Q2R_up]; replace (Q2R 180) with 180 by q2r; lra)).
    eassert (W : apb (mul (Ops := O64) (lit (Ops := O64) (-0.06)) (sub (Ops := O64) (lit (Ops := O64) 90.0) (Fin z))) _ _ _) by (ap D HD). norm_in W.
    destruct W as (v & -> & W & _). replace (Q2R (-0.06)) with (- (0.06)) in W by q2r. replace (Q2R 90.0) with 90 in W by q2r.
    assert (Bv : -6 <= v <= 6). { assert (Rabs (v - - (0.06) * (90 - z)) <= 0.1) by (eapply Rle_trans; [exact W|unfold Rz, u90, S90; lra]). apply Rabs_le_inv in H0. lra. }
    assert (E := dl_exp D HD v). assert (Ev : 0 <= exp v <= 1000) by (clear - Bv; split; [left; apply exp_pos|interval]).
    assert (T := tiny30). assert (X : Rabs (exp64 D v) <= 1001). { apply Rabs_le_inv in E. apply Rabs_le. lra. }
    cbn [fexp DoubleOps]. rewrite fin64_s by lra. assert (Y := ap_exact (exp64 D v) (qbnd 1001) ltac:(eapply Rle_trans; [exact X|]; eapply Rle_trans; [|apply Q2R_up]; q2r)).
    eassert (V : apb (sub (Ops := O64) (lit (Ops := O64) 0.83) (mul (Ops := O64) (lit (Ops := O64) 0.56) (Fin (exp64 D v)))) _ _ _) by (ap D HD). destruct V as (y & V & _). now exists y.
  Qed.
  Lemma gonzf_ok m : 1 <= m <= 40 -> near (gonzf (Fin m)) (gonzalez_calbo m) (/ 10 ^ 12).
  Proof.
    intros H. unfold gonzf. cbv zeta. assert (A := ap_exact m (qbnd 40) ltac:(rewrite Rabs_pos_eq by lra; eapply Rle_trans; [|apply Q2R_up]; replace (Q2R 40) with 40 by q2r; lra)).
    assert (Ln := ap_ln m H). set (l := fln (Ops := O64) (Fin m)) in *. clearbody l.
    eassert (W : apb (mul (Ops := O64) (mul (Ops := O64) (lit (Ops := O64) (-1.74)) (Fin m)) (sub (Ops := O64) (lit (Ops := O64) 0.124) (mul (Ops := O64) (lit (Ops := O64) 0.0285) l))) _ _ _) by (ap D HD). norm_in W.
    assert (Lm : ln m <= 3.69) by (clear - H; interval).
    assert (P : Q2R (-1.74) * m * (Q2R 0.124 - Q2R 0.0285 * ln m) <= 0).
    { replace (Q2R (-1.74)) with (- (1.74)) by q2r. replace (Q2R 0.124) with 0.124 by q2r. replace (Q2R 0.0285) with 0.0285 by q2r.
      assert (0 <= 0.124 - 0.0285 * ln m) by lra. assert (0 <= m * (0.124 - 0.0285 * ln m)) by (apply Rmult_le_pos; lra). lra. }
    assert (W4 := ap_exp _ _ _ _ W P ltac:(vm_compute; reflexivity)). norm_in W4.
    match type of W4 with apb ?x _ _ _ => set (X := x) in * end. clearbody X. clear W A. apd. unfold gonzalez_calbo.
    replace (Q2R (-1.74)) with (- (1.74)) by q2r. reflexivity.
  Qed.
  Lemma nanf : perezf NaN = NaN /\ gonzf NaN = NaN.
  Proof.
    split; unfold perezf, gonzf; cbn [add sub mul div fexp fln lit DoubleOps]; [unfold e_div|unfold e_ln]; cbn [e_rd e_add e_sub e_exp];
      repeat (rewrite ?nan_mul_r, ?nan_mul_l, ?nan_add_r, ?nan_sub_r; cbn [e_rd e_exp]); try reflexivity.
  Qed.

  Section Eth.
    Variables (sp : Sunpos ext) (k j i : nat) (s f cz zd : R).
    Hypothesis Hf : reads (ecf sp) k j i (Fin f).
    Hypothesis Hc : reads (cosz (O := O64) sp) k j i (Fin cz).
    Hypothesis Hz : reads (zenith (O := O64) sp) k j i (Fin zd).
    Hypothesis Bs : 0 <= s <= 100000.
    Hypothesis Bf : 0 <= f <= 2.
    Hypothesis Bc : -1 <= cz <= 1.
    Lemma base64 : reads (da_map2 (mul (Ops := O64)) (da_map (mul (Ops := O64) (Fin s)) (ecf sp))
        (da_map (fmaximum (Ops := O64) (lit (Ops := O64) 0.0)) (cosz (O := O64) sp))) k j i (Fin (eth0 s f cz)).
    Proof.
      assert (H1 := reads_map (mul (Ops := O64) (Fin s)) _ k j i _ Hf).
      assert (H2 := reads_mapv (fmaximum (Ops := O64) (lit (Ops := O64) 0.0)) _ k j i _ (Fin (Rmax 0 cz)) Hc ltac:(rewrite (lit_int 0.0 0) by (try q2r; cbn; lia); reflexivity)).
      assert (H3 := reads_map2 (mul (Ops := O64)) _ _ k j i _ _ H1 H2). rewrite (proj1 (eth0_muls s f cz Bs Bf Bc)) in H3. exact H3.
    Qed.
    Lemma eth_skart64 : exists e, Sunpos.eth (O := O64) sp (Fin s) "skarveith_1998" = Ok e /\ reads e k j i (mul (Ops := O64) (Fin (eth0 s f cz)) (skartf (Fin zd))).
    Proof. eexists. split; [reflexivity|]. exact (reads_map2 (mul (Ops := O64)) _ _ k j i _ _ base64 (reads_map skartf _ k j i _ Hz)). Qed.
    Lemma eth_perez64 : exists e, Sunpos.eth (O := O64) sp (Fin s) "perez_1990" = Ok e /\
      reads e k j i (mul (Ops := O64) (Fin (eth0 s f cz)) (perezf (amf "kasten_and_young_1989" (Fin cz) (Fin zd)))).
    Proof.
      unfold Sunpos.eth. cbn [String.eqb Ascii.eqb Bool.eqb]. rewrite (airmass64 sp _ _ (or_intror (or_introl eq_refl))). cbn [rbind]. eexists. split; [reflexivity|].
      refine (reads_map2 (mul (Ops := O64)) _ _ k j i _ _ base64 _). refine (reads_map perezf _ k j i _ _). exact (reads_map2 _ _ _ k j i _ _ Hc Hz).
    Qed.
    Lemma eth_gonz64 : exists e, Sunpos.eth (O := O64) sp (Fin s) "gonzalez_and_calbo_1999" = Ok e /\
      reads e k j i (mul (Ops := O64) (Fin (eth0 s f cz)) (gonzf (amf "gueymard_2003" (Fin cz) (Fin zd)))).
    Proof.
      assert (Hin : In ("gueymard_2003"%string, (0.48353, 0.095846, 96.741, 1.754)) am_table) by (cbn; tauto).
      unfold Sunpos.eth. cbn [String.eqb Ascii.eqb Bool.eqb]. rewrite (airmass64 sp _ _ Hin). cbn [rbind]. eexists. split; [reflexivity|].
      refine (reads_map2 (mul (Ops := O64)) _ _ k j i _ _ base64 _). refine (reads_map gonzf _ k j i _ _). exact (reads_map2 _ _ _ k j i _ _ Hc Hz).
    Qed.
    Lemma mul_corr x c tol X : 0 <= x <= 300000 -> 0 <= c <= 1.02 -> tol <= / 10 ^ 12 -> near X c tol ->
      exists y, mul (Ops := O64) (Fin x) X = Fin y /\ Rabs (y - x * c) <= (tol + 2 / 10 ^ 16) * x + / 10 ^ 26.
    Proof.
      intros Hx Hc' Ht (v & -> & Hv). assert (R := rd (x * v)). assert (0 <= tol) by (pose proof (Rabs_pos (v - c)); lra).
      assert (Bv : Rabs v <= 1.03) by (apply Rabs_le_inv in Hv; apply Rabs_le; lra).
      assert (M : Rabs (x * v) <= x * 1.03) by (rewrite Rabs_mult, (Rabs_pos_eq x) by lra; apply Rmult_le_compat_l; lra).
      assert (N : Rabs (x * (v - c)) <= x * tol) by (rewrite Rabs_mult, (Rabs_pos_eq x) by lra; apply Rmult_le_compat_l; lra).
      rewrite mul_small by lra. eexists. split; [reflexivity|].
      replace (r64 D (x * v) - x * c) with ((r64 D (x * v) - x * v) + x * (v - c)) by ring. eapply Rle_trans; [apply Rabs_triang|]. lra.
    Qed.
  End Eth.
End D64.
