(** * NrelCellD: the cells of nrel in double precision *)

From Coq Require Import ZArith QArith Reals Bool List Lra Lia.
From Flocq Require Import Core.Raux.
From Interval Require Import Tactic.
From Verif Require Import Num Ext ExtLemmas Sky SkyClose AstroTac AstroSpec SingleSpec Double DoubleTac DoubleLemmas DoubleCore DoubleCell PsaR PsaD SoltrackR SoltrackD SoltrackCell Nrel NrelR NrelCell NrelD.
Open Scope R_scope.

Lemma atan_lip x y : Rabs (atan x - atan y) <= Rabs (x - y).
Proof.
  assert (L : forall a b, a < b -> Rabs (atan b - atan a) <= Rabs (b - a)).
  { intros a b H. destruct (MVT_cor2 atan (fun c => / (1 + c ^ 2)) a b H) as (c & Hc & _).
    - intros c _. apply derivable_pt_lim_atan.
    - rewrite Hc, Rabs_mult. assert (P : 0 < 1 + c ^ 2) by nra. rewrite (Rabs_pos_eq (/ _)) by (left; now apply Rinv_0_lt_compat).
      assert (/ (1 + c ^ 2) <= 1) by (rewrite <- Rinv_1; apply Rinv_le_contravar; nra). pose proof (Rabs_pos (b - a)). nra. }
  destruct (Rtotal_order x y) as [H|[->|H]].
  - rewrite Rabs_minus_sym, (Rabs_minus_sym x). now apply L.
  - rewrite !Rminus_diag_eq by reflexivity. lra.
  - now apply L.
Qed.
Lemma atan_big x : 900000 <= x -> PI / 2 - 1.2 / 1000000 <= atan x < PI / 2.
Proof.
  intros H. split; [|apply atan_bound]. assert (M : atan 900000 <= atan x).
  { destruct (Req_dec 900000 x) as [<-|N]; [lra|]. left. apply atan_increasing. lra. }
  assert (PI / 2 - 1.2 / 1000000 <= atan 900000) by interval. lra.
Qed.

(** The reduced latitude does not move faster than the latitude (but for the flattening). *)
Lemma flat_b : 9966 / 10000 <= FLAT <= 9967 / 10000. Proof. q2. lra. Qed.
Lemma tan_lim x : - PI / 2 < x < PI / 2 -> derivable_pt_lim tan x (1 + tan x ^ 2).
Proof. intros H. apply (derive_pt_eq_1 _ _ _ (derivable_pt_tan x H)). apply derive_pt_tan. Qed.
Lemma red_lim x : - PI / 2 < x < PI / 2 -> derivable_pt_lim (fun y => atan (FLAT * tan y)) x (/ (1 + (FLAT * tan x) ^ 2) * (FLAT * (1 + tan x ^ 2))).
Proof.
  intros H. apply (derivable_pt_lim_comp (fun y => FLAT * tan y) atan); [|apply derivable_pt_lim_atan].
  apply (derivable_pt_lim_scal tan FLAT). now apply tan_lim.
Qed.
Lemma red_lip x y : - PI / 2 < x < PI / 2 -> - PI / 2 < y < PI / 2 -> Rabs (atan (FLAT * tan x) - atan (FLAT * tan y)) <= 1.01 * Rabs (x - y).
Proof.
  assert (L : forall a b, - PI / 2 < a < PI / 2 -> - PI / 2 < b < PI / 2 -> a < b -> Rabs (atan (FLAT * tan b) - atan (FLAT * tan a)) <= 1.01 * Rabs (b - a)).
  { intros a b Ha Hb H. destruct (MVT_cor2 (fun y => atan (FLAT * tan y)) (fun c => / (1 + (FLAT * tan c) ^ 2) * (FLAT * (1 + tan c ^ 2))) a b H) as (c & Hc & _).
    - intros c Hc. apply red_lim. lra.
    - rewrite Hc, Rabs_mult. apply Rmult_le_compat_r; [apply Rabs_pos|]. pose proof flat_b as HF. set (k := FLAT) in *. set (t := tan c). assert (P : 0 < 1 + (k * t) ^ 2) by nra.
      rewrite Rabs_pos_eq.
      + apply Rmult_le_reg_l with (1 + (k * t) ^ 2); [exact P|]. rewrite <- Rmult_assoc, Rinv_r by lra. assert (0 <= t * t) by nra. assert (0.993 <= k * k) by nra. replace ((k * t) ^ 2) with (k * k * (t * t)) by ring. replace (t ^ 2) with (t * t) by ring. nra.
      + apply Rmult_le_pos; [left; now apply Rinv_0_lt_compat|]. apply Rmult_le_pos; [lra|nra]. }
  intros Hx Hy. destruct (Rtotal_order x y) as [H|[->|H]].
  - rewrite Rabs_minus_sym, (Rabs_minus_sym x). now apply L.
  - rewrite !Rminus_diag_eq by reflexivity. rewrite Rabs_R0. lra.
  - now apply L.
Qed.

Section U.
  Variable D : Env64.
  Hypothesis HD : double_like D.
  Notation O64 := (DoubleOps D).
  Definition d2r : R := r64 D (r64 D PI / 180).
  Lemma DEG2RAD_eq : DEG2RAD (O := O64) = Fin d2r.
  Proof.
    destruct (ap_DEG2RAD D HD) as (v & E & _). rewrite E. f_equal. unfold DEG2RAD in E. cbn [radians lit DoubleOps] in E. replace (Q2R 1) with (IZR 1) in E by q2r.
    rewrite (dl_int D HD 1) in E by lia. rewrite fin_mul, Rmult_1_l in E. cbn [e_rd] in E. apply fin64_inv in E. rewrite E. apply (dl_idem D HD).
  Qed.
  Lemma lat_below la : Rabs la <= 90 -> Rabs (r64 D (la * d2r)) < PI / 2.
  Proof.
    intros H. apply Rabs_le_inv in H. assert (P := dl_pole D HD). fold d2r in P.
    assert (Z0 : 0 <= d2r).
    { unfold d2r. rewrite <- (dl_int D HD 0) by lia. apply (dl_mono D HD). assert (0 <= r64 D PI); [|lra].
      rewrite <- (dl_int D HD 0) by lia. apply (dl_mono D HD). pose proof PI_RGT_0. lra. }
    assert (A := dl_mono D HD (la * d2r) (90 * d2r) ltac:(nra)). assert (B := dl_mono D HD (- (90 * d2r)) (la * d2r) ltac:(nra)).
    rewrite (dl_opp D HD) in B. apply Rabs_def1; lra.
  Qed.

  (** Relative error 2^-53 of a product, with room to spare. *)
  Lemma r64_rel x : Rabs (r64 D x - x) <= Rabs x / 1000000000000000 + 1 / 100000000000000000000.
  Proof.
    eapply Rle_trans; [apply (dl_err D HD)|]. pose proof tiny_u90. assert (u90 <= 1 / 100000000000000000000) by (unfold u90, S90; lra).
    assert (Rabs x / 2 ^ 53 <= Rabs x / 1000000000000000); [|lra]. apply Rmult_le_compat_l; [apply Rabs_pos|]. apply Rinv_le_contravar; lra.
  Qed.
  Lemma tan_rel v : cos v <> 0 -> Rabs (tan64 D v - tan v) <= Rabs (tan v) / 500000000000000 + 1 / 100000000000000000000.
  Proof.
    intros H. eapply Rle_trans; [apply (dl_tan D HD v H)|]. pose proof tiny_u90. assert (u90 <= 1 / 100000000000000000000) by (unfold u90, S90; lra).
    assert (Rabs (tan v) / 2 ^ 50 <= Rabs (tan v) / 500000000000000); [|lra]. apply Rmult_le_compat_l; [apply Rabs_pos|]. apply Rinv_le_contravar; lra.
  Qed.
  Lemma atan_err x : Rabs (atan64 D x - atan x) <= 1 / 100000000000000.
  Proof. eapply Rle_trans; [apply (dl_atan D HD)|]. pose proof p50. lra. Qed.
  Definition flat64 : R := r64 D FLAT.
  Lemma flat64_b : Rabs (flat64 - FLAT) <= 1 / 100000000000000.
  Proof. unfold flat64. eapply Rle_trans; [apply r64_rel|]. q2. rewrite Rabs_pos_eq by lra. lra. Qed.
  Definition u64 (v : R) : R := atan64 D (r64 D (flat64 * tan64 D v)).
  Lemma tan_near_pole v : PI / 2 - 1.001 / 1000000 <= v < PI / 2 -> 998000 <= tan v.
  Proof.
    intros H. assert (PP : 3.14 < PI < 3.15) by (split; interval). assert (C0 : 0 < cos v) by (apply cos_gt_0; lra). 
    assert (C : cos v <= 1.001 / 1000000).
    { rewrite <- sin_shift. assert (L := sin_lip (PI / 2 - v) 0). rewrite sin_0, !Rminus_0_r in L. rewrite (Rabs_pos_eq (PI / 2 - v)) in L by lra.
      pose proof (Rle_abs (sin (PI / 2 - v))). lra. }
    assert (S : 0.9999 <= sin v).
    { pose proof (sc1 v). assert (0 < sin v) by (apply sin_gt_0; lra). nra. }
    unfold tan. apply Rmult_le_reg_r with (cos v); [exact C0|]. unfold Rdiv. rewrite Rmult_assoc, Rinv_l by lra. nra.
  Qed.
  Lemma conj_le a b c : a <= b < c -> a <= b <= c. Proof. lra. Qed.
  (** Close to the pole. *)
  Lemma u64_pole v phi : PI / 2 - 1 / 1000000 <= v < PI / 2 -> Rabs (v - phi) <= 1 / 100000000000000 -> phi <= PI / 2 ->
    Rabs (u64 v - n_u phi) <= 1.3 / 1000000 /\ 0 < r64 D (flat64 * tan64 D v) /\ Rabs (PI / 2 - n_u phi) <= 1.2 / 1000000.
  Proof.
    intros Hv Hd Hp. apply Rabs_le_inv in Hd. assert (PP : 3.14 < PI < 3.15) by (split; interval).
    assert (T := tan_near_pole v ltac:(lra)). assert (C0 : 0 < cos v) by (apply cos_gt_0; lra).
    assert (T64 := tan_rel v ltac:(lra)). rewrite (Rabs_pos_eq (tan v)) in T64 by lra. apply Rabs_le_inv in T64.
    assert (F := flat64_b). pose proof flat_b as HF. apply Rabs_le_inv in F.
    set (w := tan64 D v) in *. assert (W : 997999 <= w) by lra.
    assert (Q : 990000 <= flat64 * w) by nra. assert (R1 := r64_rel (flat64 * w)). rewrite (Rabs_pos_eq (flat64 * w)) in R1 by lra. apply Rabs_le_inv in R1.
    assert (A := atan_big (r64 D (flat64 * w)) ltac:(lra)). assert (E := atan_err (r64 D (flat64 * w))). fold (u64 v) in E. unfold u64. fold w. unfold u64 in E. fold w in E.
    apply Rabs_le_inv in E.
    assert (N : PI / 2 - 1.2 / 1000000 <= n_u phi <= PI / 2).
    { unfold n_u. destruct (Req_EM_T (cos phi) 0) as [Z|Z].
      - destruct (Rlt_dec 0 (sin phi)) as [S|S]; [lra|]. exfalso. apply S. apply sin_gt_0; lra.
      - assert (phi < PI / 2). { destruct (Rle_lt_or_eq_dec _ _ Hp) as [|Eq]; [assumption|]. rewrite Eq, cos_PI2 in Z. contradiction. }
        assert (T' := tan_near_pole phi ltac:(lra)). apply (conj_le _ _ _ (atan_big (FLAT * tan phi) ltac:(nra))). }
    split; [apply Rabs_le; lra|]. split; [lra|]. apply Rabs_le. lra.
  Qed.
  (** Elsewhere. *)
  Lemma u64_mid v phi : Rabs v <= PI / 2 - 1 / 1000000 -> Rabs (v - phi) <= 1 / 100000000000000 -> Rabs (u64 v - n_u phi) <= 4 / 10000000 /\ Rabs (flat64 * tan64 D v) <= 1120001.
  Proof.
    intros Hv Hd. assert (PP : 3.14 < PI < 3.15) by (split; interval). apply Rabs_le_inv in Hv. assert (Hd' := Hd). apply Rabs_le_inv in Hd'.
    assert (Cp : 0 < cos phi) by (apply cos_gt_0; lra).
    assert (Cv : 0.9 / 1000000 <= cos v).
    { destruct (Rle_dec 0 v) as [P|P].
      - eapply Rle_trans; [|apply (cos_decr_1 v (PI / 2 - 1 / 1000000))]; try lra. rewrite cos_shift. interval.
      - rewrite <- cos_neg. eapply Rle_trans; [|apply (cos_decr_1 (- v) (PI / 2 - 1 / 1000000))]; try lra. rewrite cos_shift. interval. }
    assert (T : Rabs (tan v) <= 1120000).
    { unfold tan, Rdiv. rewrite Rabs_mult, (Rabs_pos_eq (/ cos v)) by (left; apply Rinv_0_lt_compat; lra).
      assert (Rabs (sin v) <= 1) by (apply Rabs_le, SIN_bound). assert (I : / cos v <= / (0.9 / 1000000)) by (apply Rinv_le_contravar; lra).
      pose proof (Rabs_pos (sin v)). assert (0 < / cos v) by (apply Rinv_0_lt_compat; lra). nra. }
    unfold n_u. destruct (Req_EM_T (cos phi) 0) as [Z|_]; [lra|].
    assert (X := red_lip v phi ltac:(lra) ltac:(lra)).
    assert (T64 := tan_rel v ltac:(lra)). set (w := tan64 D v) in *. assert (F := flat64_b).
    assert (W : Rabs w <= 1120001).
    { replace w with ((w - tan v) + tan v) by ring. eapply Rle_trans; [apply Rabs_triang|]. lra. }
    assert (R1 := r64_rel (flat64 * w)).
    assert (F1 : Rabs flat64 <= 1) by (pose proof flat_b; apply Rabs_le_inv in F; apply Rabs_le; lra).
    assert (FW : Rabs (flat64 * w) <= 1120001) by (rewrite Rabs_mult; pose proof (Rabs_pos w); pose proof (Rabs_pos flat64); nra).
    split; [|exact FW].
    assert (S1 : Rabs (flat64 * w - FLAT * tan v) <= 2 / 10000000).
    { replace (flat64 * w - FLAT * tan v) with ((flat64 - FLAT) * w + FLAT * (w - tan v)) by ring. eapply Rle_trans; [apply Rabs_triang|]. rewrite !Rabs_mult.
      assert (Rabs FLAT <= 1) by (pose proof flat_b; apply Rabs_le; lra). pose proof (Rabs_pos w). pose proof (Rabs_pos (w - tan v)). pose proof (Rabs_pos (flat64 - FLAT)). pose proof (Rabs_pos FLAT).
      assert (Rabs (flat64 - FLAT) * Rabs w <= 1 / 100000000000000 * 1120001) by nra. assert (Rabs FLAT * Rabs (w - tan v) <= 1 * (1120000 / 500000000000000 + 1 / 100000000000000000000)) by nra. lra. }
    assert (L := atan_lip (r64 D (flat64 * w)) (FLAT * tan v)). assert (E := atan_err (r64 D (flat64 * w))). fold w in E. unfold u64. fold w.
    replace (_ - _) with ((atan64 D (r64 D (flat64 * w)) - atan (r64 D (flat64 * w))) + (atan (r64 D (flat64 * w)) - atan (FLAT * tan v)) + (atan (FLAT * tan v) - atan (FLAT * tan phi))) by ring.
    assert (Q : Rabs (r64 D (flat64 * w) - FLAT * tan v) <= 3 / 10000000).
    { replace (_ - _) with ((r64 D (flat64 * w) - flat64 * w) + (flat64 * w - FLAT * tan v)) by ring. eapply Rle_trans; [apply Rabs_triang|]. lra. }
    eapply Rle_trans; [apply Rabs_triang|]. assert (Y := Rabs_triang (atan64 D (r64 D (flat64 * w)) - atan (r64 D (flat64 * w))) (atan (r64 D (flat64 * w)) - atan (FLAT * tan v))). lra.
  Qed.
  Lemma n_u_opp phi : n_u (- phi) = - n_u phi.
  Proof.
    unfold n_u. rewrite cos_neg, sin_neg, tan_neg. destruct (Req_EM_T (cos phi) 0) as [Z|Z].
    - assert (S : sin phi * sin phi = 1) by (pose proof (sc1 phi); nra). destruct (Rlt_dec 0 (- sin phi)), (Rlt_dec 0 (sin phi)); try lra; nra.
    - rewrite <- atan_opp. f_equal. ring.
  Qed.
  Lemma u64_pole_neg v phi : PI / 2 - 1 / 1000000 <= - v < PI / 2 -> Rabs (v - phi) <= 1 / 100000000000000 -> - phi <= PI / 2 ->
    Rabs (u64 v - n_u phi) <= 1.3 / 1000000 /\ r64 D (flat64 * tan64 D v) < 0 /\ Rabs (- (PI / 2) - n_u phi) <= 1.2 / 1000000.
  Proof.
    intros Hv Hd Hp. apply Rabs_le_inv in Hd. assert (PP : 3.14 < PI < 3.15) by (split; interval).
    assert (T := tan_near_pole (- v) ltac:(lra)). rewrite tan_neg in T. assert (C0 : 0 < cos v) by (rewrite <- cos_neg; apply cos_gt_0; lra).
    assert (T64 := tan_rel v ltac:(lra)). rewrite <- (Rabs_Ropp (tan v)), (Rabs_pos_eq (- tan v)) in T64 by lra. apply Rabs_le_inv in T64.
    assert (F := flat64_b). pose proof flat_b as HF. apply Rabs_le_inv in F.
    set (w := tan64 D v) in *. assert (W : 997999 <= - w) by lra.
    assert (Q : 990000 <= - (flat64 * w)) by nra. assert (R1 := r64_rel (flat64 * w)). rewrite <- (Rabs_Ropp (flat64 * w)), (Rabs_pos_eq (- (flat64 * w))) in R1 by lra. apply Rabs_le_inv in R1.
    assert (A := atan_big (- r64 D (flat64 * w)) ltac:(lra)). rewrite atan_opp in A. assert (E := atan_err (r64 D (flat64 * w))). unfold u64. fold w.
    apply Rabs_le_inv in E.
    assert (N : PI / 2 - 1.2 / 1000000 <= - n_u phi <= PI / 2).
    { rewrite <- n_u_opp. unfold n_u. destruct (Req_EM_T (cos (- phi)) 0) as [Z|Z].
      - destruct (Rlt_dec 0 (sin (- phi))) as [S|S]; [lra|]. exfalso. apply S. apply sin_gt_0; lra.
      - assert (- phi < PI / 2). { destruct (Rle_lt_or_eq_dec _ _ Hp) as [|Eq]; [assumption|]. rewrite Eq, cos_PI2 in Z. contradiction. }
        assert (T' := tan_near_pole (- phi) ltac:(lra)). apply (conj_le _ _ _ (atan_big (FLAT * tan (- phi)) ltac:(nra))). }
    split; [apply Rabs_le; lra|]. split; [lra|]. apply Rabs_le. lra.
  Qed.
  (** Whether the product overflows or not. *)
  Lemma u64_ok v phi : Rabs v < PI / 2 -> Rabs phi <= PI / 2 -> Rabs (v - phi) <= 1 / 100000000000000 ->
    exists u, fatan (Ops := O64) (e_rd D (Fin (flat64 * tan64 D v))) = Fin u /\ Rabs (u - n_u phi) <= 1.3 / 1000000.
  Proof.
    intros Hv Hp Hd. apply Rabs_def2 in Hv. apply Rabs_le_inv in Hp. assert (PP : 3.14 < PI < 3.15) by (split; interval).
    assert (RP := r64_rel (PI / 2)). rewrite (Rabs_pos_eq (PI / 2)) in RP by lra. apply Rabs_le_inv in RP.
    assert (RN := dl_opp D HD (PI / 2)).
    assert (K : Rabs (u64 v - n_u phi) <= 1.3 / 1000000 -> Rabs (r64 D (flat64 * tan64 D v)) < 2 ^ 1024 ->
      exists u, fatan (Ops := O64) (e_rd D (Fin (flat64 * tan64 D v))) = Fin u /\ Rabs (u - n_u phi) <= 1.3 / 1000000).
    { intros H F. exists (u64 v). split; [|exact H]. cbn [e_rd]. unfold fin64. destruct (Rlt_dec _ _) as [_|N]; [reflexivity|contradiction]. }
    destruct (Rle_dec (PI / 2 - 1 / 1000000) v) as [P|P].
    { destruct (u64_pole v phi ltac:(lra) Hd ltac:(lra)) as (H & S & N). destruct (Rlt_dec (Rabs (r64 D (flat64 * tan64 D v))) (2 ^ 1024)) as [F|F]; [now apply K|].
      exists (r64 D (PI / 2)). cbn [e_rd]. unfold fin64. destruct (Rlt_dec _ _) as [F'|_]; [contradiction|]. destruct (Rlt_dec _ _) as [_|F']; [|contradiction].
      split; [cbn [fatan DoubleOps e_atan]; apply (rd_fin_s D HD); apply Rabs_le; lra|]. apply Rabs_le_inv in N. apply Rabs_le. lra. }
    destruct (Rle_dec (PI / 2 - 1 / 1000000) (- v)) as [Q|Q].
    { destruct (u64_pole_neg v phi ltac:(lra) Hd ltac:(lra)) as (H & S & N). destruct (Rlt_dec (Rabs (r64 D (flat64 * tan64 D v))) (2 ^ 1024)) as [F|F]; [now apply K|].
      exists (r64 D (- (PI / 2))). cbn [e_rd]. unfold fin64. destruct (Rlt_dec _ _) as [F'|_]; [contradiction|]. destruct (Rlt_dec _ _) as [F'|_]; [lra|].
      split; [cbn [fatan DoubleOps e_atan]; apply (rd_fin_s D HD); apply Rabs_le; lra|]. rewrite RN. apply Rabs_le_inv in N. apply Rabs_le. lra. }
    destruct (u64_mid v phi ltac:(apply Rabs_le; lra) Hd) as (X & B). apply K; [lra|].
    eapply Rle_lt_trans; [apply (rd_small D HD); eapply Rle_trans; [exact B|]; apply Rle_trans with 1000000000000000000000000000000; [lra|apply big64]|]. apply Rlt_pow; [lra|lia].
  Qed.
End U.

Definition rrE : Z := Eval vm_compute in (qbnd 1e-12).
Section Cell.
  Variable D : Env64.
  Hypothesis HD : double_like D.
  Notation O64 := (DoubleOps D).
  Variables (r : bool) (t : nrel_time (F := ext)) (d v al Rad lo la : R).
  Hypothesis Hd : nr_delta t = Fin d.
  Hypothesis Bd : -0.4111 <= d <= 0.4111.
  Hypothesis Hv : nr_v t = Fin v.
  Hypothesis Bv : Rabs v <= 362.
  Hypothesis Hal : nr_alpha t = Fin al.
  Hypothesis Bal : Rabs al <= 362.
  Hypothesis HR : apb (nr_R t) Rad (qbnd 1.03) rrE.
  Hypothesis BR : 0.9825 <= Rad <= 1.0177.
  Hypothesis Blo : Rabs lo <= 180.
  Hypothesis Bla : Rabs la <= 90.
  Let h := (v + lo - al) * (PI / 180).
  Let phi := la * (PI / 180).
  Let sx := sin (m_xi Rad).
  Let da := t_da (n_x phi) sx d h.
  Let dp := t_dp (n_x phi) (n_y phi) sx d h.
  Let hp := t_Hp (n_x phi) sx d h.
  Lemma cos_d_b : 0.916 <= cos d <= 1.
  Proof. split; [|apply COS_bound]. clear - Bd. interval. Qed.
  Lemma sx_b : 0 <= sx <= 0.00005.
  Proof. unfold sx, m_xi. clear - BR. q2. split; interval. Qed.
  Lemma nx_b : -1 <= n_x phi <= 1. Proof. apply n_x_b. Qed.
  Lemma ny_b : -1 <= n_y phi <= 1. Proof. apply n_y_b. Qed.
  Lemma tD_ok : 0.9159 <= tD (n_x phi) sx d h <= 1.01.
  Proof.
    unfold tD. assert (X := mul1 (n_x phi) sx (cos h) nx_b ltac:(pose proof sx_b; lra) (COS_bound h)). pose proof cos_d_b.
    pose proof sx_b. assert (-0.00005 <= n_x phi * sx * cos h <= 0.00005); [|lra].
    pose proof nx_b. pose proof (COS_bound h). assert (- sx <= n_x phi * sx <= sx) by (split; nra). split; nra.
  Qed.
  Lemma dp_b : -0.419 <= dp <= 0.419.
  Proof.
    pose proof tD_ok as T. unfold dp, t_dp, Ratan2. destruct (Rlt_dec 0 (tD (n_x phi) sx d h)) as [_|N]; [|lra].
    set (q := tD (n_x phi) sx d h) in *. 
    assert (S : -0.4 <= sin d <= 0.4) by (clear - Bd; split; interval).
    pose proof ny_b. pose proof sx_b. pose proof (COS_bound (t_da (n_x phi) sx d h)).
    assert (Y : -0.4001 <= sin d - n_y phi * sx <= 0.4001) by (split; nra).
    set (y := sin d - n_y phi * sx) in *. set (c := cos (t_da (n_x phi) sx d h)) in *.
    assert (W : -0.4001 <= y * c <= 0.4001) by (split; nra). set (w := y * c) in *.
    assert (I : 0 < / q <= 1.0919) by (split; [apply Rinv_0_lt_compat; lra|]; rewrite <- (Rinv_inv 1.0919); apply Rinv_le_contravar; lra).
    assert (Q : -0.4369 <= w / q <= 0.4369) by (unfold Rdiv; split; nra). generalize dependent (w / q). intros z Hz. clear - Hz. split; interval.
  Qed.
  Lemma cos_dp_b : 0.9 <= cos dp <= 1.
  Proof. pose proof dp_b as B. clear - B. split; [interval|apply COS_bound]. Qed.

  Lemma phi_b : Rabs phi <= PI / 2.
  Proof. unfold phi. pose proof PI_RGT_0. apply Rabs_le_inv in Bla. apply Rabs_le. split; nra. Qed.
  Definition uE0 : Z := Eval vm_compute in (qbnd 1.3e-6).
  Lemma ap_u : apb (fatan (Ops := O64) (mul (Ops := O64) (lit (Ops := O64) 0.99664719) (ftan (Ops := O64) (mul (Ops := O64) (Fin la) (DEG2RAD (O := O64)))))) (n_u phi) (2 * S90) uE0.
  Proof.
    eassert (L : apb (mul (Ops := O64) (Fin la) (DEG2RAD (O := O64))) phi _ _).
    { eapply (ap_mul D HD); [apply (exact_apb la (90 * S90)); rewrite Rz_k; exact Bla|apply (ap_DEG2RAD D HD)|vm_compute; reflexivity]. }
    norm_in L. rewrite (DEG2RAD_eq D HD) in L |- *. destruct L as (w & E & L1 & L2). rewrite E. assert (Ew : w = r64 D (la * d2r D)).
    { cbn [mul DoubleOps] in E. rewrite fin_mul in E. cbn [e_rd] in E. exact (fin64_inv _ _ E). }
    cbn [mul ftan lit DoubleOps e_fun]. rewrite fin_mul. fold (flat64 D).
    assert (W := lat_below D HD la Bla). rewrite <- Ew in W.
    assert (X := u64_ok D HD w phi W phi_b). lapply X; clear X.
    - intros (u & -> & X). apply ap_fin; [|].
      + eapply Rle_trans; [exact X|]. unfold Rz, u90, S90, uE0. lra.
      + rewrite Rz_k. assert (PP : 3.14 < PI < 3.15) by (split; interval). apply Rabs_le. unfold n_u.
        destruct (Req_EM_T (cos phi) 0); [destruct (Rlt_dec 0 (sin phi)); lra|]. pose proof (atan_bound (FLAT * tan phi)). lra.
    - eapply Rle_trans; [exact L1|]. unfold Rz, u90, S90. lra.
  Qed.
  Lemma nrel_den : Rz (qlow 3500) <= Rabs (#3600 * Rad).
  Proof. assert (Q := Q2R_low 3500 eq_refl). replace (#3500) with 3500 in Q by q2r. replace (#3600) with 3600 by q2r. rewrite Rabs_pos_eq by lra. lra. Qed.
  Definition sxB0 : Z := Eval vm_compute in (qbnd 5e-5).
  Lemma sx_up : Rabs sx <= Rz sxB0.
  Proof. pose proof sx_b. rewrite Rabs_pos_eq by lra. unfold Rz, u90, S90, sxB0. lra. Qed.
  Ltac nlq v :=
    lazymatch goal with
    | |- ?P (let x := ?body in @?rest x) =>
        let H := fresh "Hb" in
        eassert (H : apb body _ _ _) by (apn D HD); norm_in H;
        lazymatch type of H with apb _ ?a ?b ?e => refine (let_ap P body v b e rest (ap_eq _ a v b e H _) _); [try reflexivity|clear H; let y := fresh "y" in let Hy := fresh "Hy" in intros y Hy; cbv beta] end
    end.
  Lemma ne_nrel_D : raw D false r 0 (1 / 100000000) dp hp (sin phi) (cos phi) (ne_nrel_2d (O := O64) r t (Fin lo) (Fin la)).
  Proof.
    assert (HU := ap_u). assert (HLO : apb (Fin lo) lo (180 * S90) 0) by (apply exact_apb; rewrite Rz_k; exact Blo).
    assert (HLA : apb (Fin la) la (90 * S90) 0) by (apply exact_apb; rewrite Rz_k; exact Bla).
    assert (HV : apb (nr_v t) v (362 * S90) 0) by (rewrite Hv; apply exact_apb; rewrite Rz_k; exact Bv).
    assert (HA : apb (nr_alpha t) al (362 * S90) 0) by (rewrite Hal; apply exact_apb; rewrite Rz_k; exact Bal).
    assert (HDE : apb (nr_delta t) d (qbnd 0.42) 0).
    { rewrite Hd. apply exact_apb. unfold Rz, u90, S90. let z := eval vm_compute in (qbnd 0.42) in change (qbnd 0.42) with z. apply Rabs_le. clear - Bd. lra. }
    clear Hd Hv Hal. cbv beta delta [ne_nrel_2d]. assert (DL := nrel_den). revert HU HLO HLA HV HA HDE HR.
    generalize (Fin lo) (Fin la) (nr_v t) (nr_alpha t) (nr_delta t) (nr_R t). intros LO LA V AL DE RR HU HLO HLA HV HA HDE HR.
    norm_in HLO. norm_in HLA. norm_in HV. norm_in HA. norm_in HDE. norm_in HR. norm_in HU.
    lazymatch goal with |- _ (let x := ?body in _) => eassert (HP : apb body phi _ _) by (eapply ap_eq; [apn D HD|reflexivity]) end. norm_in HP.
    lazymatch type of HP with apb ?x _ _ _ => generalize dependent x; intros LR HU HP; dskip end.
    lazymatch goal with |- _ (let x := mul (nemod ?a ?b) _ in _) => edestruct (ap_nemod D a b) as (k & Hk); [apn D HD|apply (ap_lit D HD)|apply (Q2R_low 360 eq_refl)|vm_compute; reflexivity|] end.
    norm_in Hk. lazymatch type of Hk with apb ?x _ _ _ => generalize dependent x; intros A0 Hk end.
    lazymatch goal with |- _ (let x := ?body in _) => eassert (Hh : apb body (h - IZR k * (2 * PI)) _ _) by (eapply ap_eq; [apn D HD|unfold h; replace (#360) with 360 by q2r; field]) end. norm_in Hh.
    lazymatch type of Hh with apb ?x _ _ _ => generalize dependent x; intros HH Hh; dskip end.
    nlq (m_xi Rad).
    lazymatch type of HU with apb ?x _ _ _ => generalize dependent x; intros U HU; dskip end.
    assert (E0 : #0.0 / #6378140.0 = 0) by q2r.
    cbv delta [ELEVATION]. nlq (n_x phi). 1:{ unfold n_x. rewrite E0. ring. }
    nlq (n_y phi). 1:{ unfold n_y. rewrite E0. ring. }
    assert (HX := ap_sin_b D HD _ _ _ _ Hy). norm_in HX. fold sx in HX. bnd HX sx_up. norm_in HX.
    lazymatch type of HX with apb ?x _ _ _ => generalize dependent x; intros SX HX end.
    assert (HSH := ap_sin D HD _ _ _ _ Hh). rewrite sin_turn in HSH. norm_in HSH. assert (HCH := ap_cos D HD _ _ _ _ Hh). rewrite cos_turn in HCH. norm_in HCH.
    lazymatch type of HSH with apb ?x _ _ _ => generalize dependent x; intros SH HSH end.
    lazymatch type of HCH with apb ?x _ _ _ => generalize dependent x; intros CH HCH end.
    (* the parallax of the right ascension *)
    eassert (HT : apb (sub (Ops := O64) (fcos (Ops := O64) DE) (mul (Ops := O64) (mul (Ops := O64) y0 SX) CH)) (tD (n_x phi) sx d h) _ _) by (eapply ap_eq; [apn D HD|reflexivity]). norm_in HT.
    lazymatch type of HT with apb ?x _ _ _ => generalize dependent x; intros TD HT end.
    assert (T2 := tD_ok).
    lazymatch goal with |- _ (let x := fatan2 ?a ?b in _) => edestruct (ap_atan2 D HD a b) as (k1 & Hk1); [apn D HD|apn D HD| |vm_compute; reflexivity|] end.
    1:{ match goal with |- _ <= ?a * ?a + _ => pose proof (Rle_0_sqr a) as Q; unfold Rsqr in Q; set (w := a) in * end. clear - Q T2. nra. }
    fold (t_da (n_x phi) sx d h) in Hk1. fold da in Hk1. norm_in Hk1.
    lazymatch type of Hk1 with apb ?x _ _ _ => generalize dependent x; intros DA Hk1; dskip end.
    eassert (HCA : apb (fcos (Ops := O64) DA) (cos da) _ _).
    { eapply ap_eq; [apply (ap_cos D HD _ _ _ _ Hk1)|]. replace (da + 2 * PI * IZR k1) with (da - IZR (- k1) * (2 * PI)) by (rewrite opp_IZR; ring). apply cos_turn. }
    norm_in HCA. lazymatch type of HCA with apb ?x _ _ _ => generalize dependent x; intros CA HCA end.
    (* the declination *)
    lazymatch goal with |- _ (let x := fatan2 ?a ?b in _) => edestruct (ap_atan2 D HD a b) as (k2 & Hk2); [apn D HD|apn D HD| |vm_compute; reflexivity|] end.
    1:{ match goal with |- _ <= ?a * ?a + _ => pose proof (Rle_0_sqr a) as Q; unfold Rsqr in Q; set (w := a) in * end. clear - Q T2. nra. }
    fold (t_dp (n_x phi) (n_y phi) sx d h) in Hk2. 
    change (Ratan2 ((sin d - n_y phi * sx) * cos da) (tD (n_x phi) sx d h)) with dp in Hk2. norm_in Hk2.
    assert (K2 : k2 = 0%Z).
    { destruct Hk2 as (_ & _ & _ & B). pose proof dp_b as Bp. assert (PP : 3.14 < PI < 3.15) by (split; interval).
      assert (B' : Rabs (dp + 2 * PI * IZR k2) <= 3.2) by (eapply Rle_trans; [exact B|]; unfold Rz, u90, S90; lra). apply Rabs_le_inv in B'.
      destruct (Z.lt_trichotomy k2 0) as [N|[N|N]]; [exfalso|exact N|exfalso].
      - assert (IZR k2 <= -1) by (apply IZR_le; lia). nra.
      - assert (1 <= IZR k2) by (apply IZR_le; lia). nra. }
    rewrite K2, Rmult_0_r, Rplus_0_r in Hk2. clear K2 k2.
    assert (HDP : apb (fatan2 (Ops := O64) (mul (Ops := O64) (sub (Ops := O64) (fsin (Ops := O64) DE) (mul (Ops := O64) y1 SX)) CA) TD) dp (qbnd 0.42) (qbnd 1e-9)).
    { eapply ap_le; [apply (ap_bnd _ _ _ _ (qbnd 0.42) Hk2)| |]; [|vm_compute; reflexivity|vm_compute; reflexivity].
      pose proof dp_b. unfold Rz, u90, S90. let z := eval vm_compute in (qbnd 0.42) in change (qbnd 0.42) with z. apply Rabs_le. lra. }
    clear Hk2. lazymatch type of HDP with apb ?x _ _ _ => generalize dependent x; intros DP HDP; dskip end.
    (* the hour angle *)
    lazymatch goal with |- _ (let x := ?body in _) => eassert (HHP : apb body (hp - IZR (k + k1) * (2 * PI)) _ _) by (eapply ap_eq; [apn D HD|rewrite plus_IZR; unfold hp, t_Hp; fold da; ring]) end. norm_in HHP.
    lazymatch type of HHP with apb ?x _ _ _ => generalize dependent x; intros HPP HHP; dskip end.
    assert (HSP := ap_sin D HD _ _ _ _ HHP). rewrite sin_turn in HSP. norm_in HSP. assert (HCP := ap_cos D HD _ _ _ _ HHP). rewrite cos_turn in HCP. norm_in HCP.
    lazymatch type of HSP with apb ?x _ _ _ => generalize dependent x; intros SP HSP end.
    lazymatch type of HCP with apb ?x _ _ _ => generalize dependent x; intros CP HCP end.
    assert (HTP := ap_tan D HD _ _ _ HDP ltac:(tolb)). norm_in HTP. norm_in HDP.
    lazymatch type of HTP with apb ?x _ _ _ => generalize dependent x; intros TP HTP end.
    cbv zeta.
    lazymatch goal with |- context [fasin ?C] => eassert (HC : apb C (gcos dp hp (sin phi) (cos phi)) _ _) by (eapply ap_eq; [apn D HD|unfold gcos; ring]) end. norm_in HC.
    lazymatch goal with |- context [fatan2 ?Y ?X] => eassert (HX' : apb X (cos hp * sin phi - tan dp * cos phi) _ _) by (eapply ap_eq; [apn D HD|reflexivity]) end. norm_in HX'.
    set (fn := fun e : ext => sub (Ops := O64) (HALFPI (O := O64)) (if r then
        where_ (fle (Ops := O64) (neg (Ops := O64) (lit (Ops := O64) 1.4545e-2)) e) (add (Ops := O64) e (div (Ops := O64) (mul (Ops := O64) (ATM_REFR (O := O64)) (lit (Ops := O64) 1.7802e-2))
            (mul (Ops := O64) (lit (Ops := O64) 60) (ftan (Ops := O64) (add (Ops := O64) e (div (Ops := O64) (lit (Ops := O64) 3.1376e-3) (add (Ops := O64) e (lit (Ops := O64) 8.9186e-2)))))))) e
      else e)).
    eapply raw_plain with (fin := fn); [exact HD|exact cos_dp_b| | | | |exact HSP|exact HX'|exact HC| | | |reflexivity]; [tolb|tolb|tolb|tolb|tolb| |].
    - intros z0 w _ Hw Hr. unfold fn. rewrite Hr. generalize dependent (Fin w). intros W Hw. norm_in Hw.
      replace (z0 + 0 * sin z0) with (PI / 2 - (PI / 2 - z0)) by ring.
      eassert (HZ : apb (sub (Ops := O64) (HALFPI (O := O64)) W) _ _ _) by (apn D HD). norm_in HZ. eapply apb_near; [exact HZ|tol].
    - assert (N : forall x, sub (Ops := O64) x NaN = NaN) by (intros [| | |]; reflexivity). unfold fn. destruct r; apply N.
  Qed.
  Lemma ne_nrel_D1 : raw D false r 0 (1 / 100000000) dp hp (sin phi) (cos phi) (ne_nrel_1d (O := O64) r t (Fin lo) (Fin la)).
  Proof. exact ne_nrel_D. Qed.
  Lemma ne_nrel_D3 : raw D false r 0 (1 / 100000000) dp hp (sin phi) (cos phi) (ne_nrel_3d (O := O64) r t (Fin lo) (Fin la)).
  Proof. exact ne_nrel_D. Qed.
End Cell.
