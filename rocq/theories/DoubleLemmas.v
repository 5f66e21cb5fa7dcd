(** * DoubleLemmas: the functions of DoubleOps that need a hypothesis: asin, atan2, modulo, sqrt, the wrapping of the equation of time *)

From Coq Require Import ZArith QArith Qabs Reals Bool List Lra Lia.
From Flocq Require Import Core.Raux.
From Interval Require Import Tactic.
From Verif Require Import Num Ext ExtLemmas Sky SkyClose AstroTac SingleSpec Double DoubleTac.
Open Scope R_scope.

(** ** Real analysis *)
Lemma sin_expand a b : Rabs a <= 1 -> Rabs b <= 1 -> Rabs (a - b) <= 2 * Rabs (sin a - sin b).
Proof.
  assert (K : forall a b, -1 <= a -> a < b -> b <= 1 -> b - a <= 2 * (sin b - sin a)).
  { intros x y H1 H2 H3. destruct (MVT_cor2 sin cos x y H2) as (c & Hc & Hi); [intros; apply derivable_pt_lim_sin|].
    rewrite Hc. assert (0.5 <= cos c) by (assert (-1 <= c <= 1) by lra; interval). nra. }
  intros Ha Hb. apply Rabs_le_inv in Ha, Hb. destruct (Rtotal_order a b) as [H|[->|H]].
  - assert (T := K a b ltac:(lra) H ltac:(lra)). rewrite (Rabs_left1 (a - b)) by lra. rewrite (Rabs_left1 (sin a - sin b)) by lra. lra.
  - rewrite !Rminus_diag_eq, Rabs_R0 by reflexivity. lra.
  - assert (T := K b a ltac:(lra) H ltac:(lra)). rewrite (Rabs_pos_eq (a - b)) by lra. rewrite (Rabs_pos_eq (sin a - sin b)) by lra. lra.
Qed.
Lemma asin_half v : -0.5 <= v <= 0.5 -> Rabs (asin v) <= 1.
Proof.
  intros Hv. assert (B := asin_bound v). assert (S := sin_asin v ltac:(lra)). assert (P : 3.14 < PI < 3.15) by (split; interval).
  apply Rabs_le. split; apply Rnot_lt_le; intros C.
  - assert (sin (asin v) < sin (-1)) by (apply sin_increasing_1; lra). assert (sin (-1) < -0.5) by interval. lra.
  - assert (sin 1 < sin (asin v)) by (apply sin_increasing_1; lra). assert (0.5 < sin 1) by interval. lra.
Qed.
Lemma asin_close v a : -0.5 <= v <= 0.5 -> -0.5 <= a <= 0.5 -> Rabs (asin v - asin a) <= 2 * Rabs (v - a).
Proof.
  intros Hv Ha. assert (T := sin_expand (asin v) (asin a) (asin_half v Hv) (asin_half a Ha)).
  rewrite !sin_asin in T by lra. exact T.
Qed.
Lemma atan2_close v w a c e : Rabs (v - a) <= e -> Rabs (w - c) <= e -> 1 / 2 <= a * a + c * c -> e <= 1 / 100 ->
  (v <> 0 \/ w <> 0) /\ exists k : Z, Rabs (Ratan2 v w - Ratan2 a c - 2 * PI * IZR k) <= 4 * e.
Proof.
  intros H1 H2 H3 H4. assert (He : 0 <= e) by (pose proof (Rabs_pos (v - a)); lra).
  destruct (Ratan2_polar v w) as [V1 V2]. destruct (Ratan2_polar a c) as [A1 A2].
  set (th := Ratan2 v w) in *. set (t0 := Ratan2 a c) in *.
  set (r := sqrt (w ^ 2 + v ^ 2)) in *. set (q := sqrt (c ^ 2 + a ^ 2)) in *.
  assert (Pr : 0 <= r) by apply sqrt_pos. assert (Pq : 0 <= q) by apply sqrt_pos.
  assert (Qq : q * q = c * c + a * a) by (unfold q; rewrite sqrt_sqrt by nra; ring).
  assert (Lq : 0.7 <= q) by nra.
  assert (Ba : Rabs a <= q) by (apply Rabs_le; split; nra). assert (Bc : Rabs c <= q) by (apply Rabs_le; split; nra).
  assert (Dp : r * q * cos (th - t0) = w * c + v * a).
  { rewrite cos_minus. transitivity ((r * cos th) * (q * cos t0) + (r * sin th) * (q * sin t0)); [ring|]. now rewrite <- V1, <- V2, <- A1, <- A2. }
  assert (Cp : r * q * sin (th - t0) = v * c - w * a).
  { rewrite sin_minus. transitivity ((r * sin th) * (q * cos t0) - (r * cos th) * (q * sin t0)); [ring|]. now rewrite <- V1, <- V2, <- A1, <- A2. }
  clearbody r q th t0. clear V1 V2 A1 A2.
  assert (P1 := Rabs_prod_le _ _ _ _ H1 Ba). assert (P2 := Rabs_prod_le _ _ _ _ H2 Bc).
  assert (P3 := Rabs_prod_le _ _ _ _ H1 Bc). assert (P4 := Rabs_prod_le _ _ _ _ H2 Ba).
  assert (D1 : q * q - 2 * (e * q) <= w * c + v * a) by (apply Rabs_le_inv in P1, P2; nra).
  assert (C1 : Rabs (v * c - w * a) <= 2 * (e * q)).
  { replace (v * c - w * a) with ((v - a) * c + - ((w - c) * a)) by ring. eapply Rle_trans; [apply Rabs_triang|]. rewrite Rabs_Ropp. lra. }
  assert (D2 : 0 < w * c + v * a) by nra.
  assert (Hr : 0 < r).
  { destruct Pr as [|E0]; [assumption|]. rewrite <- E0 in Dp. lra. }
  split.
  - destruct (Req_dec v 0) as [E1|]; [|now left]. right. intros E2. rewrite E1, E2 in D2. lra.
  - assert (Hc : 0 < cos (th - t0)) by (apply Rmult_lt_reg_l with (r * q); [nra|rewrite Dp; lra]).
    apply small_tan; [exact Hc|]. apply Rmult_le_reg_l with (r * q); [nra|].
    rewrite <- (Rabs_pos_eq (r * q)) at 1 by nra. rewrite <- Rabs_mult, Cp. replace (r * q * (4 * e * cos (th - t0))) with (4 * e * (r * q * cos (th - t0))) by ring.
    rewrite Dp. eapply Rle_trans; [exact C1|]. replace (2 * (e * q)) with (4 * e * (q * (1 / 2))) by field. apply Rmult_le_compat_l; [lra|].
    assert (q * (1 / 2) <= q * (q - 2 * e)) by (apply Rmult_le_compat_l; lra). lra.
Qed.

Section Ops.
  Variable D : Env64.
  Hypothesis HD : double_like D.
  Notation O64 := (DoubleOps D).

  Lemma Rz_half b : (b <=? S90 / 2)%Z = true -> Rz b <= 0.5.
  Proof.
    intros H. apply Z.leb_le, Rz_le in H. eapply Rle_trans; [exact H|]. unfold Rz, u90, S90.
    let z := eval vm_compute in (1237940039285380274899124224 / 2)%Z in change (1237940039285380274899124224 / 2)%Z with z. lra.
  Qed.
  Lemma ap_asin x a b e : apb x a b e -> (b + e <=? S90 / 2)%Z = true -> apb (fasin (Ops := O64) x) (asin a) S90 (2 * e + 2 ^ 40).
  Proof.
    intros H Hb. assert (N := apb_nonneg _ _ _ _ H). destruct H as (v & -> & H1 & H2). apply Rz_half in Hb. rewrite Rz_plus in Hb.
    assert (Ha : -0.5 <= a <= 0.5). { assert (0 <= Rz e) by (pose proof (Rabs_pos (v - a)); lra). apply Rabs_le_inv in H2. lra. }
    assert (Hv : -0.5 <= v <= 0.5) by (apply Rabs_le_inv in H1, H2; lra).
    cbn [fasin DoubleOps]. rewrite fin_unit by lra. apply ap_fin.
    - rewrite Rz_plus, <- pow50. replace (asin64 D v - asin a) with ((asin v - asin a) + (asin64 D v - asin v)) by ring.
      eapply Rle_trans; [apply Rabs_triang|]. assert (A := proj1 (dl_asin D HD v ltac:(lra))). assert (C := asin_close v a Hv Ha).
      replace (Rz (2 * e)) with (2 * Rz e) by (unfold Rz; rewrite mult_IZR; ring). lra.
    - rewrite Rz_S. now apply asin_half.
  Qed.

  Definition atan2B (e : Z) : Z := (piB + piE + 4 * e + 2 ^ 40)%Z.
  Lemma ap_atan2 y x a c b1 b2 e1 e2 : apb y a b1 e1 -> apb x c b2 e2 -> 1 / 2 <= a * a + c * c -> (Z.max e1 e2 <=? S90 / 128)%Z = true ->
    exists k : Z, apb (fatan2 (Ops := O64) y x) (Ratan2 a c + 2 * PI * IZR k) (atan2B (Z.max e1 e2)) (4 * Z.max e1 e2 + 2 ^ 40).
  Proof.
    intros (v & -> & H1 & H2) (w & -> & H3 & H4) Hn He. set (e := Z.max e1 e2) in *. cbn [fatan2 DoubleOps].
    assert (E1 : Rz e1 <= Rz e) by (apply Rz_le, Z.le_max_l). assert (E2 : Rz e2 <= Rz e) by (apply Rz_le, Z.le_max_r).
    assert (E3 : Rz e <= 1 / 100).
    { apply Z.leb_le, Rz_le in He. eapply Rle_trans; [exact He|]. unfold Rz, u90, S90.
      let z := eval vm_compute in (1237940039285380274899124224 / 128)%Z in change (1237940039285380274899124224 / 128)%Z with z. lra. }
    destruct (atan2_close v w a c (Rz e) ltac:(lra) ltac:(lra) Hn E3) as (N & k1 & K1).
    destruct (dl_atan2 D HD v w) as (B & k2 & K2). specialize (K2 N). rewrite pow50 in K2. exists (k1 + k2)%Z.
    assert (X : Rabs (atan264 D v w - (Ratan2 a c + 2 * PI * IZR (k1 + k2))) <= Rz (4 * e + 2 ^ 40)).
    { rewrite plus_IZR. replace (_ - _) with ((Ratan2 v w - Ratan2 a c - 2 * PI * IZR k1) + (atan264 D v w - Ratan2 v w - 2 * PI * IZR k2)) by ring.
      eapply Rle_trans; [apply Rabs_triang|]. rewrite Rz_plus. replace (Rz (4 * e)) with (4 * Rz e) by (unfold Rz; rewrite mult_IZR; ring). lra. }
    apply ap_fin; [exact X|]. unfold atan2B. rewrite <- Z.add_assoc, Rz_plus.
    assert (P : r64 D PI <= Rz (piB + piE)).
    { assert (P := rd_err D HD PI piB piB_ok). apply Rabs_le_inv in P. assert (P' := piB_ok). rewrite Rabs_pos_eq in P' by (pose proof PI_RGT_0; lra).
      rewrite Rz_plus. change piE with (rdE piB). lra. }
    apply Rabs_le_inv in B, X. apply Rabs_le. lra.
  Qed.

  (** ** Modulo *)
  Definition modK (b e m eP : Z) : Z := ((b + e) / (m - eP) + 2)%Z.
  Definition modE (b e m eP : Z) : Z := (e + modK b e m eP * eP)%Z.
  Definition modB (b e m bP eP : Z) : Z := (bP + eP + modE b e m eP)%Z.
  Lemma mod_err v w a P b e m bP eP r (k : Z) :
    Rabs (v - a) <= Rz e -> Rabs a <= Rz b -> Rabs (w - P) <= Rz eP -> Rabs P <= Rz bP -> Rz m <= P -> (eP <? m)%Z = true ->
    r = v - IZR k * w -> Rabs r <= w -> Rabs (r - (a - IZR k * P)) <= Rz (modE b e m eP) /\ Rabs r <= Rz (bP + eP).
  Proof.
    intros H1 H2 H3 H4 H5 H6 H7 H8. apply Z.ltb_lt in H6. pose proof u90_pos as Hu.
    assert (He : (0 <= eP)%Z) by (apply Rz_nonneg; pose proof (Rabs_pos (w - P)); lra).
    assert (Hb : (0 <= b)%Z) by (apply Rz_nonneg; pose proof (Rabs_pos a); lra).
    assert (Hee : (0 <= e)%Z) by (apply Rz_nonneg; pose proof (Rabs_pos (v - a)); lra).
    assert (Hme : (0 < m - eP)%Z) by lia.
    assert (P1 : 0 < Rz (m - eP)) by (unfold Rz; apply IZR_lt in Hme; apply Rmult_lt_0_compat; lra).
    assert (Hw : Rz (m - eP) <= w).
    { unfold Z.sub. rewrite Rz_plus. replace (Rz (- eP)) with (- Rz eP) by (unfold Rz; rewrite opp_IZR; ring). apply Rabs_le_inv in H3. lra. }
    assert (Hv : Rabs v <= Rz (b + e)).
    { rewrite Rz_plus. replace v with (a + (v - a)) by ring. eapply Rle_trans; [apply Rabs_triang|]. lra. }
    assert (K1 : Rabs (IZR k) * w <= Rabs v + w).
    { rewrite <- (Rabs_pos_eq w) at 1 by lra. rewrite <- Rabs_mult. replace (IZR k * w) with (v + - r) by (rewrite H7; ring).
      eapply Rle_trans; [apply Rabs_triang|]. rewrite Rabs_Ropp. lra. }
    assert (K2 : Rabs (IZR k) <= IZR (modK b e m eP)).
    { unfold modK. replace 2%Z with (1 + 1)%Z by reflexivity. rewrite Z.add_assoc, plus_IZR.
      assert (U := Zdiv_up (b + e) (m - eP) Hme).
      assert (Q : Rabs v <= IZR (b + e) / IZR (m - eP) * w).
      { apply IZR_lt in Hme. eapply Rle_trans; [exact Hv|]. replace (Rz (b + e)) with (IZR (b + e) / IZR (m - eP) * Rz (m - eP)) by (unfold Rz; field; lra).
        apply Rmult_le_compat_l; [|exact Hw]. apply Rle_mult_inv_pos; [apply IZR_le; lia|lra]. }
      apply Rmult_le_reg_r with w; [lra|]. rewrite Rmult_plus_distr_r.
      assert (IZR (b + e) / IZR (m - eP) * w <= IZR ((b + e) / (m - eP) + 1) * w) by (apply Rmult_le_compat_r; lra). lra. }
    split.
    - unfold modE. rewrite Rz_plus. replace (r - (a - IZR k * P)) with ((v - a) + - (IZR k * (w - P))) by (rewrite H7; ring).
      eapply Rle_trans; [apply Rabs_triang|]. rewrite Rabs_Ropp. apply Rplus_le_compat; [exact H1|].
      replace (Rz (modK b e m eP * eP)) with (IZR (modK b e m eP) * Rz eP) by (unfold Rz; rewrite mult_IZR; ring).
      now apply Rabs_prod_le.
    - rewrite Rz_plus. apply Rabs_le_inv in H3, H4. lra.
  Qed.
  Lemma mod_pos w P m bP eP : Rabs (w - P) <= Rz eP -> Rabs P <= Rz bP -> Rz m <= P -> (eP <? m)%Z = true -> 0 < w.
  Proof.
    intros H3 H4 H5 H6. apply Z.ltb_lt in H6. assert (Rz eP < Rz m) by (unfold Rz; apply Rmult_lt_compat_r; [apply u90_pos|now apply IZR_lt]).
    apply Rabs_le_inv in H3. lra.
  Qed.
  Lemma ap_nemod x y a P b e m bP eP : apb x a b e -> apb y P bP eP -> Rz m <= P -> (eP <? m)%Z = true ->
    exists k : Z, apb (nemod (Ops := O64) x y) (a - IZR k * P) (modB b e m bP eP) (modE b e m eP).
  Proof.
    intros (v & -> & H1 & H2) (w & -> & H3 & H4) Hm He. assert (Pw := mod_pos w P m bP eP H3 H4 Hm He).
    cbn [nemod DoubleOps]. rewrite fin_mod by exact Pw. destruct (nem_spec (single D) v w Pw) as (k & K1 & K2). exists k.
    destruct (mod_err v w a P b e m bP eP _ k H1 H2 H3 H4 Hm He K1 ltac:(lra)) as [E1 E2]. apply ap_fin; [exact E1|].
    unfold modB. rewrite Rz_plus. apply Rabs_le_inv in E1, E2. apply Rabs_le. lra.
  Qed.
  Lemma ap_npmod x y a P b e m bP eP : apb x a b e -> apb y P bP eP -> Rz m <= P -> (eP <? m)%Z = true ->
    exists k : Z, apb (npmod (Ops := O64) x y) (a - IZR k * P) (bP + eP + (modE b e m eP + eP + rdE (bP + eP))) (modE b e m eP + eP + rdE (bP + eP)).
  Proof.
    intros (v & -> & H1 & H2) (w & -> & H3 & H4) Hm He. assert (Pw := mod_pos w P m bP eP H3 H4 Hm He).
    assert (Z1 : 0 <= Rz eP) by (pose proof (Rabs_pos (w - P)); lra).
    cbn [npmod DoubleOps]. rewrite fin_mod by exact Pw. destruct (fmod_spec v w Pw) as (k & K1 & K2). unfold pymod64.
    destruct (mod_err v w a P b e m bP eP _ k H1 H2 H3 H4 Hm He K1 ltac:(lra)) as [E1 E2]. set (r := Rfmod v w) in *.
    assert (Z2 : 0 <= Rz (rdE (bP + eP))) by (eapply Rle_trans; [apply Rabs_pos|apply (rd_err D HD r (bP + eP) E2)]).
    destruct (Rlt_dec r 0) as [Hr|Hr].
    - exists (k - 1)%Z. assert (E3 : Rabs (r + w) <= Rz (bP + eP)).
      { assert (w <= Rz (bP + eP)) by (rewrite Rz_plus; apply Rabs_le_inv in H3, H4; lra). apply Rabs_def2 in K2. apply Rabs_le. lra. }
      assert (E4 := rd_err D HD _ _ E3).
      assert (X : Rabs (r64 D (r + w) - (a - IZR (k - 1) * P)) <= Rz (modE b e m eP + eP + rdE (bP + eP))).
      { rewrite !Rz_plus, minus_IZR. replace (_ - _) with ((r64 D (r + w) - (r + w)) + ((r - (a - IZR k * P)) + (w - P))) by ring.
        eapply Rle_trans; [apply Rabs_triang|]. assert (T := Rabs_triang (r - (a - IZR k * P)) (w - P)). lra. }
      apply ap_fin; [exact X|]. rewrite Rz_plus. apply Rabs_le_inv in E3, X, E4. 
      replace (a - IZR (k - 1) * P) with ((r + w) + - ((r + w) - (a - IZR (k - 1) * P))) by ring.
      eapply Rle_trans; [apply Rabs_triang|]. rewrite Rabs_Ropp. apply Rplus_le_compat; [apply Rabs_le; lra|].
      rewrite minus_IZR. replace (_ - _) with ((r - (a - IZR k * P)) + (w - P)) by ring. eapply Rle_trans; [apply Rabs_triang|]. rewrite !Rz_plus. lra.
    - exists k. assert (X : Rabs (r - (a - IZR k * P)) <= Rz (modE b e m eP + eP + rdE (bP + eP))) by (rewrite !Rz_plus; lra).
      apply ap_fin; [exact X|]. rewrite Rz_plus. apply Rabs_le_inv in E2, X. apply Rabs_le. lra.
  Qed.

  (** ** Square root away from 0 *)
  Lemma ap_sqrt x a b e : apb x a b e -> 1 / 16 <= a -> (e <=? S90 / 128)%Z = true -> fits64 (b + S90) (4 * e) = true ->
    apb (fsqrt (Ops := O64) x) (sqrt a) (b + S90) (4 * e + rdE (b + S90 + 4 * e)).
  Proof.
    intros (v & -> & H1 & H2) Ha He Ho.
    assert (E3 : Rz e <= 1 / 100).
    { apply Z.leb_le, Rz_le in He. eapply Rle_trans; [exact He|]. unfold Rz, u90, S90.
      let z := eval vm_compute in (1237940039285380274899124224 / 128)%Z in change (1237940039285380274899124224 / 128)%Z with z. lra. }
    assert (Hv : 0 <= v) by (apply Rabs_le_inv in H1; lra). cbn [fsqrt DoubleOps]. rewrite fin_sqrt by exact Hv.
    assert (Q1 := sqrt_sqrt v Hv). assert (Q2 := sqrt_sqrt a ltac:(lra)). assert (P1 := sqrt_pos v). assert (P2 := sqrt_pos a).
    apply ap_rd; [exact HD| | |exact Ho].
    - replace (Rz (4 * e)) with (4 * Rz e) by (unfold Rz; rewrite mult_IZR; ring).
      assert (L : 1 / 4 <= sqrt a) by nra. rewrite <- Q1, <- Q2 in H1. replace (sqrt v * sqrt v - sqrt a * sqrt a) with ((sqrt v - sqrt a) * (sqrt v + sqrt a)) in H1 by ring.
      rewrite Rabs_mult, (Rabs_pos_eq (sqrt v + sqrt a)) in H1 by lra. pose proof (Rabs_pos (sqrt v - sqrt a)). nra.
    - rewrite Rz_plus, Rz_S, Rabs_pos_eq by exact P2. rewrite Rabs_pos_eq in H2 by lra. nra.
  Qed.

  (** ** Wrapping of the equation of time *)
  Lemma wrap_n x m n b e : apb x (m + 1440 * IZR n) b e -> Rabs m <= 18.2 -> (b <=? 1500 * S90)%Z = true -> (n = -1 \/ n = 0 \/ n = 1)%Z.
  Proof.
    intros (v & _ & _ & H) Hm Hb. apply Z.leb_le, Rz_le in Hb. replace (Rz (1500 * S90)) with 1500 in Hb by (unfold Rz; rewrite mult_IZR, Rmult_assoc; fold (Rz S90); rewrite Rz_S; ring).
    apply Rabs_le_inv in Hm. assert (T := Rle_trans _ _ _ H Hb). apply Rabs_le_inv in T.
    assert (-2 < IZR n < 2) by lra. assert (-2 < n < 2)%Z by (split; apply lt_IZR; lra). lia.
  Qed.
  Lemma ap_lt x y a c b1 b2 e1 e2 : apb x a b1 e1 -> apb y c b2 e2 -> (e1 <=? S90)%Z = true -> (e2 <=? S90 / 2)%Z = true ->
    (a <= c - 1.6 -> flt (Ops := O64) x y = true) /\ (c + 1.6 <= a -> flt (Ops := O64) x y = false).
  Proof.
    intros (v & -> & H1 & _) (w & -> & H3 & _) He1 He2. apply Z.leb_le, Rz_le in He1. rewrite Rz_S in He1. apply Rz_half in He2. cbn [flt DoubleOps].
    rewrite fin_lt. apply Rabs_le_inv in H1, H3. split; intros H; [apply Rltb_true|apply Rltb_false]; lra.
  Qed.
  Definition wrapE (e : Z) : Z := (e + qerr 1440.0 + rdE (1500 * S90 + qbnd 1440.0 + (e + qerr 1440.0)))%Z.
  Definition B18 : Z := (19 * S90)%Z.
  Lemma Rz18 : Rz B18 = 19. Proof. unfold B18, Rz. rewrite mult_IZR, Rmult_assoc. fold (Rz S90). rewrite Rz_S. ring. Qed.
  Lemma wrapE_ok e : (0 <= e)%Z -> (e <= wrapE e)%Z.
  Proof.
    intros H. unfold wrapE, rdE. assert (E : (qerr 1440.0 = 0)%Z) by (vm_compute; reflexivity). rewrite E. rewrite Z.add_0_r.
    assert (0 <= (1500 * S90 + qbnd 1440.0 + e) / 2 ^ 53)%Z; [|lia]. apply Z.div_pos; [|reflexivity]. 
    assert (0 <= 1500 * S90 + qbnd 1440.0)%Z by (vm_compute; discriminate). lia.
  Qed.
  Lemma Q20' : apb (lit (Ops := O64) 20.0) 20 (qbnd 20.0) (qerr 20.0).
  Proof. eapply ap_eq; [apply (ap_lit D HD)|q2r]. Qed.
  Lemma Q20n : apb (neg (Ops := O64) (lit (Ops := O64) 20.0)) (-20) (qbnd 20.0) (qerr 20.0).
  Proof. apply (ap_neg D). exact Q20'. Qed.

  Section Wrap.
    Variables (x : ext) (m : R) (n : Z) (b e : Z) (q : Q).
    Hypothesis H : apb x (m + 1440 * IZR n) b e.
    Hypothesis Hm : Rabs m <= 18.2.
    Hypothesis Hb : (b <=? 1500 * S90)%Z = true.
    Hypothesis He : (e <=? S90 / 2)%Z = true.
    Hypothesis Hq : q = 1440.0%Q \/ q = 1440%Q.
    Let Hq1 : Q2R q = 1440. Proof. destruct Hq as [-> | ->]; q2r. Qed.
    Let Hq2 : apb (lit (Ops := O64) q) 1440 (qbnd 1440.0) (qerr 1440.0).
    Proof.
      eapply ap_eq; [|exact Hq1]. destruct Hq as [-> | ->]; [apply (ap_lit D HD)|]. eapply ap_le; [apply (ap_lit D HD)| |]; vm_compute; reflexivity.
    Qed.
    Let He' : (e <=? S90)%Z = true. Proof. apply Z.leb_le. apply Z.leb_le in He. assert (S90 / 2 <= S90)%Z by (vm_compute; discriminate). lia. Qed.
    Let Hl y c : apb y c (qbnd 20.0) (qerr 20.0) -> 
      (m + 1440 * IZR n <= c - 1.6 -> flt (Ops := O64) x y = true) /\ (c + 1.6 <= m + 1440 * IZR n -> flt (Ops := O64) x y = false) /\
      (m + 1440 * IZR n <= c - 1.6 -> flt (Ops := O64) y x = false) /\ (c + 1.6 <= m + 1440 * IZR n -> flt (Ops := O64) y x = true).
    Proof.
      intros Hy. assert (E0 : (qerr 20.0 <=? S90 / 2)%Z = true) by (vm_compute; reflexivity). assert (E1 : (qerr 20.0 <=? S90)%Z = true) by (vm_compute; reflexivity).
      destruct (ap_lt x y _ _ _ _ _ _ H Hy He' E0) as [A1 A2]. destruct (ap_lt y x _ _ _ _ _ _ Hy H E1 He) as [A3 A4].
      split; [exact A1|]. split; [exact A2|]. split; intros L; [apply A4; lra|apply A3; lra].
    Qed.
    (** A value near [m] is not wrapped. *)
    Let stay y : apb y m B18 (wrapE e) -> flt (Ops := O64) y (neg (Ops := O64) (lit (Ops := O64) 20.0)) = false /\ flt (Ops := O64) (lit (Ops := O64) 20.0) y = false.
    Proof.
      intros Hy. assert (W : (wrapE e <=? S90)%Z = true).
      { apply Z.leb_le. apply Z.leb_le in He. unfold wrapE, rdE.
        assert (E1 : (qerr 1440.0 = 0)%Z) by (vm_compute; reflexivity). rewrite E1, !Z.add_0_r.
        assert ((1500 * S90 + qbnd 1440.0 + e) / 2 ^ 53 <= (1500 * S90 + qbnd 1440.0 + S90 / 2) / 2 ^ 53)%Z by (apply Z.div_le_mono; [reflexivity|lia]).
        assert (S90 / 2 + ((1500 * S90 + qbnd 1440.0 + S90 / 2) / 2 ^ 53 + 2) <= S90)%Z by (vm_compute; discriminate). lia. }
      apply Rabs_le_inv in Hm. split.
      - refine (proj2 (ap_lt _ _ _ _ _ _ _ _ Hy Q20n W _) _); [vm_compute; reflexivity|lra].
      - destruct Hy as (v & -> & Y1 & _). apply Z.leb_le, Rz_le in W. rewrite Rz_S in W. cbn [flt lit DoubleOps]. rewrite fin_lt.
        replace (Q2R 20.0) with (IZR 20) by q2r. rewrite (dl_int D HD) by (vm_compute; discriminate).
        apply Rltb_false. apply Rabs_le_inv in Y1. lra.
    Qed.
    Let room : fits64 (1500 * S90 + qbnd 1440.0) (e + qerr 1440.0) = true.
    Proof. apply Z.leb_le. apply Z.leb_le in He. assert (1500 * S90 + qbnd 1440.0 + (S90 / 2 + qerr 1440.0) <= OV)%Z by (apply Z.leb_le; vm_compute; reflexivity). lia. Qed.
    Let plus y : apb y (m - 1440) (1500 * S90) e -> apb (add (Ops := O64) y (lit (Ops := O64) q)) m B18 (wrapE e).
    Proof.
      intros Hy. eapply ap_eq with (a := m - 1440 + 1440); [|ring]. apply (ap_bnd _ _ _ _ B18 (ap_add D HD _ _ _ _ _ _ _ _ Hy Hq2 room)).
      rewrite Rz18. replace (m - 1440 + 1440) with m by ring. lra.
    Qed.
    Let minus y : apb y (m + 1440) (1500 * S90) e -> apb (sub (Ops := O64) y (lit (Ops := O64) q)) m B18 (wrapE e).
    Proof.
      intros Hy. eapply ap_eq with (a := m + 1440 - 1440); [|ring]. apply (ap_bnd _ _ _ _ B18 (ap_sub D HD _ _ _ _ _ _ _ _ Hy Hq2 room)).
      rewrite Rz18. replace (m + 1440 - 1440) with m by ring. lra.
    Qed.
    Let plain y : apb y m b e -> apb y m B18 (wrapE e).
    Proof.
      intros Hy. assert (Hn := apb_nonneg _ _ _ _ Hy). assert (Hy' : apb y m b (wrapE e)) by (eapply ap_le; [exact Hy|apply Z.leb_refl|apply Z.leb_le, wrapE_ok; tauto]).
      apply (ap_bnd _ _ _ _ B18 Hy'). rewrite Rz18. lra.
    Qed.
    Let wide : apb x (m + 1440 * IZR n) (1500 * S90) e. Proof. eapply ap_le; [exact H|exact Hb|apply Z.leb_refl]. Qed.

    Lemma ap_wrap_gt_first : 
      let y := where_ (flt (Ops := O64) (lit (Ops := O64) 20.0) x) (sub (Ops := O64) x (lit (Ops := O64) q)) x in
      apb (where_ (flt (Ops := O64) y (neg (Ops := O64) (lit (Ops := O64) 20.0))) (add (Ops := O64) y (lit (Ops := O64) q)) y) m B18 (wrapE e).
    Proof.
      cbv zeta. assert (Hn := wrap_n x m n b e H Hm Hb). apply Rabs_le_inv in Hm as Hm'.
      destruct (Hl _ _ Q20') as (_ & _ & A3 & A4). destruct (Hl _ _ Q20n) as (B1 & B2 & _ & _).
      destruct Hn as [->|[->| ->]].
      - rewrite A3 by lra. cbn [where_]. rewrite B1 by lra. cbn [where_]. apply plus. eapply ap_eq; [exact wide|ring].
      - rewrite A3 by lra. cbn [where_]. rewrite B2 by lra. cbn [where_]. apply plain. eapply ap_eq; [exact H|ring].
      - rewrite A4 by lra. cbn [where_]. assert (M := minus x ltac:(eapply ap_eq; [exact wide|ring])). rewrite (proj1 (stay _ M)). exact M.
    Qed.
    Lemma ap_wrap_lt_first : 
      let y := where_ (flt (Ops := O64) x (neg (Ops := O64) (lit (Ops := O64) 20.0))) (add (Ops := O64) x (lit (Ops := O64) q)) x in
      apb (where_ (flt (Ops := O64) (lit (Ops := O64) 20.0) y) (sub (Ops := O64) y (lit (Ops := O64) q)) y) m B18 (wrapE e).
    Proof.
      cbv zeta. assert (Hn := wrap_n x m n b e H Hm Hb). apply Rabs_le_inv in Hm as Hm'.
      destruct (Hl _ _ Q20') as (_ & _ & A3 & A4). destruct (Hl _ _ Q20n) as (B1 & B2 & _ & _).
      destruct Hn as [->|[->| ->]].
      - rewrite B1 by lra. cbn [where_]. assert (M := plus x ltac:(eapply ap_eq; [exact wide|ring])). rewrite (proj2 (stay _ M)). exact M.
      - rewrite B2 by lra. cbn [where_]. rewrite A3 by lra. cbn [where_]. apply plain. eapply ap_eq; [exact H|ring].
      - rewrite B2 by lra. cbn [where_]. rewrite A4 by lra. cbn [where_]. apply minus. eapply ap_eq; [exact wide|ring].
    Qed.
  End Wrap.
End Ops.

(** ** One [let] of a function body *)
Lemma let_ap {A} (P : A -> Prop) (body : ext) (a : R) (b e : Z) (rest : ext -> A) :
  apb body a b e -> (forall x, apb x a b e -> P (rest x)) -> P (let x := body in rest x).
Proof. intros H1 H2. now apply H2. Qed.
Lemma let_gen {A} (P : A -> Prop) (body : ext) (rest : ext -> A) : P (rest body) -> P (let x := body in rest x).
Proof. intros H. exact H. Qed.
(** [dl D HD v]: the first [let] of the goal computes [v]; [dx] leaves its value to be given. *)
Ltac norm_in H :=
  lazymatch type of H with
  | apb ?x ?a ?b ?e =>
      let b' := eval vm_compute in b in let e' := eval vm_compute in e in
      let H' := fresh "Hn" in
      assert (H' : apb x a b' e') by (refine (ap_le x a b e b' e' H _ _); vm_compute; reflexivity); clear H; rename H' into H
  end.
Ltac dl_with D HD v fin_eq :=
  lazymatch goal with
  | |- ?P (let x := ?body in @?rest x) =>
      let H := fresh "Hb" in
      eassert (H : apb body _ _ _) by (ap D HD);
      norm_in H;
      lazymatch type of H with
      | apb _ ?a ?b ?e =>
          let H2 := fresh "Hb" in
          assert (H2 : apb body v b e) by (refine (ap_eq _ _ _ _ _ H _); fin_eq);
          clear H; refine (let_ap P body v b e rest H2 _); clear H2;
          let y := fresh "y" in let Hy := fresh "Hy" in intros y Hy; cbv beta
      end
  end.
Tactic Notation "dl" constr(D) constr(HD) uconstr(v) := let w := constr:(v : R) in let w' := eval cbv beta in w in dl_with D HD v ltac:(reflexivity).
Tactic Notation "dlq" constr(D) constr(HD) uconstr(v) tactic(t) := dl_with D HD v t.
Ltac dskip := lazymatch goal with |- ?P (let x := ?body in @?rest x) => refine (let_gen P body rest _); cbv beta end.

(** A computed value and the real it stands for. *)
Definition near (x : ext) (a tol : R) : Prop := exists v, x = Fin v /\ Rabs (v - a) <= tol.
Lemma apb_near x a b e tol : apb x a b e -> Rz e <= tol -> near x a tol.
Proof. intros (v & H1 & H2 & _) H. exists v. split; [exact H1|lra]. Qed.
(** ... with a bound of that real. *)
Definition near_b (x : ext) (a tol B : R) : Prop := near x a tol /\ Rabs a <= B.
Lemma apb_near_b x a b e tol B : apb x a b e -> Rz e <= tol -> Rz b <= B -> near_b x a tol B.
Proof. intros H He Hb. split; [now apply (apb_near _ _ _ _ _ H)|]. destruct H as (_ & _ & _ & H). lra. Qed.
