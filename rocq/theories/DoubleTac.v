(** * DoubleTac: error analysis of double precision computations

    [apb x a b e]: the computed [x] is a number within [e] of the real [a], and |a| <= [b]; [b] and [e] are integers in units
    of 2^-90.  One lemma per operation of [DoubleOps]; the bounds are computed by the kernel. *)

From Coq Require Import ZArith QArith Qabs Reals Bool List Lra Lia.
From Flocq Require Import Core.Raux.
From Interval Require Import Tactic.
From Verif Require Import Num Ext ExtLemmas Sky SkyClose AstroTac SingleSpec Double.
Open Scope R_scope.

Definition S90 : Z := 1237940039285380274899124224%Z.     (* 2^90 *)
Definition u90 : R := / IZR S90.
Definition Rz (z : Z) : R := IZR z * u90.

Lemma u90_pos : 0 < u90. Proof. unfold u90. apply Rinv_0_lt_compat, IZR_lt. reflexivity. Qed.
Lemma Rz_S : Rz S90 = 1. Proof. unfold Rz, u90. field. apply not_0_IZR. discriminate. Qed.
Lemma Rz_plus a b : Rz (a + b) = Rz a + Rz b. Proof. unfold Rz. rewrite plus_IZR. ring. Qed.
Lemma Rz_le a b : (a <= b)%Z -> Rz a <= Rz b.
Proof. intros H. unfold Rz. apply Rmult_le_compat_r; [pose proof u90_pos; lra|]. now apply IZR_le. Qed.
Lemma Rz_nonneg a : 0 <= Rz a -> (0 <= a)%Z.
Proof.
  intros H. destruct (Z.le_gt_cases 0 a) as [|C]; [assumption|exfalso]. unfold Rz in H. pose proof u90_pos.
  assert (IZR a < 0) by (apply IZR_lt in C; exact C). nra.
Qed.
Lemma Zdiv_up a b : (0 < b)%Z -> IZR a / IZR b <= IZR (a / b + 1).
Proof.
  intros Hb. assert (Hb' : 0 < IZR b) by (apply IZR_lt in Hb; exact Hb).
  apply Rmult_le_reg_r with (IZR b); [exact Hb'|]. unfold Rdiv. rewrite Rmult_assoc, Rinv_l, Rmult_1_r by lra.
  rewrite <- mult_IZR. apply IZR_le. assert (H := Z.div_mod a b). assert (H2 := Z.mod_pos_bound a b Hb). lia.
Qed.
Lemma Zdiv_dn a b : (0 < b)%Z -> IZR (a / b) <= IZR a / IZR b.
Proof.
  intros Hb. assert (Hb' : 0 < IZR b) by (apply IZR_lt in Hb; exact Hb).
  apply Rmult_le_reg_r with (IZR b); [exact Hb'|]. unfold Rdiv. rewrite Rmult_assoc, Rinv_l, Rmult_1_r by lra.
  rewrite <- mult_IZR. apply IZR_le. assert (H := Z.div_mod a b). assert (H2 := Z.mod_pos_bound a b Hb). lia.
Qed.
Lemma Rz_mul a b : Rz a * Rz b <= Rz (a * b / S90 + 1).
Proof.
  replace (Rz a * Rz b) with (IZR (a * b) / IZR S90 * u90).
  - unfold Rz. apply Rmult_le_compat_r; [pose proof u90_pos; lra|]. apply Zdiv_up. reflexivity.
  - unfold Rz. rewrite mult_IZR. fold (Rdiv (IZR a * IZR b) (IZR S90)). unfold u90, Rdiv. ring.
Qed.

Definition apb (x : ext) (a : R) (b e : Z) : Prop := exists v, x = Fin v /\ Rabs (v - a) <= Rz e /\ Rabs a <= Rz b.

Lemma apb_nonneg x a b e : apb x a b e -> (0 <= b)%Z /\ (0 <= e)%Z.
Proof.
  intros (v & _ & H1 & H2). split; apply Rz_nonneg; [pose proof (Rabs_pos a)|pose proof (Rabs_pos (v - a))]; lra.
Qed.
Lemma ap_le x a b e b' e' : apb x a b e -> (b <=? b')%Z = true -> (e <=? e')%Z = true -> apb x a b' e'.
Proof.
  intros (v & H1 & H2 & H3) Hb He. apply Z.leb_le, Rz_le in Hb. apply Z.leb_le, Rz_le in He. exists v. split; [exact H1|]. split; lra.
Qed.
Lemma ap_bnd x a b e b' : apb x a b e -> Rabs a <= Rz b' -> apb x a b' e.
Proof. intros (v & H1 & H2 & H3) Hb. exists v. auto. Qed.
Lemma ap_eq x a a' b e : apb x a b e -> a = a' -> apb x a' b e.
Proof. now intros H <-. Qed.
Lemma ap_fin v a b e : Rabs (v - a) <= Rz e -> Rabs a <= Rz b -> apb (Fin v) a b e.
Proof. intros H1 H2. now exists v. Qed.
Lemma ap_inv v a b e : apb (Fin v) a b e -> Rabs (v - a) <= Rz e /\ Rabs a <= Rz b.
Proof. intros (w & H1 & H2). now injection H1 as <-. Qed.

(** Rounding. *)
Definition rdE (m : Z) : Z := (m / 2 ^ 53 + 2)%Z.
(** Literals. *)
Definition qbnd (q : Q) : Z := (Z.abs (Qnum q) * S90 / Z.pos (Qden q) + 1)%Z.
Definition qlow (q : Q) : Z := (Z.abs (Qnum q) * S90 / Z.pos (Qden q))%Z.
Definition qint (q : Q) : bool := (Qnum q mod Z.pos (Qden q) =? 0)%Z && (Z.abs (Qnum q / Z.pos (Qden q)) <=? 2 ^ 53)%Z.
Definition qerr (q : Q) : Z := if qint q then 0%Z else rdE (qbnd q).

Lemma Q2R_abs_up q : Rabs (Q2R q) <= Rz (qbnd q).
Proof.
  unfold Q2R, qbnd. rewrite Rabs_mult, (Rabs_pos_eq (/ _)) by (left; apply Rinv_0_lt_compat, IZR_lt; reflexivity). rewrite <- abs_IZR.
  eapply Rle_trans; [|apply Rmult_le_compat_r; [pose proof u90_pos; lra|apply Zdiv_up; reflexivity]].
  rewrite mult_IZR. right. unfold u90. field. repeat split; apply not_0_IZR; discriminate.
Qed.
Lemma Q2R_abs_dn q : Rz (qlow q) <= Rabs (Q2R q).
Proof.
  unfold Q2R, qlow. rewrite Rabs_mult, (Rabs_pos_eq (/ _)) by (left; apply Rinv_0_lt_compat, IZR_lt; reflexivity). rewrite <- abs_IZR.
  eapply Rle_trans; [apply Rmult_le_compat_r; [pose proof u90_pos; lra|apply Zdiv_dn; reflexivity]|].
  rewrite mult_IZR. right. unfold u90. field. repeat split; apply not_0_IZR; discriminate.
Qed.
Lemma Q2R_low q : (0 <=? Qnum q)%Z = true -> Rz (qlow q) <= Q2R q.
Proof.
  intros H. apply Z.leb_le in H. eapply Rle_trans; [apply Q2R_abs_dn|]. rewrite Rabs_pos_eq; [apply Rle_refl|].
  unfold Q2R. apply Rmult_le_pos; [now apply (IZR_le 0)|]. left. apply Rinv_0_lt_compat, IZR_lt. reflexivity.
Qed.
Lemma qint_eq q : qint q = true -> Q2R q = IZR (Qnum q / Z.pos (Qden q)) /\ (Z.abs (Qnum q / Z.pos (Qden q)) <= 2 ^ 53)%Z.
Proof.
  unfold qint. intros H. apply andb_true_iff in H. destruct H as [H1 H2]. apply Z.eqb_eq in H1. apply Z.leb_le in H2. split; [|exact H2].
  unfold Q2R. assert (E := Z.div_mod (Qnum q) (Z.pos (Qden q)) ltac:(lia)). rewrite H1, Z.add_0_r in E. rewrite E at 1. rewrite mult_IZR. field.
  apply not_0_IZR. lia.
Qed.

Lemma tiny_u90 : / 2 ^ 1000 <= u90.
Proof.
  unfold u90. apply Rinv_le_contravar; [apply IZR_lt; reflexivity|]. replace (IZR S90) with (2 ^ 90).
  - apply Rle_pow; [lra|lia].
  - rewrite (pow_IZR 2 90). reflexivity.
Qed.
Lemma pow50 : / 2 ^ 50 = Rz (2 ^ 40).
Proof. unfold Rz, u90, S90. change (2 ^ 40)%Z with 1099511627776%Z. lra. Qed.

(** Bounds far below the overflow threshold. *)
Definition OV : Z := (2 ^ 1100)%Z.
Definition fits64 (b e : Z) : bool := (b + e <=? OV)%Z.
Lemma Rz_OV : Rz OV = 2 ^ 1010.
Proof.
  unfold Rz, u90, OV, S90. change 1237940039285380274899124224%Z with (2 ^ 90)%Z. change (2 ^ 1100)%Z with (2 ^ (Z.of_nat 1100))%Z. change (2 ^ 90)%Z with (2 ^ (Z.of_nat 90))%Z.
  rewrite <- !pow_IZR. change 1100%nat with (1010 + 90)%nat. rewrite pow_add. field.
Qed.
Lemma fits64_le b e : fits64 b e = true -> Rz b + Rz e <= 2 ^ 1010.
Proof. intros H. apply Z.leb_le, Rz_le in H. now rewrite Rz_plus, Rz_OV in H. Qed.
Lemma fin64_fin v : Rabs v <= 2 ^ 1011 -> fin64 v = Fin v.
Proof.
  intros H. unfold fin64. destruct (Rlt_dec (Rabs v) (2 ^ 1024)) as [|N]; [reflexivity|exfalso; apply N]. eapply Rle_lt_trans; [exact H|]. apply Rlt_pow; [lra|lia].
Qed.

Lemma fits64_mono b0 e0 b e : fits64 b0 e0 = true -> (b <= b0)%Z -> (e <= e0)%Z -> fits64 b e = true.
Proof. intros H Hb He. apply Z.leb_le in H. apply Z.leb_le. lia. Qed.
Lemma fin64_inv v w : fin64 v = Fin w -> w = v.
Proof. unfold fin64. destruct (Rlt_dec (Rabs v) (2 ^ 1024)); [now intros [= <-]|destruct (Rlt_dec 0 v); discriminate]. Qed.
Lemma big64 : 1000000000000000000000000000000 <= 2 ^ 1010.
Proof. apply Rle_trans with (2 ^ 100); [lra|apply Rle_pow; [lra|lia]]. Qed.
Lemma fin64_s v : Rabs v <= 1000000000000000000000000000000 -> fin64 v = Fin v.
Proof. intros H. apply fin64_fin. eapply Rle_trans; [exact H|]. eapply Rle_trans; [apply big64|apply Rle_pow; [lra|lia]]. Qed.

Lemma ap_fin64 v a b e : Rabs (v - a) <= Rz e -> Rabs a <= Rz b -> fits64 b e = true -> apb (fin64 v) a b e.
Proof.
  intros H1 H2 Hf. rewrite fin64_fin; [now apply ap_fin|]. apply fits64_le in Hf. assert (T := Rabs_triang a (v - a)). replace (a + (v - a)) with v in T by ring.
  eapply Rle_trans; [exact T|]. eapply Rle_trans; [apply Rplus_le_compat; eassumption|]. eapply Rle_trans; [exact Hf|apply Rle_pow; [lra|lia]].
Qed.

Section Ops.
  Variable D : Env64.
  Hypothesis HD : double_like D.
  Notation O64 := (DoubleOps D).

  Lemma rd_err x m : Rabs x <= Rz m -> Rabs (r64 D x - x) <= Rz (rdE m).
  Proof.
    intros H. eapply Rle_trans; [apply (dl_err D HD)|]. pose proof tiny_u90. unfold rdE. change (m / 2 ^ 53 + 2)%Z with (m / 2 ^ 53 + (1 + 1))%Z.
    rewrite Z.add_assoc, Rz_plus. assert (Rz 1 = u90) by (unfold Rz; ring).
    assert (Rabs x / 2 ^ 53 <= Rz (m / 2 ^ 53 + 1)); [|lra].
    eapply Rle_trans with (Rz m / IZR (2 ^ 53)).
    - replace (IZR (2 ^ 53)) with (2 ^ 53) by (rewrite (pow_IZR 2 53); reflexivity). apply Rmult_le_compat_r; [|exact H].
      left. apply Rinv_0_lt_compat, pow_lt. lra.
    - unfold Rz. replace (IZR m * u90 / IZR (2 ^ 53)) with (IZR m / IZR (2 ^ 53) * u90) by (unfold Rdiv; ring).
      apply Rmult_le_compat_r; [pose proof u90_pos; lra|]. apply Zdiv_up. reflexivity.
  Qed.
  Lemma ap_rd0 v a b e : Rabs (v - a) <= Rz e -> Rabs a <= Rz b -> apb (Fin (r64 D v)) a b (e + rdE (b + e)).
  Proof.
    intros H1 H2. apply ap_fin; [|exact H2].
    assert (Hv : Rabs v <= Rz (b + e)).
    { rewrite Rz_plus. replace v with (a + (v - a)) by ring. eapply Rle_trans; [apply Rabs_triang|]. lra. }
    apply rd_err in Hv. replace (r64 D v - a) with ((v - a) + (r64 D v - v)) by ring.
    eapply Rle_trans; [apply Rabs_triang|]. rewrite Rz_plus. lra.
  Qed.
  (** No overflow. *)
  Lemma rd_small x : Rabs x <= 2 ^ 1010 -> Rabs (r64 D x) <= 2 ^ 1011.
  Proof.
    intros H. assert (E := dl_err D HD x). assert (T := Rabs_triang x (r64 D x - x)). replace (x + (r64 D x - x)) with (r64 D x) in T by ring.
    assert (P : 1 <= 2 ^ 1010) by (apply pow_R1_Rle; lra). assert (Q : / 2 ^ 1000 <= 1) by (rewrite <- Rinv_1; apply Rinv_le_contravar; [lra|apply pow_R1_Rle; lra]).
    assert (K : Rabs x / 2 ^ 53 <= Rabs x / 2) by (apply Rmult_le_compat_l; [apply Rabs_pos|]; apply Rinv_le_contravar; lra).
    change (2 ^ 1011) with (2 * 2 ^ 1010). lra.
  Qed.
  Lemma rd_fin x : Rabs x <= 2 ^ 1010 -> e_rd D (Fin x) = Fin (r64 D x).
  Proof.
    intros H. cbn [e_rd]. apply fin64_fin. apply rd_small in H. exact H.
  Qed.
  Lemma rd_fin_s x : Rabs x <= 1000000000000000000000000000000 -> e_rd D (Fin x) = Fin (r64 D x).
  Proof. intros H. apply rd_fin. eapply Rle_trans; [exact H|apply big64]. Qed.
  (** Rounding a value that is itself approximate. *)
  Lemma ap_rd v a b e : Rabs (v - a) <= Rz e -> Rabs a <= Rz b -> fits64 b e = true -> apb (e_rd D (Fin v)) a b (e + rdE (b + e)).
  Proof.
    intros H1 H2 Ho. rewrite rd_fin; [now apply ap_rd0|].
    apply fits64_le in Ho. replace v with (a + (v - a)) by ring. eapply Rle_trans; [apply Rabs_triang|]. lra.
  Qed.

  Lemma ap_lit q : apb (lit (Ops := O64) q) (Q2R q) (qbnd q) (qerr q).
  Proof.
    cbn [lit DoubleOps]. unfold qerr. destruct (qint q) eqn:E.
    - destruct (qint_eq q E) as [H1 H2]. apply ap_fin; [|apply Q2R_abs_up]. rewrite H1, (dl_int D HD) by exact H2.
      rewrite Rminus_diag_eq, Rabs_R0 by reflexivity. unfold Rz. lra.
    - apply ap_fin; [|apply Q2R_abs_up]. apply rd_err, Q2R_abs_up.
  Qed.
  Lemma ap_ofZ z b : (Z.abs z <= 2 ^ 53)%Z -> Rabs (IZR z) <= Rz b -> apb (ofZ (Ops := O64) z) (IZR z) b 0.
  Proof.
    intros H Hb. cbn [ofZ DoubleOps]. rewrite (dl_int D HD) by exact H. apply ap_fin; [|exact Hb].
    rewrite Rminus_diag_eq, Rabs_R0 by reflexivity. unfold Rz. lra.
  Qed.
  Lemma ap_neg x a b e : apb x a b e -> apb (neg (Ops := O64) x) (- a) b e.
  Proof.
    intros (v & -> & H1 & H2). cbn [neg DoubleOps e_neg]. apply ap_fin; [|now rewrite Rabs_Ropp].
    replace (- v - - a) with (- (v - a)) by ring. now rewrite Rabs_Ropp.
  Qed.
  Lemma ap_abs x a b e : apb x a b e -> apb (fabs (Ops := O64) x) (Rabs a) b e.
  Proof.
    intros (v & -> & H1 & H2). cbn [fabs DoubleOps e_abs]. apply ap_fin; [|rewrite Rabs_Rabsolu; exact H2].
    eapply Rle_trans; [apply Rabs_triang_inv2|exact H1].
  Qed.
  Lemma ap_add x y a c b1 b2 e1 e2 : apb x a b1 e1 -> apb y c b2 e2 ->
    fits64 (b1 + b2) (e1 + e2) = true -> apb (add (Ops := O64) x y) (a + c) (b1 + b2) (e1 + e2 + rdE (b1 + b2 + (e1 + e2))).
  Proof.
    intros (v & -> & H1 & H2) (w & -> & H3 & H4) Ho. cbn [add DoubleOps e_add]. apply ap_rd; [rewrite Rz_plus|rewrite Rz_plus|exact Ho].
    - replace (v + w - (a + c)) with ((v - a) + (w - c)) by ring. eapply Rle_trans; [apply Rabs_triang|]. lra.
    - eapply Rle_trans; [apply Rabs_triang|]. lra.
  Qed.
  Lemma ap_sub x y a c b1 b2 e1 e2 : apb x a b1 e1 -> apb y c b2 e2 ->
    fits64 (b1 + b2) (e1 + e2) = true -> apb (sub (Ops := O64) x y) (a - c) (b1 + b2) (e1 + e2 + rdE (b1 + b2 + (e1 + e2))).
  Proof.
    intros (v & -> & H1 & H2) (w & -> & H3 & H4) Ho. cbn [sub DoubleOps e_sub]. apply ap_rd; [rewrite Rz_plus|rewrite Rz_plus|exact Ho].
    - replace (v - w - (a - c)) with ((v - a) + - (w - c)) by ring. eapply Rle_trans; [apply Rabs_triang|]. rewrite Rabs_Ropp. lra.
    - unfold Rminus. eapply Rle_trans; [apply Rabs_triang|]. rewrite Rabs_Ropp. lra.
  Qed.
  Definition mulB (b1 b2 : Z) : Z := (b1 * b2 / S90 + 1)%Z.
  Definition mulE (b1 b2 e1 e2 : Z) : Z := ((b1 * e2 + b2 * e1 + e1 * e2) / S90 + 1)%Z.
  Lemma mul_err v w a c b1 b2 e1 e2 : Rabs (v - a) <= Rz e1 -> Rabs a <= Rz b1 -> Rabs (w - c) <= Rz e2 -> Rabs c <= Rz b2 ->
    Rabs (v * w - a * c) <= Rz (mulE b1 b2 e1 e2) /\ Rabs (a * c) <= Rz (mulB b1 b2).
  Proof.
    intros H1 H2 H3 H4. split.
    - replace (v * w - a * c) with (a * (w - c) + (c * (v - a) + (v - a) * (w - c))) by ring.
      assert (T1 := Rabs_prod_le _ _ _ _ H2 H3). assert (T2 := Rabs_prod_le _ _ _ _ H4 H1). assert (T3 := Rabs_prod_le _ _ _ _ H1 H3).
      eapply Rle_trans; [apply Rabs_triang|]. eapply Rle_trans; [apply Rplus_le_compat_l, Rabs_triang|].
      eapply Rle_trans with (Rz b1 * Rz e2 + (Rz b2 * Rz e1 + Rz e1 * Rz e2)); [lra|].
      replace (Rz b1 * Rz e2 + (Rz b2 * Rz e1 + Rz e1 * Rz e2)) with (IZR (b1 * e2 + b2 * e1 + e1 * e2) / IZR S90 * u90).
      + unfold Rz, mulE. apply Rmult_le_compat_r; [pose proof u90_pos; lra|]. apply Zdiv_up. reflexivity.
      + unfold Rz. rewrite !plus_IZR, !mult_IZR. unfold Rdiv. fold u90. ring.
    - eapply Rle_trans; [apply (Rabs_prod_le _ _ _ _ H2 H4)|apply Rz_mul].
  Qed.
  Lemma ap_mul x y a c b1 b2 e1 e2 : apb x a b1 e1 -> apb y c b2 e2 ->
    fits64 (mulB b1 b2) (mulE b1 b2 e1 e2) = true -> apb (mul (Ops := O64) x y) (a * c) (mulB b1 b2) (mulE b1 b2 e1 e2 + rdE (mulB b1 b2 + mulE b1 b2 e1 e2)).
  Proof.
    intros (v & -> & H1 & H2) (w & -> & H3 & H4) Ho. cbn [mul DoubleOps e_mul].
    destruct (mul_err _ _ _ _ _ _ _ _ H1 H2 H3 H4). now apply ap_rd.
  Qed.
  Definition divB (b1 m : Z) : Z := (b1 * S90 / m + 1)%Z.
  Definition divE (b1 m e1 e2 : Z) : Z := ((e1 * S90 + divB b1 m * e2) / (m - e2) + 1)%Z.
  Lemma div_err v w a c b1 e1 e2 m : Rabs (v - a) <= Rz e1 -> Rabs a <= Rz b1 -> Rabs (w - c) <= Rz e2 -> Rz m <= Rabs c -> (e2 <? m)%Z = true ->
    w <> 0 /\ Rabs (v / w - a / c) <= Rz (divE b1 m e1 e2) /\ Rabs (a / c) <= Rz (divB b1 m).
  Proof.
    intros H1 H2 H3 H4 Hm. apply Z.ltb_lt in Hm. pose proof u90_pos as Hu.
    assert (He2 : (0 <= e2)%Z) by (apply Rz_nonneg; pose proof (Rabs_pos (w - c)); lra).
    assert (Hm0 : (0 < m)%Z) by lia. assert (Hme : (0 < m - e2)%Z) by lia.
    assert (Hw : Rz (m - e2) <= Rabs w).
    { unfold Z.sub. rewrite Rz_plus. replace (Rz (- e2)) with (- Rz e2) by (unfold Rz; rewrite opp_IZR; ring).
      assert (T := Rabs_triang (- (w - c)) w). rewrite Rabs_Ropp in T. replace (- (w - c) + w) with c in T by ring. lra. }
    assert (P1 : 0 < Rz (m - e2)) by (unfold Rz; apply IZR_lt in Hme; apply Rmult_lt_0_compat; lra).
    assert (P2 : 0 < Rz m) by (unfold Rz; apply IZR_lt in Hm0; apply Rmult_lt_0_compat; lra).
    assert (Nw : w <> 0) by (intros ->; rewrite Rabs_R0 in Hw; lra). assert (Nc : c <> 0) by (intros ->; rewrite Rabs_R0 in H4; lra).
    assert (Q : Rabs (a / c) <= Rz (divB b1 m)).
    { unfold Rdiv at 1. rewrite Rabs_mult, Rabs_inv.
      eapply Rle_trans with (Rz b1 * / Rz m).
      - apply Rmult_le_compat; [apply Rabs_pos|left; apply Rinv_0_lt_compat; lra|exact H2|]. apply Rinv_le_contravar; lra.
      - unfold divB. replace (Rz b1 * / Rz m) with (IZR (b1 * S90) / IZR m * u90).
        + unfold Rz. apply Rmult_le_compat_r; [lra|]. now apply Zdiv_up.
        + unfold Rz. rewrite mult_IZR. unfold u90. field. repeat split; apply not_0_IZR; [discriminate|lia]. }
    split; [exact Nw|]. split; [|exact Q].
    replace (v / w - a / c) with (((v - a) + (a / c) * (- (w - c))) * / w) by (field; split; assumption).
    rewrite Rabs_mult, Rabs_inv.
    assert (N : Rabs (v - a + a / c * - (w - c)) <= Rz e1 + Rz (divB b1 m) * Rz e2).
    { eapply Rle_trans; [apply Rabs_triang|]. apply Rplus_le_compat; [exact H1|]. apply Rabs_prod_le; [exact Q|]. rewrite Rabs_Ropp. exact H3. }
    eapply Rle_trans with ((Rz e1 + Rz (divB b1 m) * Rz e2) * / Rz (m - e2)).
    - apply Rmult_le_compat; [apply Rabs_pos|left; apply Rinv_0_lt_compat; lra|exact N|]. apply Rinv_le_contravar; lra.
    - unfold divE. replace ((Rz e1 + Rz (divB b1 m) * Rz e2) * / Rz (m - e2)) with (IZR (e1 * S90 + divB b1 m * e2) / IZR (m - e2) * u90).
      + unfold Rz at 1. apply Rmult_le_compat_r; [lra|]. now apply Zdiv_up.
      + unfold Rz. rewrite plus_IZR, !mult_IZR. unfold u90. field. repeat split; apply not_0_IZR; [discriminate|lia].
  Qed.
  Lemma ap_div x y a c b1 b2 e1 e2 m : apb x a b1 e1 -> apb y c b2 e2 -> Rz m <= Rabs c -> (e2 <? m)%Z = true ->
    fits64 (divB b1 m) (divE b1 m e1 e2) = true -> apb (div (Ops := O64) x y) (a / c) (divB b1 m) (divE b1 m e1 e2 + rdE (divB b1 m + divE b1 m e1 e2)).
  Proof.
    intros (v & -> & H1 & H2) (w & -> & H3 & H4) Hm He Ho. destruct (div_err _ _ _ _ _ _ _ _ H1 H2 H3 Hm He) as (N & E1 & E2).
    cbn [div DoubleOps]. rewrite fin_div by exact N. now apply ap_rd.
  Qed.
  Lemma ap_divq x q a b1 e1 : apb x a b1 e1 -> (qerr q <? qlow q)%Z = true -> fits64 (divB b1 (qlow q)) (divE b1 (qlow q) e1 (qerr q)) = true ->
    apb (div (Ops := O64) x (lit (Ops := O64) q)) (a / Q2R q) (divB b1 (qlow q))
      (divE b1 (qlow q) e1 (qerr q) + rdE (divB b1 (qlow q) + divE b1 (qlow q) e1 (qerr q))).
  Proof. intros H He Ho. eapply ap_div; [exact H|apply ap_lit|apply Q2R_abs_dn|exact He|exact Ho]. Qed.

  Lemma ap_sin x a b e : apb x a b e -> apb (fsin (Ops := O64) x) (sin a) S90 (e + 2 ^ 40).
  Proof.
    intros (v & -> & H1 & H2). cbn [fsin DoubleOps e_fun]. apply ap_fin; [|rewrite Rz_S; apply Rabs_le, SIN_bound].
    rewrite Rz_plus, <- pow50. replace (sin64 D v - sin a) with ((sin v - sin a) + (sin64 D v - sin v)) by ring.
    eapply Rle_trans; [apply Rabs_triang|]. assert (A := proj1 (dl_sin D HD) v). pose proof (sin_lip v a). lra.
  Qed.
  Lemma ap_sin_b x a b e : apb x a b e -> apb (fsin (Ops := O64) x) (sin a) (Z.min S90 b) (e + 2 ^ 40).
  Proof.
    intros H. destruct (ap_sin x a b e H) as (v & E1 & E2 & E3). exists v. split; [exact E1|]. split; [exact E2|].
    apply Z.min_case; [exact E3|]. destruct H as (_ & _ & _ & H). assert (L := sin_lip a 0). rewrite sin_0, !Rminus_0_r in L. lra.
  Qed.
  Lemma ap_cos x a b e : apb x a b e -> apb (fcos (Ops := O64) x) (cos a) S90 (e + 2 ^ 40).
  Proof.
    intros (v & -> & H1 & H2). cbn [fcos DoubleOps e_fun]. apply ap_fin; [|rewrite Rz_S; apply Rabs_le, COS_bound].
    rewrite Rz_plus, <- pow50. replace (cos64 D v - cos a) with ((cos v - cos a) + (cos64 D v - cos v)) by ring.
    eapply Rle_trans; [apply Rabs_triang|]. assert (A := proj1 (dl_cos D HD) v). pose proof (cos_lip v a). lra.
  Qed.

  Fixpoint powB (b : Z) (n : nat) : Z := match n with O => S90 | S n => mulB b (powB b n) end.
  Fixpoint powE (b e : Z) (n : nat) : Z := match n with O => 0%Z | S n => mulE b (powB b n) e (powE b e n) end.
  Lemma pow_err v a b e n : Rabs (v - a) <= Rz e -> Rabs a <= Rz b -> Rabs (v ^ n - a ^ n) <= Rz (powE b e n) /\ Rabs (a ^ n) <= Rz (powB b n).
  Proof.
    intros H1 H2. induction n as [|n [IH1 IH2]].
    - cbn [pow powE powB]. rewrite Rz_S, Rminus_diag_eq, Rabs_R0, Rabs_R1 by reflexivity. unfold Rz. lra.
    - cbn [pow powE powB]. now apply mul_err.
  Qed.
  Lemma ap_pow x a b e n : apb x a b e -> fits64 (powB b n) (powE b e n) = true ->
    apb (powi (Ops := O64) x n) (a ^ n) (powB b n) (powE b e n + ((powB b n + powE b e n) / 2 ^ 48 + 2)).
  Proof.
    intros (v & -> & H1 & H2) Ho. destruct (pow_err _ _ _ _ n H1 H2) as [P1 P2]. cbn [powi DoubleOps e_pow64]. rewrite fin64_fin; [apply ap_fin; [|exact P2]|].
    2:{ apply fits64_le in Ho. assert (Hv : Rabs (v ^ n) <= 2 ^ 1010) by (replace (v ^ n) with (a ^ n + (v ^ n - a ^ n)) by ring; eapply Rle_trans; [apply Rabs_triang|]; lra).
        assert (E := dl_pow D HD v n). assert (T := Rabs_triang (v ^ n) (pow64 D v n - v ^ n)). replace (v ^ n + (pow64 D v n - v ^ n)) with (pow64 D v n) in T by ring.
        assert (P : 1 <= 2 ^ 1010) by (apply pow_R1_Rle; lra). assert (Q : / 2 ^ 1000 <= 1) by (rewrite <- Rinv_1; apply Rinv_le_contravar; [lra|apply pow_R1_Rle; lra]).
        assert (K : Rabs (v ^ n) / 2 ^ 48 <= Rabs (v ^ n) / 2) by (apply Rmult_le_compat_l; [apply Rabs_pos|]; apply Rinv_le_contravar; lra).
        change (2 ^ 1011) with (2 * 2 ^ 1010). lra. }
    replace (pow64 D v n - a ^ n) with ((v ^ n - a ^ n) + (pow64 D v n - v ^ n)) by ring. eapply Rle_trans; [apply Rabs_triang|].
    rewrite Rz_plus. apply Rplus_le_compat; [exact P1|].
    eapply Rle_trans; [apply (dl_pow D HD)|]. set (m := (powB b n + powE b e n)%Z).
    assert (Hv : Rabs (v ^ n) <= Rz m).
    { unfold m. rewrite Rz_plus. replace (v ^ n) with (a ^ n + (v ^ n - a ^ n)) by ring. eapply Rle_trans; [apply Rabs_triang|]. lra. }
    pose proof tiny_u90. change (m / 2 ^ 48 + 2)%Z with (m / 2 ^ 48 + (1 + 1))%Z. rewrite Z.add_assoc, Rz_plus.
    assert (Rz 1 = u90) by (unfold Rz; ring). assert (Rabs (v ^ n) / 2 ^ 48 <= Rz (m / 2 ^ 48 + 1)); [|lra].
    eapply Rle_trans with (Rz m / IZR (2 ^ 48)).
    - replace (IZR (2 ^ 48)) with (2 ^ 48) by (rewrite (pow_IZR 2 48); reflexivity). apply Rmult_le_compat_r; [|exact Hv].
      left. apply Rinv_0_lt_compat, pow_lt. lra.
    - unfold Rz. replace (IZR m * u90 / IZR (2 ^ 48)) with (IZR m / IZR (2 ^ 48) * u90) by (unfold Rdiv; ring).
      apply Rmult_le_compat_r; [pose proof u90_pos; lra|]. apply Zdiv_up. reflexivity.
  Qed.

  (** ** Constants *)
  Definition piB : Z := Eval vm_compute in (Qnum 3.1416 * S90 / Z.pos (Qden 3.1416))%Z.
  Lemma piB_ok : Rabs PI <= Rz piB.
  Proof. rewrite Rabs_pos_eq by (pose proof PI_RGT_0; lra). unfold Rz, u90, piB, S90. interval. Qed.
  Definition piE : Z := Eval vm_compute in rdE piB.
  Lemma ap_pi : apb (fpi (Ops := O64)) PI piB piE.
  Proof. cbn [fpi DoubleOps]. apply ap_fin; [exact (rd_err PI piB piB_ok)|exact piB_ok]. Qed.
  Lemma ap_PI : apb (PI_ (O := O64)) PI piB piE. Proof. exact ap_pi. Qed.
  Definition twopiE : Z := Eval vm_compute in (mulE (qbnd 2.0) piB (qerr 2.0) piE + rdE (mulB (qbnd 2.0) piB + mulE (qbnd 2.0) piB (qerr 2.0) piE))%Z.
  Definition twopiB : Z := Eval vm_compute in (mulB (qbnd 2.0) piB).
  Lemma ap_TWOPI : apb (TWOPI (O := O64)) (2 * PI) twopiB twopiE.
  Proof. eapply ap_eq; [exact (ap_mul _ _ _ _ _ _ _ _ (ap_lit 2.0) ap_PI eq_refl)|]. f_equal. q2r. Qed.
  Definition halfpiE : Z := Eval vm_compute in (mulE (qbnd 0.5) piB (qerr 0.5) piE + rdE (mulB (qbnd 0.5) piB + mulE (qbnd 0.5) piB (qerr 0.5) piE))%Z.
  Definition halfpiB : Z := Eval vm_compute in (mulB (qbnd 0.5) piB).
  Lemma ap_HALFPI : apb (HALFPI (O := O64)) (PI / 2) halfpiB halfpiE.
  Proof. eapply ap_eq; [exact (ap_mul _ _ _ _ _ _ _ _ (ap_lit 0.5) ap_PI eq_refl)|]. q2. field. Qed.
  Lemma pi_low : Rz (qlow 3.14) <= Rabs PI.
  Proof. rewrite Rabs_pos_eq by (pose proof PI_RGT_0; lra). unfold Rz, u90. let z := eval vm_compute in (qlow 3.14) in change (qlow 3.14) with z. unfold S90. interval. Qed.

  (** 180/pi and pi/180 as NumPy has them. *)
  Definition degB : Z := Eval vm_compute in divB (qbnd 180) (qlow 3.14).
  Definition degE0 : Z := Eval vm_compute in divE (qbnd 180) (qlow 3.14) 0 piE.
  Definition degE : Z := Eval vm_compute in (degE0 + rdE (degB + degE0))%Z.
  Lemma q180 : Rabs 180 <= Rz (qbnd 180).
  Proof. replace 180 with (Q2R 180) by q2r. apply Q2R_abs_up. Qed.
  Lemma z0 x : Rabs (x - x) <= Rz 0. Proof. rewrite Rminus_diag_eq, Rabs_R0 by reflexivity. unfold Rz. lra. Qed.
  Lemma ap_degc : apb (Fin (r64 D (180 / r64 D PI))) (180 / PI) degB degE.
  Proof.
    assert (P := rd_err PI piB piB_ok).
    destruct (div_err 180 (r64 D PI) 180 PI (qbnd 180) 0 piE (qlow 3.14) (z0 180) q180 P pi_low eq_refl) as (_ & H1 & H2). exact (ap_rd0 _ _ _ _ H1 H2).
  Qed.
  Definition radB : Z := Eval vm_compute in divB piB (qlow 180).
  Definition radE0 : Z := Eval vm_compute in divE piB (qlow 180) piE 0.
  Definition radE : Z := Eval vm_compute in (radE0 + rdE (radB + radE0))%Z.
  Lemma ap_radc : apb (Fin (r64 D (r64 D PI / 180))) (PI / 180) radB radE.
  Proof.
    assert (P := rd_err PI piB piB_ok). assert (L : Rz (qlow 180) <= Rabs 180) by (replace 180 with (Q2R 180) by q2r; apply Q2R_abs_dn).
    destruct (div_err (r64 D PI) 180 PI 180 piB piE 0 (qlow 180) P piB_ok (z0 180) L eq_refl) as (_ & H1 & H2). exact (ap_rd0 _ _ _ _ H1 H2).
  Qed.
  Lemma ap_degrees x a b e : apb x a b e -> fits64 (mulB b degB) (mulE b degB e degE) = true ->
    apb (degrees (Ops := O64) x) (a * (180 / PI)) (mulB b degB) (mulE b degB e degE + rdE (mulB b degB + mulE b degB e degE)).
  Proof. intros (v & -> & H1 & H2) Ho. exact (ap_mul (Fin v) _ _ _ _ _ _ _ (ex_intro _ v (conj eq_refl (conj H1 H2))) ap_degc Ho). Qed.
  Lemma ap_radians x a b e : apb x a b e -> fits64 (mulB b radB) (mulE b radB e radE) = true ->
    apb (radians (Ops := O64) x) (a * (PI / 180)) (mulB b radB) (mulE b radB e radE + rdE (mulB b radB + mulE b radB e radE)).
  Proof. intros (v & -> & H1 & H2) Ho. exact (ap_mul (Fin v) _ _ _ _ _ _ _ (ex_intro _ v (conj eq_refl (conj H1 H2))) ap_radc Ho). Qed.
  Definition r2dB : Z := Eval vm_compute in mulB (qbnd 1) degB.
  Definition r2dE : Z := Eval vm_compute in (mulE (qbnd 1) degB (qerr 1) degE + rdE (mulB (qbnd 1) degB + mulE (qbnd 1) degB (qerr 1) degE))%Z.
  Lemma ap_RAD2DEG : apb (RAD2DEG (O := O64)) (180 / PI) r2dB r2dE.
  Proof. eapply ap_eq; [exact (ap_degrees _ _ _ _ (ap_lit 1) eq_refl)|]. q2. field. apply PI_neq. Qed.
  Definition d2rB : Z := Eval vm_compute in mulB (qbnd 1) radB.
  Definition d2rE : Z := Eval vm_compute in (mulE (qbnd 1) radB (qerr 1) radE + rdE (mulB (qbnd 1) radB + mulE (qbnd 1) radB (qerr 1) radE))%Z.
  Lemma ap_DEG2RAD : apb (DEG2RAD (O := O64)) (PI / 180) d2rB d2rE.
  Proof. eapply ap_eq; [exact (ap_radians _ _ _ _ (ap_lit 1) eq_refl)|]. q2. field. Qed.
End Ops.

(** ** Tactics *)
Ltac numeral t := let v := eval vm_compute in t in exact v.
(** Build the bounds of an expression bottom-up from hypotheses about its variables. *)
Ltac ap D HD :=
  lazymatch goal with
  | |- apb ?x _ _ _ =>
    lazymatch x with
    | lit _ => apply (ap_lit D HD)
    | fpi => apply (ap_pi D HD)
    | PI_ => apply (ap_PI D HD)
    | TWOPI => apply (ap_TWOPI D HD)
    | HALFPI => apply (ap_HALFPI D HD)
    | RAD2DEG => apply (ap_RAD2DEG D HD)
    | DEG2RAD => apply (ap_DEG2RAD D HD)
    | add _ _ => eapply (ap_add D HD); [ap D HD|ap D HD|vm_compute; reflexivity]
    | sub _ _ => eapply (ap_sub D HD); [ap D HD|ap D HD|vm_compute; reflexivity]
    | mul _ _ => eapply (ap_mul D HD); [ap D HD|ap D HD|vm_compute; reflexivity]
    | div _ (lit _) => eapply (ap_divq D HD); [ap D HD|vm_compute; reflexivity|vm_compute; reflexivity]
    | div _ _ => eapply (ap_div D HD); [ap D HD|ap D HD|eassumption|vm_compute; reflexivity|vm_compute; reflexivity]
    | neg _ => eapply (ap_neg D); ap D HD
    | fabs _ => eapply (ap_abs D); ap D HD
    | fsin _ => eapply (ap_sin_b D HD); ap D HD
    | fcos _ => eapply (ap_cos D HD); ap D HD
    | powi _ _ => eapply (ap_pow D HD); [ap D HD|vm_compute; reflexivity]
    | degrees _ => eapply (ap_degrees D HD); [ap D HD|vm_compute; reflexivity]
    | radians _ => eapply (ap_radians D HD); [ap D HD|vm_compute; reflexivity]
    | _ => eassumption
    end
  end.
(** Replace the bounds of hypothesis [H] by numerals. *)
Ltac norm_ap H :=
  lazymatch type of H with
  | apb ?x ?a ?b ?e =>
      let b' := eval vm_compute in b in let e' := eval vm_compute in e in
      assert (H' : apb x a b' e') by (refine (ap_le x a b e b' e' H _ _); vm_compute; reflexivity); clear H; rename H' into H
  end.
