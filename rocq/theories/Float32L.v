(** * Float32L: IEEE binary32 rounding meets float32_like; evaluating it *)

From Coq Require Import ZArith QArith Reals Lra Lia.
From Flocq Require Import Core Relative.
From Verif Require Import Num Ext AstroSpec SingleSpec Float32.
Open Scope R_scope.

#[local] Instance p24' : Prec_gt_0 24 := eq_refl.
#[local] Instance v32 : Valid_exp (FLT_exp (-149) 24) := FLT_exp_valid (-149) 24.

Lemma r32_rel x : Rabs (r32 x - x) <= Rabs x / 16777216 + / 10 ^ 40.
Proof.
  destruct (error_N_FLT radix2 (-149) 24 eq_refl (fun z => negb (Z.even z)) x) as (eps & eta & H1 & H2 & _ & H3).
  unfold r32. fold ZnearestE in H3. rewrite H3.
  replace (x * (1 + eps) + eta - x) with (x * eps + eta) by ring.
  eapply Rle_trans; [apply Rabs_triang|]. rewrite Rabs_mult.
  assert (B1 : / 2 * bpow radix2 (- (24) + 1) <= / 16777216) by (change (bpow radix2 (- (24) + 1)) with (/ 8388608); lra).
  assert (B2 : / 2 * bpow radix2 (-149) <= / 10 ^ 40).
  { change (bpow radix2 (-149)) with (/ IZR (2 ^ 149)). rewrite <- Rinv_mult. apply Rinv_le_contravar; [lra|].
    replace (10 ^ 40) with (IZR (10 ^ 40)) by (rewrite (pow_IZR 10 40); reflexivity). rewrite <- mult_IZR. apply IZR_le. vm_compute. discriminate. }
  assert (0 <= Rabs x) by apply Rabs_pos.
  assert (Rabs x * Rabs eps <= Rabs x * / 16777216) by (apply Rmult_le_compat_l; lra). unfold Rdiv. lra.
Qed.

Lemma r32_like : float32_like float32_env.
Proof.
  split; [exact r32_accurate|]. split; [exact r32_rel|]. split.
  - intros x y H. apply round_le; [exact v32|apply valid_rnd_N|exact H].
  - exact r32_int.
Qed.

(** r32 x is the float m * 2^e when x is less than half a unit away. *)
Lemma r32_eval m e x : (8388608 < m < 16777216)%Z -> (-149 <= e)%Z ->
  Rabs (x - IZR m * bpow radix2 e) < bpow radix2 (e - 1) -> r32 x = IZR m * bpow radix2 e.
Proof.
  intros Hm He Hx. set (f := IZR m * bpow radix2 e).
  assert (Ff : generic_format radix2 (FLT_exp (-149) 24) f).
  { apply generic_format_FLT. exists (Float radix2 m e); [reflexivity|cbn [Fnum]; change (radix2 ^ 24)%Z with 16777216%Z; lia|exact He]. }
  assert (Hp : 0 < bpow radix2 e) by apply bpow_gt_0.
  assert (M : IZR 8388608 < IZR m < IZR 16777216) by (split; apply IZR_lt; lia).
  assert (Hmag : (mag radix2 f = e + 24 :> Z)%Z).
  { apply mag_unique. unfold f. rewrite Rabs_mult, (Rabs_pos_eq (bpow radix2 e)) by lra. rewrite (Rabs_pos_eq (IZR m)) by lra.
    replace (e + 24 - 1)%Z with (23 + e)%Z by lia. replace (e + 24)%Z with (24 + e)%Z by lia. rewrite !bpow_plus.
    change (bpow radix2 23) with 8388608. change (bpow radix2 24) with 16777216. split; nra. }
  assert (Hf : 0 < f) by (unfold f; nra).
  assert (Hulp : ulp radix2 (FLT_exp (-149) 24) f = bpow radix2 e).
  { rewrite ulp_neq_0 by lra. unfold cexp. rewrite Hmag. f_equal. unfold FLT_exp. lia. }
  assert (Hb : bpow radix2 (e - 1) = bpow radix2 e / 2).
  { replace (e - 1)%Z with (e + -1)%Z by lia. rewrite bpow_plus. change (bpow radix2 (-1)) with (/ 2). lra. }
  rewrite Hb in Hx. apply Rabs_def2 in Hx. fold f in Hx.
  apply Rle_antisym.
  - apply round_N_le_midp; [exact v32|exact Ff|]. rewrite succ_eq_pos by lra. rewrite Hulp. lra.
  - apply round_N_ge_midp; [exact v32|exact Ff|]. rewrite pred_eq_pos by lra. unfold pred_pos.
    rewrite Req_bool_false; [rewrite Hulp; lra|]. rewrite Hmag. unfold f. replace (e + 24 - 1)%Z with (23 + e)%Z by lia.
    rewrite bpow_plus. change (bpow radix2 23) with (IZR 8388608). intros C. apply Rmult_eq_reg_r in C; [|lra]. lra.
Qed.
