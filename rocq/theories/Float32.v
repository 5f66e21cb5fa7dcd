(** * Float32: the environment with IEEE binary32 rounding (ties to even) of float32 values *)

From Coq Require Import ZArith QArith Reals Lra Lia.
From Flocq Require Import Core.
From Verif Require Import Num Ext AstroSpec.
Open Scope R_scope.

#[local] Instance p24 : Prec_gt_0 24 := eq_refl.
(** binary32: 24-bit significands, least exponent -149 (no overflow occurs: see DESIGN.md). *)
Definition r32 (x : R) : R := round radix2 (FLT_exp (-149) 24) ZnearestE x.
Definition float32_env : Env := {| rnd := r32; nem := Rfmod; nem_spec := fmod_spec |}.

Lemma r32_generic x : generic_format radix2 (FLT_exp (-149) 24) x -> r32 x = x.
Proof. intros H. apply round_generic; [apply valid_rnd_N|exact H]. Qed.

(** Integers up to 2^24 are exact. *)
Lemma r32_int n : (Z.abs n <= 16777216)%Z -> r32 (IZR n) = IZR n.
Proof.
  intros H. apply r32_generic. apply generic_format_FLT. 
  destruct (Z.eq_dec (Z.abs n) 16777216) as [E|E].
  - exists (Float radix2 (Z.sgn n) 24).
    + unfold F2R; cbn [Fnum Fexp bpow]. rewrite <- mult_IZR. f_equal. change (Z.pow_pos radix2 24) with 16777216%Z. rewrite <- E. lia.
    + cbn [Fnum]. change (radix2 ^ 24)%Z with 16777216%Z. lia.
    + cbn; lia.
  - exists (Float radix2 n 0).
    + unfold F2R; cbn [Fnum Fexp bpow]. ring.
    + cbn [Fnum]. change (radix2 ^ 24)%Z with 16777216%Z. lia.
    + cbn; lia.
Qed.

Lemma r32_accurate : float32_accurate float32_env.
Proof.
  intros x Hx. cbn [float32_env rnd].
  destruct (Req_dec (Rabs x) 1) as [E1|E1].
  - assert (E : x = IZR 1 \/ x = IZR (-1)) by (revert E1; unfold Rabs; destruct (Rcase_abs x); lra).
    destruct E as [->| ->]; rewrite r32_int by lia; rewrite Rminus_diag_eq by reflexivity; rewrite Rabs_R0; lra.
  - destruct (Req_dec x 0) as [->|E0].
    { change 0 with (IZR 0). rewrite r32_int by lia. rewrite Rminus_diag_eq by reflexivity. rewrite Rabs_R0; lra. }
    assert (Hlt : Rabs x < 1) by (assert (Rabs x <= 1) by (apply Rabs_le; lra); lra).
    assert (H := error_le_half_ulp radix2 (FLT_exp (-149) 24) (fun z => negb (Z.even z)) x). fold ZnearestE in H.
    fold (r32 x) in H. eapply Rle_trans; [exact H|].
    rewrite ulp_neq_0 by exact E0. unfold cexp.
    assert (Hm : (mag radix2 x <= 0)%Z) by (apply mag_le_bpow; [exact E0|exact Hlt]).
    assert (He : (FLT_exp (-149) 24 (mag radix2 x) <= -24)%Z) by (unfold FLT_exp; lia).
    apply (bpow_le radix2) in He. change (bpow radix2 (-24)) with (/ 16777216) in He.
    lra.
Qed.
