(** * Refraction: the Saemundsson-type correction shared by psa, soltrack and nrel (reals) *)

From Coq Require Import ZArith QArith Reals Lra Lia.
From Interval Require Import Tactic.
From Verif Require Import Num Ext ExtLemmas Sky AstroTac.
Open Scope R_scope.

(** [el] elevation (rad); the correction is a / (b tan(arg)). *)
Definition refr_arg (k el : R) : R := el + #3.1376e-3 / (el + k).
Definition refr_corr (a b k el : R) : R := a * cos (refr_arg k el) / (b * sin (refr_arg k el)).

Lemma ext_cot a b x : 0 < b -> 0 < sin x -> e_div (Fin a) (e_mul (Fin b) (e_tan (Fin x))) = Fin (a * cos x / (b * sin x)).
Proof.
  intros Hb Hs. unfold e_tan. destruct (Req_EM_T (cos x) 0) as [E|E].
  - destruct (Rlt_dec 0 (sin x)); [|contradiction]. cbn. destruct (Rlt_dec 0 b); [|contradiction]. cbn.
    f_equal. rewrite E. unfold Rdiv. ring.
  - rewrite fin_mul, fin_div.
    + f_equal. unfold tan. field. repeat split; lra.
    + unfold tan. apply Rmult_integral_contrapositive_currified; [lra|]. 
      apply Rmult_integral_contrapositive_currified; [lra|]. now apply Rinv_neq_0_compat.
Qed.

(** Without the factor b. *)
Lemma ext_cot1 a x : 0 < sin x -> e_div (Fin a) (e_tan (Fin x)) = Fin (a * cos x / sin x).
Proof.
  intros Hs. unfold e_tan. destruct (Req_EM_T (cos x) 0) as [E|E].
  - destruct (Rlt_dec 0 (sin x)); [|contradiction]. cbn. 
    f_equal. rewrite E. unfold Rdiv. ring.
  - rewrite fin_div.
    + f_equal. unfold tan. field. repeat split; lra.
    + unfold tan. 
      apply Rmult_integral_contrapositive_currified; [lra|]. now apply Rinv_neq_0_compat.
Qed.

(** psa, nrel: k = 8.9186e-2, correction applied for el >= -1.4545e-2; soltrack: k = 8.92e-2. *)
Notation k_psa := (#8.9186e-2).
Notation k_sol := (#8.92e-2).
Section RefrK.
  Variables (k el : R).
  Hypothesis Hk : k_psa <= k <= k_sol.
  Hypothesis Hel : - #1.4545e-2 <= el <= PI / 2.
  Lemma refr_arg_g : 0.02744 <= refr_arg k el <= 1.5727.
  Proof.
    unfold refr_arg. pose proof Hel as He. pose proof Hk as Hk'. clear Hel Hk. assert (PI / 2 <= 1.5708) by interval. q2.
    assert (Hel' : -14545 / 1000000 <= el <= 15708 / 10000) by lra.
    assert (Hkk : 0.089186 <= k <= 0.0892) by lra.
    clear He H Hk'. split; interval with (i_bisect el, i_prec 60).
  Qed.
  Lemma refr_sin_g : 0 < sin (refr_arg k el).
  Proof. pose proof refr_arg_g. apply sin_gt_0; [lra|]. assert (3 < PI) by interval. lra. Qed.
  (** 1/tan on the range: at most 1/0.02744, at least -0.002. *)
  Lemma cot_g : -0.002 <= cos (refr_arg k el) / sin (refr_arg k el) <= 36.44.
  Proof.
    assert (H := refr_arg_g). generalize dependent (refr_arg k el). intros x Hx. split; interval with (i_bisect x, i_prec 60).
  Qed.
  (** Overhead: the correction never exceeds the zenith angle. *)
  Lemma refr_le_zenith_g : 0.0003 * (cos (refr_arg k el) / sin (refr_arg k el)) <= PI / 2 - el.
  Proof.
    destruct (Rle_or_lt el 1.5) as [Hl|Hl].
    - pose proof cot_g. assert (1.57 < PI / 2) by interval. lra.
    - unfold refr_arg. assert (0.001 <= #3.1376e-3 / (el + k) <= 0.003).
      { assert (PI / 2 <= 1.5708) by interval. assert (1.5 <= el <= 1.5708) by lra.
        assert (0.089 <= k <= 0.09) by (pose proof Hk; q2; lra). clear Hk Hel. q2. split; interval. }
      set (g := #3.1376e-3 / (el + k)) in *. set (y := PI / 2 - el).
      assert (Hy : 0 <= y <= 0.071). { unfold y. assert (PI / 2 <= 1.571) by interval. lra. }
      replace (el + g) with (PI / 2 - (y - g)) by (unfold y; ring).
      rewrite cos_shift, sin_shift.
      assert (Hc : 0.9 <= cos (y - g)) by interval.
      assert (sin (y - g) <= y).
      { destruct (Rle_or_lt (y - g) 0).
        - assert (sin (y - g) <= 0). { rewrite <- (Ropp_involutive (sin _)), <- sin_neg.
             assert (0 <= sin (- (y - g))) by (apply sin_ge_0; [lra|interval]). lra. } lra.
        - assert (sin (y - g) < y - g) by (apply sin_lt_x; lra). lra. }
      apply Rmult_le_reg_r with (cos (y - g)); [lra|]. unfold Rdiv.
      rewrite !Rmult_assoc, Rinv_l by lra. nra.
  Qed.
End RefrK.
Lemma k_psa_b : k_psa <= k_psa <= k_sol. Proof. q2; lra. Qed.
Lemma k_sol_b : k_psa <= k_sol <= k_sol. Proof. q2; lra. Qed.
Definition refr_sin el := refr_sin_g k_psa el k_psa_b.
Definition cot_b el := cot_g k_psa el k_psa_b.
Definition refr_le_zenith el := refr_le_zenith_g k_psa el k_psa_b.
