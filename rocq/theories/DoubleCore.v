(** * DoubleCore: zenith and azimuth from approximate sines and cosines, in double precision *)

From Coq Require Import ZArith QArith Reals Bool List String Lra Lia.
From Flocq Require Import Core.Raux.
From Interval Require Import Tactic.
From Verif Require Import Num Ext ExtLemmas Sky SkyClose AstroTac SingleSpec Double DoubleTac DoubleLemmas PsaD.
Open Scope R_scope.

Lemma p50 : 0 < / 2 ^ 50 <= 1 / 1000000000000000.
Proof. split; [apply Rinv_0_lt_compat, pow_lt; lra|]. apply Rmult_le_reg_r with (2 ^ 50); [apply pow_lt; lra|]. rewrite Rinv_l by (apply pow_nonzero; lra). lra. Qed.
Lemma sc_shift x y e : Rabs (x - y) <= e -> Rabs (sin x - sin y) <= e /\ Rabs (cos x - cos y) <= e.
Proof. intros H. pose proof (sin_lip x y). pose proof (cos_lip x y). split; lra. Qed.
Lemma near_apb x a b tol e : near x a tol -> Rabs a <= Rz b -> tol <= Rz e -> apb x a b e.
Proof. intros (v & -> & H) Hb He. apply ap_fin; [lra|exact Hb]. Qed.
Lemma exact_apb v b : Rabs v <= Rz b -> apb (Fin v) v b 0.
Proof. intros H. apply ap_fin; [|exact H]. rewrite Rminus_diag_eq, Rabs_R0 by reflexivity. unfold Rz. lra. Qed.

Section Core.
  Variable D : Env64.
  Hypothesis HD : double_like D.
  Notation O64 := (DoubleOps D).

  Lemma r64_pi : Rabs (r64 D PI - PI) <= 1 / 1000000000000000.
  Proof.
    eapply Rle_trans; [apply (dl_err D HD)|]. pose proof tiny_u90. assert (u90 <= 1 / 100000000000000000000) by (unfold u90, S90; lra).
    assert (P : 3.14 < PI < 3.142) by (split; interval). rewrite Rabs_pos_eq by lra.
    assert (PI / 2 ^ 53 <= 0.5 / 1000000000000000); [|lra]. unfold Rdiv. apply Rmult_le_reg_r with (2 ^ 53); [apply pow_lt; lra|].
    rewrite Rmult_assoc, Rinv_l by (apply pow_nonzero; lra). lra.
  Qed.


  Lemma polar64 y x : exists q, 0 <= q <= Rabs x + Rabs y /\ Rabs (q * cos (atan264 D y x) - x) <= q * (1 / 1000000000000000) /\
    Rabs (q * sin (atan264 D y x) - y) <= q * (1 / 1000000000000000).
  Proof.
    destruct (dl_atan2 D HD y x) as (_ & k & Hk). set (A := atan264 D y x) in *.
    assert (N : x = 0 /\ y = 0 \/ (y <> 0 \/ x <> 0)) by (destruct (Req_dec x 0), (Req_dec y 0); auto).
    destruct N as [[-> ->]|N].
    - exists 0. rewrite !Rabs_R0. replace (0 * cos A - 0) with 0 by ring. replace (0 * sin A - 0) with 0 by ring. rewrite Rabs_R0. lra.
    - assert (H := Hk N). clear Hk. revert H. pose proof p50 as Hp. generalize dependent (/ 2 ^ 50). intros p Hp H.
      destruct (Ratan2_polar y x) as [P1 P2]. set (q := sqrt _) in *. exists q.
      assert (Q : 0 <= q) by apply sqrt_pos. split; [split; [exact Q|]|].
      { apply Rsqr_incr_0_var; [|pose proof (Rabs_pos x); pose proof (Rabs_pos y); lra]. unfold Rsqr, q. 
        rewrite sqrt_sqrt by (simpl; nra). pose proof (Rabs_pos x). pose proof (Rabs_pos y).
        replace (x ^ 2) with (Rabs x * Rabs x) by (rewrite <- Rabs_mult, Rabs_pos_eq; simpl; nra).
        replace (y ^ 2) with (Rabs y * Rabs y) by (rewrite <- Rabs_mult, Rabs_pos_eq; simpl; nra). nra. }
      replace (A - Ratan2 y x - 2 * PI * IZR k) with ((A - 2 * PI * IZR k) - Ratan2 y x) in H by ring.
      destruct (sc_shift _ _ _ H) as [S C]. rewrite sin_2kpi in S. rewrite cos_2kpi in C.
      replace (q * cos A - x) with (q * (cos A - cos (Ratan2 y x))) by lra.
      replace (q * sin A - y) with (q * (sin A - sin (Ratan2 y x))) by lra.
      rewrite !Rabs_mult, (Rabs_pos_eq q) by exact Q. split; apply Rmult_le_compat_l; lra.
  Qed.

  (** azimuth := where(azimuth < 0, azimuth + pi, azimuth - pi). *)
  Lemma flip64 A q0 : q0 = 0%Q \/ q0 = 0.0%Q -> Rabs A <= r64 D PI ->
    exists b, where_ (flt (Ops := O64) (Fin A) (lit (Ops := O64) q0)) (add (Ops := O64) (Fin A) (PI_ (O := O64))) (sub (Ops := O64) (Fin A) (PI_ (O := O64))) = Fin b /\
      Rabs b <= r64 D PI /\ Rabs (cos b + cos A) <= 1 / 100000000000000 /\ Rabs (sin b + sin A) <= 1 / 100000000000000.
  Proof.
    intros Hq HA. assert (Hp := r64_pi). set (rp := r64 D PI) in *.
    assert (Z0 : r64 D (Q2R q0) = 0) by (replace (Q2R q0) with (IZR 0) by (destruct Hq as [-> | ->]; q2r); apply (dl_int D HD); vm_compute; discriminate).
    assert (R0 : r64 D 0 = 0) by (apply (dl_int D HD 0); vm_compute; discriminate).
    assert (Rp : r64 D rp = rp) by apply (dl_idem D HD). assert (Rm : r64 D (- rp) = - rp) by (rewrite (dl_opp D HD), Rp; reflexivity).
    apply Rabs_le_inv in HA. assert (P : 3.14 < PI < 3.142) by (split; interval). apply Rabs_le_inv in Hp as Hp'.
    assert (Er : forall x, Rabs x <= 3.2 -> Rabs (r64 D x - x) <= 1 / 1000000000000000).
    { intros x Hx. eapply Rle_trans; [apply (dl_err D HD)|]. pose proof tiny_u90. assert (u90 <= 1 / 100000000000000000000) by (unfold u90, S90; lra).
      assert (Rabs x / 2 ^ 53 <= 0.5 / 1000000000000000); [|lra]. unfold Rdiv. apply Rmult_le_reg_r with (2 ^ 53); [apply pow_lt; lra|].
      rewrite Rmult_assoc, Rinv_l by (apply pow_nonzero; lra). lra. }
    cbn [flt lit add sub PI_ fpi DoubleOps]. fold rp. rewrite Z0, fin_lt. destruct (Rltb_spec A 0) as [C|C]; cbn [where_ e_add e_sub].
    - exists (r64 D (A + rp)). split; [apply (rd_fin_s D HD); apply Rabs_le; lra|].
      assert (B1 := dl_mono D HD 0 (A + rp) ltac:(lra)). assert (B2 := dl_mono D HD (A + rp) rp ltac:(lra)). rewrite R0 in B1. rewrite Rp in B2.
      split; [apply Rabs_le; lra|]. assert (X := Er (A + rp) ltac:(apply Rabs_le; lra)).
      assert (Y : Rabs (r64 D (A + rp) - (A + PI)) <= 1 / 100000000000000).
      { apply Rabs_le_inv in X. apply Rabs_le. lra. }
      destruct (sc_shift _ _ _ Y) as [S1 S2]. rewrite neg_sin, neg_cos in *. 
      split; [eapply Rle_trans; [|exact S2]|eapply Rle_trans; [|exact S1]]; right; f_equal; ring.
    - exists (r64 D (A - rp)). split; [apply (rd_fin_s D HD); apply Rabs_le; lra|].
      assert (B1 := dl_mono D HD (A - rp) 0 ltac:(lra)). assert (B2 := dl_mono D HD (- rp) (A - rp) ltac:(lra)). rewrite R0 in B1. rewrite Rm in B2.
      split; [apply Rabs_le; lra|]. assert (X := Er (A - rp) ltac:(apply Rabs_le; lra)).
      assert (Y : Rabs (r64 D (A - rp) - (A - PI)) <= 1 / 100000000000000).
      { apply Rabs_le_inv in X. apply Rabs_le. lra. }
      destruct (sc_shift _ _ _ Y) as [S1 S2].
      assert (E1 : sin (A - PI) = - sin A) by (replace A with (A - PI + PI) at 2 by ring; rewrite neg_sin; ring).
      assert (E2 : cos (A - PI) = - cos A) by (replace A with (A - PI + PI) at 2 by ring; rewrite neg_cos; ring).
      rewrite E1 in S1. rewrite E2 in S2.
      split; [eapply Rle_trans; [|exact S2]|eapply Rle_trans; [|exact S1]]; right; f_equal; ring.
  Qed.

  Section Azimuth.
    Variables (d h sl cl : R) (X Y : ext) (bx by_ ex ey : Z).
    Hypothesis Hd : 0.9 <= cos d <= 1.
    Hypothesis Bx : Rz ex <= 1 / 100000000.
    Hypothesis By : Rz ey <= 1 / 100000000.
    Hypothesis Lx : Rz bx <= 3.
    Hypothesis Ly : Rz by_ <= 1.1.
    (** psa and iqbal. *)
    Lemma az_flip q0 : q0 = 0%Q \/ q0 = 0.0%Q -> apb Y (- sin h) by_ ey -> apb X (tan d * cl - sl * cos h) bx ex ->
      exists a, (let az := fatan2 (Ops := O64) Y X in
                 where_ (flt (Ops := O64) az (lit (Ops := O64) q0)) (add (Ops := O64) az (PI_ (O := O64))) (sub (Ops := O64) az (PI_ (O := O64)))) = Fin a /\
        Rabs a <= r64 D PI /\ exists rho, 0 <= rho /\ Rabs (rho * cos a - (cos d * cos h * sl - sin d * cl)) <= 1.1 / 100000000 /\
          Rabs (rho * sin a - cos d * sin h) <= 1.1 / 100000000.
    Proof.
      intros Hq (y & -> & Y1 & Y2) (x & -> & X1 & X2). cbv zeta. cbn [fatan2 DoubleOps].
      destruct (flip64 (atan264 D y x) q0 Hq (proj1 (dl_atan2 D HD y x))) as (b & E & B & C & S).
      exists b. split; [exact E|]. split; [exact B|]. destruct (polar64 y x) as (q & Q1 & Q2 & Q3).
      assert (Qb : q <= 5).
      { assert (Rabs x <= 3.1) by (replace x with ((x - (tan d * cl - sl * cos h)) + (tan d * cl - sl * cos h)) by ring; eapply Rle_trans; [apply Rabs_triang|]; lra).
        assert (Rabs y <= 1.2) by (replace y with ((y - - sin h) + - sin h) by ring; eapply Rle_trans; [apply Rabs_triang|]; lra). lra. }
      set (A := atan264 D y x) in *. exists (cos d * q). split; [apply Rmult_le_pos; lra|].
      assert (T : forall u v w, Rabs (u + v) <= 1 / 100000000000000 -> Rabs (q * v - w) <= q * (1 / 1000000000000000) -> Rabs (q * u + w) <= 1 / 10000000000000).
      { intros u v w H1 H2. replace (q * u + w) with (q * (u + v) + - (q * v - w)) by ring. eapply Rle_trans; [apply Rabs_triang|]. rewrite Rabs_Ropp, Rabs_mult, (Rabs_pos_eq q) by lra.
        pose proof (Rabs_pos (u + v)). nra. }
      assert (T1 := T _ _ _ C Q2). assert (T2 := T _ _ _ S Q3). clear T Q2 Q3.
      assert (Td : cos d * tan d = sin d) by (unfold tan; field; lra).
      split.
      - replace (_ - _) with (cos d * (q * cos b + x - (x - (tan d * cl - sl * cos h)))) by (rewrite <- Td; ring).
        rewrite Rabs_mult, (Rabs_pos_eq (cos d)) by lra. assert (Rabs (q * cos b + x - (x - (tan d * cl - sl * cos h))) <= 1.1 / 100000000); [|pose proof (Rabs_pos (q * cos b + x - (x - (tan d * cl - sl * cos h)))); nra].
        apply Rabs_le_inv in T1, X1. apply Rabs_le. lra.
      - replace (_ - _) with (cos d * (q * sin b + y - (y - - sin h))) by ring.
        rewrite Rabs_mult, (Rabs_pos_eq (cos d)) by lra. assert (Rabs (q * sin b + y - (y - - sin h)) <= 1.1 / 100000000); [|pose proof (Rabs_pos (q * sin b + y - (y - - sin h))); nra].
        apply Rabs_le_inv in T2, Y1. apply Rabs_le. lra.
    Qed.
    (** soltrack. *)
    Lemma az_plain : apb Y (sin h) by_ ey -> apb X (cos h * sl - tan d * cl) bx ex ->
      exists a, fatan2 (Ops := O64) Y X = Fin a /\
        Rabs a <= r64 D PI /\ exists rho, 0 <= rho /\ Rabs (rho * cos a - (cos d * cos h * sl - sin d * cl)) <= 1.1 / 100000000 /\
          Rabs (rho * sin a - cos d * sin h) <= 1.1 / 100000000.
    Proof.
      intros (y & -> & Y1 & Y2) (x & -> & X1 & X2). cbn [fatan2 DoubleOps].
      exists (atan264 D y x). split; [reflexivity|]. split; [apply (dl_atan2 D HD)|]. destruct (polar64 y x) as (q & Q1 & Q2 & Q3).
      assert (Qb : q <= 5).
      { assert (Rabs x <= 3.1) by (replace x with ((x - (cos h * sl - tan d * cl)) + (cos h * sl - tan d * cl)) by ring; eapply Rle_trans; [apply Rabs_triang|]; lra).
        assert (Rabs y <= 1.2) by (replace y with ((y - sin h) + sin h) by ring; eapply Rle_trans; [apply Rabs_triang|]; lra). lra. }
      set (A := atan264 D y x) in *. exists (cos d * q). split; [apply Rmult_le_pos; lra|].
      assert (Td : cos d * tan d = sin d) by (unfold tan; field; lra).
      assert (Q2' : Rabs (q * cos A - x) <= 5 / 1000000000000000) by lra. assert (Q3' : Rabs (q * sin A - y) <= 5 / 1000000000000000) by lra.
      split.
      - replace (_ - _) with (cos d * (q * cos A - x + (x - (cos h * sl - tan d * cl)))) by (rewrite <- Td; ring).
        rewrite Rabs_mult, (Rabs_pos_eq (cos d)) by lra. assert (Rabs (q * cos A - x + (x - (cos h * sl - tan d * cl))) <= 1.1 / 100000000); [|pose proof (Rabs_pos (q * cos A - x + (x - (cos h * sl - tan d * cl)))); nra].
        apply Rabs_le_inv in Q2', X1. apply Rabs_le. lra.
      - replace (_ - _) with (cos d * (q * sin A - y + (y - sin h))) by ring.
        rewrite Rabs_mult, (Rabs_pos_eq (cos d)) by lra. assert (Rabs (q * sin A - y + (y - sin h)) <= 1.1 / 100000000); [|pose proof (Rabs_pos (q * sin A - y + (y - sin h))); nra].
        apply Rabs_le_inv in Q3', Y1. apply Rabs_le. lra.
    Qed.
  End Azimuth.

  (** ** Tangent of the declination *)
  Lemma ap_tan x d e : apb x d (qbnd 0.42) e -> Rz e <= 1 / 100000000 -> apb (ftan (Ops := O64) x) (tan d) (S90 / 2) (2 * e + 2 ^ 41).
  Proof.
    intros (v & -> & H1 & H2) He. cbn [ftan DoubleOps e_fun].
    assert (Q42 : Rz (qbnd 0.42) <= 0.4201) by (unfold Rz, u90, S90; let z := eval vm_compute in (qbnd 0.42) in change (qbnd 0.42) with z; lra).
    assert (Bd : -0.4201 <= d <= 0.4201) by (apply Rabs_le_inv in H2; lra). assert (Bv : -0.4202 <= v <= 0.4202) by (apply Rabs_le_inv in H1; lra).
    assert (Cd : 0.9 <= cos d) by interval. assert (Cv : 0.9 <= cos v) by interval.
    assert (Tv : Rabs (tan v) <= 0.4473) by (unfold tan; apply Rabs_le; split; interval).
    assert (Td : Rabs (tan d) <= 0.4472) by (unfold tan; apply Rabs_le; split; interval).
    apply ap_fin.
    - assert (T := dl_tan D HD v ltac:(lra)). 
      assert (E : Rabs (tan v - tan d) <= 2 * Rz e).
      { replace (tan v - tan d) with (sin (v - d) * / (cos v * cos d)) by (rewrite sin_minus; unfold tan; field; lra).
        assert (S := sin_lip (v - d) 0). rewrite sin_0, !Rminus_0_r in S. rewrite Rabs_mult. 
        assert (I : Rabs (/ (cos v * cos d)) <= 2).
        { rewrite Rabs_pos_eq by (left; apply Rinv_0_lt_compat; nra). apply Rmult_le_reg_r with (cos v * cos d); [nra|]. rewrite Rinv_l by nra. nra. }
        pose proof (Rabs_pos (sin (v - d))). pose proof (Rabs_pos (/ (cos v * cos d))). nra. }
      assert (T2 : Rabs (tan64 D v - tan v) <= Rz (2 ^ 41)).
      { eapply Rle_trans; [exact T|]. pose proof tiny_u90. replace (2 ^ 41)%Z with (2 ^ 40 + 2 ^ 40)%Z by reflexivity. rewrite Rz_plus, <- pow50.
        assert (u90 <= / 2 ^ 50) by (rewrite pow50; unfold Rz; pose proof u90_pos; change (2 ^ 40)%Z with 1099511627776%Z; nra).
        assert (Rabs (tan v) / 2 ^ 50 <= / 2 ^ 50); [|lra]. unfold Rdiv. pose proof p50. nra. }
      rewrite Rz_plus. replace (Rz (2 * e)) with (2 * Rz e) by (unfold Rz; rewrite mult_IZR; ring).
      replace (tan64 D v - tan d) with ((tan64 D v - tan v) + (tan v - tan d)) by ring. eapply Rle_trans; [apply Rabs_triang|]. lra.
    - assert (0.4999 <= Rz (S90 / 2)) by (unfold Rz, u90, S90; let z := eval vm_compute in (1237940039285380274899124224 / 2)%Z in change (1237940039285380274899124224 / 2)%Z with z; lra). lra.
  Qed.

  (** ** The arc cosine *)
  Lemma acos64_cases C g b e tol : apb C g b e -> Rz e <= tol ->
    (exists z0 v, facos (Ops := O64) C = Fin v /\ fasin (Ops := O64) C = Fin (asin64 D (cos z0)) /\ 0 <= z0 <= PI /\ Rabs (cos z0 - g) <= tol /\ v = acos64 D (cos z0) /\
       Rabs (v - z0) <= Rz (2 ^ 40) /\ Rabs (asin64 D (cos z0) - (PI / 2 - z0)) <= Rz (2 ^ 40))
    \/ (facos (Ops := O64) C = NaN /\ fasin (Ops := O64) C = NaN /\ 1 - tol < Rabs g).
  Proof.
    intros (v & -> & H1 & _) He. cbn [facos fasin DoubleOps].
    assert (U : -1 <= v <= 1 \/ (v < -1 \/ 1 < v)) by lra. destruct U as [U|U].
    - left. exists (acos v), (acos64 D v). rewrite !fin_unit by exact U. rewrite cos_acos by exact U. split; [reflexivity|]. split; [reflexivity|].
      split; [apply acos_bound|]. split; [lra|]. split; [reflexivity|]. rewrite <- pow50. split; [apply (dl_acos D HD v U)|].
      assert (X := proj1 (dl_asin D HD v U)). rewrite acos_asin by exact U. replace (PI / 2 - (PI / 2 - asin v)) with (asin v) by ring. exact X.
    - right. rewrite !fin_unit_out by exact U. split; [reflexivity|]. split; [reflexivity|]. apply Rabs_le_inv in H1. destruct U as [U|U].
      + eapply Rlt_le_trans; [|rewrite <- Rabs_Ropp; apply Rle_abs]. lra.
      + eapply Rlt_le_trans; [|apply Rle_abs]. lra.
  Qed.
End Core.
