(** * DoublePos: the position stored in a cell, in double precision, against the direction of the sun *)

From Coq Require Import ZArith QArith Reals Bool List String Lra Lia.
From Flocq Require Import Core.Raux.
From Interval Require Import Tactic.
From Verif Require Import Num Arrays Libspa Time Core Usecases Spec GenericLemmas Ext ExtLemmas ExactLaws
  Sky SkyClose AstroTac Refraction AstroSpec SingleSpec SingleLemmas Astro AstroCell Calendar
  Double DoubleTac DoubleLemmas DoubleSpec DoubleCore DoubleCell Psa PsaR PsaCell PsaD Soltrack SoltrackR SoltrackCell SoltrackD Iqbal IqbalR IqbalD.
Import ListNotations.
Open Scope R_scope.

Lemma near_turn_S phi d h h' e : near_turn h h' e -> Rabs (sun_S phi d h - sun_S phi d h') <= e.
Proof.
  intros (k & Hk). unfold sun_S. replace (_ - _) with ((cos h - cos h') * (sin phi * cos d)) by ring.
  replace (cos h') with (cos (h' + 2 * PI * IZR k)) by (replace (h' + 2 * PI * IZR k) with (h' - 2 * PI * IZR (- k)) by (rewrite opp_IZR; ring); apply cos_2kpi).
  apply mul1; [|pose proof (SIN_bound phi); pose proof (COS_bound d); split; nra].
  eapply Rle_trans; [apply cos_lip|]. eapply Rle_trans; [|exact Hk]. right. f_equal. ring.
Qed.
Lemma near_turn_W phi d h h' e : near_turn h h' e -> Rabs (sun_W phi d h - sun_W phi d h') <= e.
Proof.
  intros (k & Hk). unfold sun_W. rewrite <- Rmult_minus_distr_l.
  replace (sin h') with (sin (h' + 2 * PI * IZR k)) by (replace (h' + 2 * PI * IZR k) with (h' - 2 * PI * IZR (- k)) by (rewrite opp_IZR; ring); apply sin_2kpi).
  rewrite Rmult_comm. apply mul1; [|apply COS_bound]. eapply Rle_trans; [apply sin_lip|]. eapply Rle_trans; [|exact Hk]. right. f_equal. ring.
Qed.
Lemma near_turn_U phi d h h' e : near_turn h h' e -> Rabs (sun_U phi d h - sun_U phi d h') <= e.
Proof.
  intros (k & Hk). unfold sun_U. replace (_ - _) with ((cos h - cos h') * (cos phi * cos d)) by ring.
  replace (cos h') with (cos (h' + 2 * PI * IZR k)) by (replace (h' + 2 * PI * IZR k) with (h' - 2 * PI * IZR (- k)) by (rewrite opp_IZR; ring); apply cos_2kpi).
  apply mul1; [|pose proof (COS_bound phi); pose proof (COS_bound d); split; nra].
  eapply Rle_trans; [apply cos_lip|]. eapply Rle_trans; [|exact Hk]. right. f_equal. ring.
Qed.
Lemma tri3 a b c e f : Rabs (a - b) <= e -> Rabs (b - c) <= f -> Rabs (a - c) <= e + f.
Proof. intros H1 H2. replace (a - c) with ((a - b) + (b - c)) by ring. eapply Rle_trans; [apply Rabs_triang|]. lra. Qed.
Lemma tri_abs a b t e : 1 - t < Rabs a -> Rabs (a - b) <= e -> 1 - (t + e) < Rabs b.
Proof. intros H1 H2. apply Rabs_le_inv in H2. unfold Rabs in *. destruct (Rcase_abs a), (Rcase_abs b); lra. Qed.

Section Pos.
  Variable D : Env64.
  Hypothesis HD : double_like D.
  Notation O64 := (DoubleOps D).
  Notation E := (single D).
  Let HE : float32_like E := dl_single D HD.

  (** What a cell returns, for a sun at declination [d] and hour angle [h] over latitude [phi]. *)
  Definition pos64 (al r : bool) (k tol phi d h : R) (res : ext * ext) : Prop :=
    (exists a, snd res = Fin a /\ Rabs a <= r64 D PI /\ near_azimuth tol a phi d h) /\
    ((exists z0, 0 <= z0 <= PI /\ Rabs (cos z0 - sun_U phi d h) <= tol /\ (r = false -> near (fst res) (z0 + k * sin z0) tol9))
     \/ (al = false /\ fst res = NaN /\ 1 - tol < Rabs (sun_U phi d h))).

  Lemma raw_pos al r k tolc d h sl cl res phi H e1 e2 e3 tol :
    raw D al r k tolc d h sl cl res -> Rabs (sl - sin phi) <= e1 -> Rabs (cl - cos phi) <= e2 -> near_turn h H e3 ->
    tolc + e1 + e2 + e3 <= tol -> 1.1 / 100000000 + e1 + e2 + e3 <= tol -> pos64 al r k tol phi d H res.
  Proof.
    intros [(a & A1 & A2 & rho & R1 & R2 & R3) Z] S1 S2 S3 T1 T2.
    assert (E12 := err_nonneg phi sl cl e1 e2 S1 S2). split.
    - exists a. split; [exact A1|]. split; [exact A2|]. exists rho. split; [exact R1|]. split.
      + assert (X := tri3 _ _ _ _ _ (tri3 _ _ _ _ _ R2 (south_err phi d h sl cl e1 e2 S1 S2)) (near_turn_S phi d h H e3 S3)). lra.
      + assert (X := tri3 _ _ _ _ _ R3 (near_turn_W phi d h H e3 S3)). lra.
    - assert (Y := height_err phi d h sl cl e1 e2 S1 S2). fold (gcos d h sl cl) in Y. 
      assert (Y' := tri3 _ _ _ _ _ Y (near_turn_U phi d h H e3 S3)).
      destruct Z as [(z0 & Z1 & Z2 & Z3)|(Z1 & Z2 & Z3)].
      + left. exists z0. split; [exact Z1|]. split; [|exact Z3]. assert (X := tri3 _ _ _ _ _ Z2 Y'). lra.
      + right. split; [exact Z1|]. split; [exact Z2|]. assert (X := tri_abs _ _ _ _ Z3 Y'). lra.
  Qed.

  (** ** float32 rounding of a float64 result *)
  Definition r32 (x : R) : R := rnd E (r64 D x).
  Lemma r64_abs x b : Rabs x <= b -> b <= 1000 -> Rabs (r64 D x - x) <= 2 / 10000000000000.
  Proof.
    intros H Hb. eapply Rle_trans; [apply (dl_err D HD)|]. pose proof tiny_u90. assert (u90 <= 1 / 100000000000000000000) by (unfold u90, S90; lra).
    assert (Rabs x / 2 ^ 53 <= 1 / 8000000000000); [|lra]. unfold Rdiv. apply Rmult_le_reg_r with (2 ^ 53); [apply pow_lt; lra|].
    rewrite Rmult_assoc, Rinv_l by (apply pow_nonzero; lra). lra.
  Qed.
  Lemma r64_bound x n : (Z.abs n <= 1000)%Z -> Rabs x <= IZR n -> Rabs (r64 D x) <= IZR n.
  Proof.
    intros Hn H. apply Rabs_le_inv in H. apply Rabs_le.
    assert (H1 := dl_mono D HD (- IZR n) x ltac:(lra)). assert (H2 := dl_mono D HD x (IZR n) ltac:(lra)).
    rewrite <- opp_IZR in H1. rewrite (dl_int D HD (- n)%Z) in H1 by lia. rewrite (dl_int D HD n) in H2 by lia. rewrite opp_IZR in H1. lra.
  Qed.
  Lemma r32_abs x b : Rabs x <= b -> b <= 900 -> Rabs (r32 x - x) <= b / 16777216 + 2 / 1000000000000.
  Proof.
    intros H Hb. assert (X := r64_abs x b H ltac:(lra)). assert (Y : Rabs (r64 D x) <= b + 1 / 1000000000000).
    { replace (r64 D x) with ((r64 D x - x) + x) by ring. eapply Rle_trans; [apply Rabs_triang|]. lra. }
    assert (Z := rl_abs E HE _ _ Y). unfold r32. assert (W := tri3 _ _ _ _ _ Z X). lra.
  Qed.
  Lemma r32_bound x n : (Z.abs n <= 1000)%Z -> Rabs x <= IZR n -> Rabs (r32 x) <= IZR n.
  Proof. intros Hn H. apply (rl_bound E HE); [lia|]. now apply r64_bound. Qed.
  Lemma r32_mono x y : x <= y -> r32 x <= r32 y.
  Proof. intros H. destruct HE as (_ & _ & HM & _). apply HM. now apply (dl_mono D HD). Qed.
  Lemma r32_int n : (Z.abs n <= 1000)%Z -> r32 (IZR n) = IZR n.
  Proof. intros H. unfold r32. rewrite (dl_int D HD) by lia. destruct HE as (_ & _ & _ & HI). apply HI. lia. Qed.
  Lemma r32_unit x : -1 <= x <= 1 -> Rabs (r32 x - x) <= 3.01 / 100000000.
  Proof.
    intros H. assert (X := r64_abs x 1 ltac:(apply Rabs_le; lra) ltac:(lra)).
    assert (Y := r64_bound x 1 ltac:(lia) ltac:(apply Rabs_le; lra)). apply Rabs_le_inv in Y.
    assert (Z := rl_unit E HE (r64 D x) ltac:(lra)). unfold r32. assert (W := tri3 _ _ _ _ _ Z X). lra.
  Qed.

  Variables (t : Z) (la lo : R).
  Hypothesis Ht : representable t.
  Hypothesis Hla : -90 <= la <= 90.
  Hypothesis Hlo : -180 <= lo <= 180.
  Let Hs := sec_range t Ht.
  Let phi := la * (PI / 180).
  Let s := IZR (sec_of t).

  Lemma radf_la : Rabs (radf D (rnd E la) - phi) <= 4.7 / 10000000.
  Proof.
    destruct (r_la E HE la Hla) as [_ L2]. assert (H1 := dl_radf D HD (rnd E la)). assert (H2 := lat_f64 E HE la Hla). fold phi in H2.
    assert (X := tri3 _ _ _ _ _ H1 H2). pose proof pi_b. 
    assert (Rabs (rnd E la) * (PI / 180) / 2 ^ 22 <= 90 * (3.1415927 / 180) / 2 ^ 22) by (apply Rmult_le_compat_r; [lra|]; apply Rmult_le_compat; try apply Rabs_pos; lra).
    lra.
  Qed.
  Lemma radf_lo : Rabs (radf D (rnd E lo) - lo * (PI / 180)) <= 9.4 / 10000000 /\ Rabs (radf D (rnd E lo)) <= 4.
  Proof.
    destruct (r_lo E HE lo Hlo) as [L1 L2]. assert (H1 := dl_radf D HD (rnd E lo)).
    assert (H2 := deg_mul _ _ L1). rewrite Rmult_minus_distr_r in H2. pose proof pi_b. 
    assert (X := tri3 _ _ _ _ _ H1 H2).
    assert (Rabs (rnd E lo) * (PI / 180) / 2 ^ 22 <= 180 * (3.1415927 / 180) / 2 ^ 22) by (apply Rmult_le_compat_r; [lra|]; apply Rmult_le_compat; try apply Rabs_pos; lra).
    assert (W : Rabs (radf D (rnd E lo) - lo * (PI / 180)) <= 9.4 / 10000000) by lra. split; [exact W|].
    assert (Rabs (lo * (PI / 180)) <= 180 * (PI / 180)) by (apply deg_mul, Rabs_le; lra).
    replace (radf D (rnd E lo)) with ((radf D (rnd E lo) - lo * (PI / 180)) + lo * (PI / 180)) by ring. eapply Rle_trans; [apply Rabs_triang|]. lra.
  Qed.
  Lemma two23 : / 2 ^ 23 <= 1.193 / 10000000. Proof. lra. Qed.
  Lemma near_sin f p q e : near_abs f sin (/ 2 ^ 23) -> Rabs (p - q) <= e -> Rabs (f p - sin q) <= e + 1.193 / 10000000.
  Proof. intros H H1. pose proof (sin_lip p q). assert (X := tri3 (f p) (sin p) (sin q) _ e (H p) ltac:(lra)). pose proof two23. lra. Qed.
  Lemma near_cos f p q e : near_abs f cos (/ 2 ^ 23) -> Rabs (p - q) <= e -> Rabs (f p - cos q) <= e + 1.193 / 10000000.
  Proof. intros H H1. pose proof (cos_lip p q). assert (X := tri3 (f p) (cos p) (cos q) _ e (H p) ltac:(lra)). pose proof two23. lra. Qed.
  Lemma unit_abs f x : unit_valued f -> Rabs (f x) <= 1. Proof. intros H. apply Rabs_le. specialize (H x). lra. Qed.

  Lemma near_dec x d : near x d tol9 -> -0.41 <= d <= 0.41 -> apb x d (qbnd 0.42) e9.
  Proof.
    intros H Hd. apply (near_apb _ _ _ tol9); [exact H| |exact e9_ok]. 
    unfold Rz, u90, S90. let z := eval vm_compute in (qbnd 0.42) in change (qbnd 0.42) with z. apply Rabs_le. lra.
  Qed.
  Lemma cos_dec_2 d : -0.41 <= d <= 0.41 -> 0.9 <= cos d <= 1.
  Proof. intros H. split; [apply cos_dec_b; lra|apply COS_bound]. Qed.

  (** ** psa *)
  Lemma psa_turn tm k k' md n : 
    psa_close s tm -> md (s / #86400) #1 = s / #86400 - IZR n * #1 ->
    near_turn (((#6.697096103 + #6.570984737e-2 * p_jde s + (s / #86400 - IZR k' * #1) * #24) * #15 + rnd E lo) * (PI / 180) - (p_ra0 s + 2 * PI * IZR k))
       (c_H (p_ra s) (p_gmst md s) lo) (1.9 / 10000000).
  Proof.
    intros _ Hn. destruct (p_ra_spec s) as [_ (k'' & Hk)]. unfold c_H, p_gmst, p_dh. rewrite Hn, Hk.
    exists (n - k' + k'' - k)%Z. destruct (r_lo E HE lo Hlo) as [L1 _]. 
    match goal with |- Rabs ?x <= _ => replace x with ((rnd E lo - lo) * (PI / 180)) by (rewrite minus_IZR, plus_IZR, minus_IZR; q2; field) end.
    eapply Rle_trans; [apply deg_mul, L1|]. pose proof pi_b. lra.
  Qed.

  Lemma pos_nepsa uc r : pos64 false r (parallax_coef "psa") (double_tol "psa" "numexpr" la - 1 / 100000000) phi (p_delta s) (hour_angle_of "psa" "numexpr" (nem E) t lo)
    (lib_cell (ne_psa (O := O64)) uc r (lib_time (ne_psa (O := O64)) (sec_of t)) (lib_cast (ne_psa (O := O64)) (Fin lo)) (lib_cast (ne_psa (O := O64)) (Fin la))).
  Proof.
    replace (parallax_coef "psa") with (#0.000042587565907513806) by (cbn; q2r).
    assert (C := ne_psa_time_D D HD s Hs _ (ofZ_ap D HD _ Hs)). assert (Bd := p_delta_b s Hs). destruct (psa_gmst_k E t) as (n & Hn).
    replace (lib_cell (ne_psa (O := O64)) uc) with (lib_2d (ne_psa (O := O64))) by (destruct uc; reflexivity).
    cbn [ne_psa lib_2d lib_time lib_cast]. cbn [cast32 DoubleOps e_fun]. set (tm := ne_psa_time _) in *.
    destruct (pc_ra _ _ C) as (k & Hk). destruct (pc_gmst _ _ C) as (k' & Hk').
    assert (L := lat_f64 E HE la Hla). fold phi in L. destruct (sc_shift _ _ _ L) as [L1 L2].
    eapply raw_pos; [eapply ne_psa_D; [exact HD|apply near_dec; [exact (pc_delta _ _ C)|exact Bd]|now apply cos_dec_2|exact Hk|exact Hk'|apply r_lo; assumption|apply r_la; assumption]
       |exact L1|exact L2|exact (psa_turn tm k k' (nem E) n C Hn)| |]; cbn; lra.
  Qed.

  Lemma pos_pypsa uc r : pos64 true r (parallax_coef "psa") (double_tol "psa" "numpy" la - 1 / 100000000) phi (p_delta s) (hour_angle_of "psa" "numpy" (nem E) t lo)
    (lib_cell (py_psa (O := O64)) uc r (lib_time (py_psa (O := O64)) (sec_of t)) (lib_cast (py_psa (O := O64)) (Fin lo)) (lib_cast (py_psa (O := O64)) (Fin la))).
  Proof.
    replace (parallax_coef "psa") with (#0.000042587565907513806) by (cbn; q2r).
    assert (C := py_psa_time_D D HD s Hs _ (ofZ_ap D HD _ Hs)). assert (Bd := p_delta_b s Hs). destruct (psa_gmst_k' t) as (n & Hn).
    replace (lib_cell (py_psa (O := O64)) uc) with (lib_2d (py_psa (O := O64))) by (destruct uc; reflexivity).
    cbn [py_psa lib_2d lib_time lib_cast]. cbn [cast32 DoubleOps e_fun]. set (tm := py_psa_time _) in *.
    destruct (pc_ra _ _ C) as (k & Hk). destruct (pc_gmst _ _ C) as (k' & Hk').
    assert (L1 := near_sin (sinf D) _ _ _ (proj1 (dl_sinf D HD)) radf_la). assert (L2 := near_cos (cosf D) _ _ _ (proj1 (dl_cosf D HD)) radf_la).
    eapply raw_pos; [eapply py_psa_D with (sl := sinf D (radf D (rnd E la))) (cl := cosf D (radf D (rnd E la)));
         [exact HD|apply near_dec; [exact (pc_delta _ _ C)|exact Bd]|now apply cos_dec_2|exact Hk|exact Hk'|apply r_lo; assumption
         |apply unit_abs, (dl_sinf D HD)|apply unit_abs, (dl_cosf D HD)| |reflexivity|reflexivity]
       |exact L1|exact L2|exact (psa_turn tm k k' Rfloor_mod n C Hn)| |]; [|cbn; lra|cbn; lra].
    match goal with |- Rabs (gcos ?d ?h ?sl ?cl) <= _ => 
      assert (X := height_err (radf D (rnd E la)) d h sl cl (/ 2 ^ 23) (/ 2 ^ 23) (proj1 (dl_sinf D HD) _) (proj1 (dl_cosf D HD) _)); fold (gcos d h sl cl) in X;
      assert (Y := sun_unit (radf D (rnd E la)) d h); set (U := sun_U (radf D (rnd E la)) d h) in *; generalize dependent (gcos d h sl cl) end. intros g X.
    assert (-1 <= U <= 1) by (split; nra). apply Rabs_le_inv in X. pose proof two23. apply Rabs_le. lra.
  Qed.

  (** ** soltrack *)
  Lemma st_turn md k l : mod_spec md -> Rabs (l - lo * (PI / 180)) <= 9.4 / 10000000 ->
    near_turn (t_agst s - (u_ra s + 2 * PI * IZR k) + l) (s_H (t_agst s) (t_ra md s) lo) (9.4 / 10000000).
  Proof.
    intros Hmd Hl. destruct (t_ra_u md Hmd s) as (k' & Hk). unfold s_H. rewrite Hk. exists (k' - k)%Z.
    match goal with |- Rabs ?x <= _ => replace x with (l - lo * (PI / 180)) by (rewrite minus_IZR; ring) end. exact Hl.
  Qed.
  Lemma pos_nesol uc r : pos64 false r (parallax_coef "soltrack") (double_tol "soltrack" "numexpr" la - 1 / 100000000) phi (u_dec s) (hour_angle_of "soltrack" "numexpr" (nem E) t lo)
    (lib_cell (ne_soltrack (O := O64)) uc r (lib_time (ne_soltrack (O := O64)) (sec_of t)) (lib_cast (ne_soltrack (O := O64)) (Fin lo)) (lib_cast (ne_soltrack (O := O64)) (Fin la))).
  Proof.
    replace (parallax_coef "soltrack") with (#4.2635e-5) by (cbn; q2r).
    assert (C := ne_soltrack_time_D D HD s Hs _ (ofZ_ap D HD _ Hs)). assert (Bd := t_dec_b s Hs Rfloor_mod). rewrite (t_dec_u Rfloor_mod floor_mod_mod_spec) in Bd.
    cbn [ne_soltrack lib_cell lib_1d lib_2d lib_3d lib_time lib_cast]. cbn [cast32 DoubleOps e_fun]. set (tm := ne_soltrack_time _) in *.
    destruct (sc_ra _ _ C) as (k & Hk).
    assert (L := lat_f64 E HE la Hla). fold phi in L. destruct (sc_shift _ _ _ L) as [L1 L2].
    assert (T := st_turn (nem E) k (rnd E lo * (PI / 180)) (nem_mod_spec E)).
    destruct (r_lo E HE lo Hlo) as [Lo1 Lo2]. lapply T; clear T.
    2:{ rewrite <- Rmult_minus_distr_r. eapply Rle_trans; [apply deg_mul, Lo1|]. pose proof pi_b. lra. }
    intros T. 
    assert (X : forall res, raw D false r (#4.2635e-5) (1 / 100000000) (u_dec s) (t_agst s - (u_ra s + 2 * PI * IZR k) + rnd E lo * (PI / 180)) (sin (rnd E la * (PI / 180))) (cos (rnd E la * (PI / 180))) res ->
      pos64 false r (#4.2635e-5) (double_tol "soltrack" "numexpr" la - 1 / 100000000) phi (u_dec s) (hour_angle_of "soltrack" "numexpr" (nem E) t lo) res).
    { intros res Hr. eapply raw_pos; [exact Hr|exact L1|exact L2|exact T| |]; cbn; lra. }
    destruct uc; apply X.
    - eapply ne_soltrack_D2; [exact HD|apply near_dec; [exact (sc_dec _ _ C)|exact Bd]|now apply cos_dec_2|exact Hk|exact (sc_agst _ _ C)|exact Lo2|apply r_la; assumption].
    - eapply ne_soltrack_D; [exact HD|apply near_dec; [exact (sc_dec _ _ C)|exact Bd]|now apply cos_dec_2|exact Hk|exact (sc_agst _ _ C)|exact Lo2|apply r_la; assumption].
    - eapply ne_soltrack_D; [exact HD|apply near_dec; [exact (sc_dec _ _ C)|exact Bd]|now apply cos_dec_2|exact Hk|exact (sc_agst _ _ C)|exact Lo2|apply r_la; assumption].
  Qed.

  (** cos_lat = sqrt(1 - sin_lat**2) *)
  Section Sqrt.
    Variables (p sp : R).
    Hypothesis Hp : Rabs (sp - sin p) <= 1.193 / 10000000.
    Hypothesis Hu : Rabs sp <= 1.
    Definition q_w : R := r32 (1 - r32 (sp * sp)).
    Definition q_c : R := r32 (sqrt q_w).
    Lemma q_facts : 0 <= q_w <= 1 /\ Rabs (q_w - cos p * cos p) <= 3 / 10000000.
    Proof.
      apply Rabs_le_inv in Hu. assert (V0 : 0 <= sp * sp <= 1) by (split; nra).
      assert (V1 : 0 <= r32 (sp * sp) <= 1).
      { split; [rewrite <- (r32_int 0) by lia|rewrite <- (r32_int 1) by lia]; apply r32_mono; lra. }
      assert (V2 := r32_unit (sp * sp) ltac:(lra)). set (v := r32 (sp * sp)) in *.
      assert (W1 : 0 <= q_w <= 1).
      { unfold q_w. fold v. assert (A0 := r32_mono 0 (1 - v) ltac:(lra)). assert (A1 := r32_mono (1 - v) 1 ltac:(lra)). rewrite (r32_int 0) in A0 by lia. rewrite (r32_int 1) in A1 by lia. lra. }
      assert (W2 := r32_unit (1 - v) ltac:(lra)). unfold q_w in *. fold v in W1 |- *. split; [exact W1|].
      pose proof (SIN_bound p) as Bp. pose proof (sc1 p) as Sp.
      assert (D4 : Rabs (sp * sp - sin p * sin p) <= 1.193 / 10000000 * 2).
      { replace (sp * sp - sin p * sin p) with ((sp - sin p) * (sp + sin p)) by ring. rewrite Rabs_mult.
        assert (Rabs (sp + sin p) <= 2) by (apply Rabs_le; lra). apply Rmult_le_compat; try apply Rabs_pos; assumption. }
      apply Rabs_le_inv in D4, V2, W2. apply Rabs_le. nra.
    Qed.
    Lemma q_c_err q : Rabs (p - q) <= 4.7 / 10000000 -> 0 <= cos q ->
      Rabs q_c <= 1 /\ Rabs (q_c - cos q) <= 5.6 / 10000 /\ (0.17 <= cos q -> Rabs (q_c - cos q) <= 2.4 / 1000000).
    Proof.
      intros Hq Hc. destruct q_facts as (W & H). assert (Q0 := sqrt_pos q_w).
      assert (Q1 : sqrt q_w <= 1) by (rewrite <- sqrt_1; apply sqrt_le_1_alt; lra).
      split; [apply (r32_bound _ 1); [lia|apply Rabs_le; lra]|].
      assert (R1 := r32_unit (sqrt q_w) ltac:(lra)). fold q_c in R1.
      assert (C1 := cos_lip p q). assert (C2 := Rabs_triang_inv (cos p) (cos q)). assert (C3 := Rabs_triang_inv (cos q) (cos p)).
      rewrite (Rabs_minus_sym (cos q)) in C3. rewrite (Rabs_pos_eq (cos q)) in C2, C3 by exact Hc.
      set (c := Rabs (cos p)) in *. assert (Hcc : cos p * cos p = c * c) by (unfold c; rewrite <- Rabs_mult, Rabs_pos_eq; [reflexivity|apply Rle_0_sqr]).
      assert (Hc0 : 0 <= c) by apply Rabs_pos. rewrite Hcc in H.
      assert (Qs := sqrt_sqrt q_w ltac:(lra)). set (w := sqrt q_w) in *. rewrite <- Qs in H.
      replace (w * w - c * c) with ((w - c) * (w + c)) in H by ring. rewrite Rabs_mult, (Rabs_pos_eq (w + c)) in H by lra.
      assert (A := Rabs_pos (w - c)). assert (A2 : Rabs (w - c) <= w + c) by (apply Rabs_le; lra).
      assert (T : forall b, Rabs (w - c) <= b -> Rabs (q_c - cos q) <= b + 5.02 / 10000000).
      { intros b Hb. assert (X := tri3 _ _ _ _ _ R1 Hb). assert (Y : Rabs (c - cos q) <= 4.7 / 10000000) by (apply Rabs_le; lra).
        assert (Z := tri3 _ _ _ _ _ X Y). lra. }
      split.
      - eapply Rle_trans; [apply (T (5.5 / 10000))|lra]. assert (Rabs (w - c) * Rabs (w - c) <= 3 / 10000000) by nra. nra.
      - intros H17. eapply Rle_trans; [apply (T (1.8 / 1000000))|lra]. assert (0.1699 <= w + c) by lra. nra.
    Qed.
  End Sqrt.

  Lemma pos_pysol uc r : pos64 false r (parallax_coef "soltrack") (double_tol "soltrack" "numpy" la - 1 / 100000000) phi (u_dec s) (hour_angle_of "soltrack" "numpy" (nem E) t lo)
    (lib_cell (py_soltrack (O := O64)) uc r (lib_time (py_soltrack (O := O64)) (sec_of t)) (lib_cast (py_soltrack (O := O64)) (Fin lo)) (lib_cast (py_soltrack (O := O64)) (Fin la))).
  Proof.
    replace (parallax_coef "soltrack") with (#4.2635e-5) by (cbn; q2r).
    assert (C := py_soltrack_time_D D HD s Hs _ (ofZ_ap D HD _ Hs)). assert (Bd := t_dec_b s Hs Rfloor_mod). rewrite (t_dec_u Rfloor_mod floor_mod_mod_spec) in Bd.
    replace (lib_cell (py_soltrack (O := O64)) uc) with (lib_2d (py_soltrack (O := O64))) by (destruct uc; reflexivity).
    cbn [py_soltrack lib_2d lib_time lib_cast]. cbn [cast32 DoubleOps e_fun]. set (tm := py_soltrack_time _) in *.
    destruct (sc_ra _ _ C) as (k & Hk). destruct radf_lo as [Lo1 Lo2]. set (lr := radf D (rnd E lo)) in *.
    assert (L := radf_la). set (p := radf D (rnd E la)) in *. 
    assert (Es : Rabs (sinf D p - sin p) <= 1.193 / 10000000) by (eapply Rle_trans; [apply (dl_sinf D HD)|exact two23]).
    assert (Us := unit_abs (sinf D) p (proj2 (dl_sinf D HD))).
    destruct (q_c_err p (sinf D p) Es Us phi L (cos_lat_pos la Hla)) as (Q1 & Q2 & Q3).
    assert (L1 := near_sin (sinf D) _ _ _ (proj1 (dl_sinf D HD)) L).
    assert (T := st_turn Rfloor_mod k lr floor_mod_mod_spec Lo1).
    assert (X := py_soltrack_D D HD r tm (u_dec s) (u_ra s + 2 * PI * IZR k) (t_agst s) (rnd E lo) (rnd E la) (near_dec _ _ (sc_dec _ _ C) Bd) (cos_dec_2 _ Bd) Hk (sc_agst _ _ C)
      (sinf D p) (q_c (sinf D p)) lr Us Q1 Lo2 eq_refl eq_refl).
    lapply X; clear X.
    2:{ unfold sqrt32, sub32, mul32. cbn [cast32 sub mul fsqrt lit DoubleOps].
        destruct (q_facts p (sinf D p) Es Us) as (W & _). 
        replace (Q2R 1.0) with (IZR 1) by q2r. rewrite (dl_int D HD 1) by lia. rewrite fin_mul, (rd_fin_s D HD) by (assert (U2 : Rabs (sinf D p * sinf D p) <= 1 * 1) by (rewrite Rabs_mult; apply Rmult_le_compat; try apply Rabs_pos; exact Us); lra). cbn [e_fun]. fold (r32 (sinf D p * sinf D p)). rewrite fin_sub.
        rewrite (rd_fin_s D HD) by (assert (V1 := r32_bound (sinf D p * sinf D p) 1 ltac:(lia) ltac:(rewrite Rabs_mult, <- (Rmult_1_l 1); apply Rmult_le_compat; try apply Rabs_pos; exact Us)); apply Rabs_le_inv in V1; apply Rabs_le; lra). cbn [e_fun].
        fold (r32 (sinf D p * sinf D p)). fold (r32 (1 - r32 (sinf D p * sinf D p))). fold (q_w (sinf D p)).
        rewrite fin_sqrt by lra. rewrite (rd_fin_s D HD) by (assert (Q0 := sqrt_pos (q_w (sinf D p))); assert (Q9 : sqrt (q_w (sinf D p)) <= 1) by (rewrite <- sqrt_1; apply sqrt_le_1_alt; lra); apply Rabs_le; lra). reflexivity. }
    intros X. cbn. destruct (Rle_dec (Rabs la) 80) as [H8|H8].
    - eapply raw_pos; [exact X|exact L1|exact (Q3 (cos_80 _ H8))|exact T| |]; lra.
    - eapply raw_pos; [exact X|exact L1|exact Q2|exact T| |]; lra.
  Qed.

  (** ** iqbal *)
  Let z := sec_of t.
  Definition rad32 : R := r64 D (r64 D PI / r64 D (Q2R 180.0)).
  Lemma rad32_ok : IQ_RAD (O := O64) = Fin rad32 /\ Rabs (rad32 - PI / 180) <= 1 / 1000000000000.
  Proof.
    assert (IQ_RAD (O := O64) = Fin rad32).
    { unfold IQ_RAD, PI_, rad32. cbn [fpi lit div DoubleOps]. replace (Q2R 180.0) with (IZR 180) by q2r. rewrite (dl_int D HD 180) by lia. rewrite fin_div by lra. apply (rd_fin_s D HD). assert (X := r64_abs PI 4 ltac:(pose proof pi_b; apply Rabs_le; lra) ltac:(lra)). pose proof pi_b. apply Rabs_le_inv in X. apply Rabs_le. lra. }
    split; [exact H|]. destruct (ap_IQ_RAD D HD) as (v & E1 & E2 & _). rewrite H in E1. injection E1 as <-. eapply Rle_trans; [exact E2|].
    unfold Rz, u90, S90. let z := eval vm_compute in iqradE in change iqradE with z. lra.
  Qed.
  Definition q_lat : R := r32 (rnd E la * rnd E rad32).
  Lemma q_lat_err : Rabs (q_lat - phi) <= 2.91 / 10000000.
  Proof.
    destruct rad32_ok as [_ K0]. pose proof pi_b as HP. set (k0 := rad32) in *. apply Rabs_le_inv in K0.
    assert (C := rl_abs E HE k0 0.0175 ltac:(apply Rabs_le; lra)). destruct HE as (_ & HR & _). assert (C' := HR k0).
    assert (C2 : Rabs k0 <= 0.017454) by (apply Rabs_le; lra).
    assert (K : Rabs (rnd E k0 - PI / 180) <= 0.017454 / 16777216 + 2 / 1000000000000). { apply Rabs_le_inv in C'. apply Rabs_le. lra. }
    unfold q_lat. set (k := rnd E k0) in *. destruct (r_la E HE la Hla) as [L1 L2].
    assert (K' : Rabs k <= 0.0175). { apply Rabs_le_inv in K. apply Rabs_le. lra. }
    assert (B : Rabs (rnd E la * k) <= 90 * 0.0175) by (rewrite Rabs_mult; apply Rmult_le_compat; try apply Rabs_pos; assumption).
    assert (H1 := r32_abs _ _ B ltac:(lra)).
    assert (H2 : Rabs (rnd E la * k - rnd E la * (PI / 180)) <= 90 * (0.017454 / 16777216 + 2 / 1000000000000)).
    { rewrite <- Rmult_minus_distr_l, Rabs_mult. apply Rmult_le_compat; try apply Rabs_pos; assumption. }
    assert (H3 := lat_f64 E HE la Hla). fold phi in H3. assert (X := tri3 _ _ _ _ _ (tri3 _ _ _ _ _ H1 H2) H3). eapply Rle_trans; [exact X|]. clear. lra.
  Qed.

  Lemma iq_turn l15 j : Rabs (15 * l15 - lo) <= 21.5 / 1000000 ->
    near_turn ((i_std z + l15 + i_eoth z + 24 * IZR j - #12.0) * #15.0 * (PI / 180)) (i_H (i_std z) (i_eoth z) lo) (3.8 / 10000000).
  Proof.
    intros Hl. assert (He : -0.3 <= i_eoth z <= 0.3) by (pose proof (i_eot_b (i_ang z)); unfold i_eoth; q2; lra).
    unfold i_H. destruct (i_lat_spec (i_std z) (lo / #15.0) (i_eoth z) (i_std_b _)) as [_ (k & ->)]; [q2; lra|exact He|].
    exists (j - k)%Z. match goal with |- Rabs ?x <= _ => replace x with ((15 * l15 - lo) * (PI / 180)) by (rewrite minus_IZR; q2; field) end.
    eapply Rle_trans; [apply deg_mul, Hl|]. pose proof pi_b. lra.
  Qed.

  Lemma iq_pos eng r tm LO l15 sl cl res : 
    iq_close z tm -> apb LO l15 (13 * S90) (2 ^ 50) -> Rabs (15 * l15 - lo) <= 21.5 / 1000000 ->
    Rabs sl <= 1 -> Rabs cl <= 1 -> Rabs (sl - sin phi) <= 4.2 / 10000000 -> Rabs (cl - cos phi) <= 4.2 / 10000000 ->
    ((forall j, raw D false r 0 (1 / 100000000) (i_dec z) ((i_std z + l15 + i_eoth z + 24 * IZR j - #12.0) * #15.0 * (PI / 180)) sl cl res -> 
       pos64 false r (parallax_coef "iqbal") (double_tol "iqbal" eng la - 1 / 100000000) phi (i_dec z) (hour_angle_of "iqbal" eng (nem E) t lo) res)).
  Proof.
    intros C HL Hl H1 H2 S1 S2 j Hr. eapply raw_pos; [exact Hr|exact S1|exact S2|exact (iq_turn l15 j Hl)| |]; cbn; lra.
  Qed.
  Lemma i_dec_2 : -0.41 <= i_dec z <= 0.41.
  Proof. pose proof (i_dec_b (i_ang z)) as H. exact H. Qed.
  Lemma i_std_2 tm : iq_close z tm -> near_b (iq_std tm) (i_std z) tol9 24.
  Proof. intros C. split; [exact (ic_std _ _ C)|]. pose proof (i_std_b z). apply Rabs_le. lra. Qed.
  Lemma i_eot_2 tm : iq_close z tm -> near_b (iq_eot tm) (i_eoth z) tol9 1.
  Proof. intros C. split; [exact (ic_eot _ _ C)|]. pose proof (i_eot_b (i_ang z)). unfold i_eoth. q2. apply Rabs_le. lra. Qed.
  (** longitude / 15, in float32 and in float64 *)
  Lemma l15_64 : exists l, div (Ops := O64) (Fin (rnd E lo)) (lit (Ops := O64) 15.0) = Fin (r64 D l) /\ 15 * l = rnd E lo /\ Rabs l <= 12.
  Proof.
    exists (rnd E lo / 15). destruct (r_lo E HE lo Hlo) as [_ L2]. cbn [div lit DoubleOps]. replace (Q2R 15.0) with (IZR 15) by q2r. rewrite (dl_int D HD 15) by lia.
    apply Rabs_le_inv in L2. rewrite fin_div by lra. split; [apply (rd_fin_s D HD); apply Rabs_le; lra|]. split; [field|]. apply Rabs_le. lra.
  Qed.
  Lemma r2_50 : 2 / 10000000000000 <= Rz (2 ^ 50).
  Proof. unfold Rz, u90, S90. let z := eval vm_compute in (2 ^ 50)%Z in change (2 ^ 50)%Z with z. lra. Qed.
  Lemma lon_D64 : exists l, apb (div (Ops := O64) (Fin (rnd E lo)) (lit (Ops := O64) 15.0)) l (13 * S90) (2 ^ 50) /\ Rabs (15 * l - lo) <= 21.5 / 1000000.
  Proof.
    destruct l15_64 as (l & -> & E15 & Bl). exists l. split; [|rewrite E15; destruct (r_lo E HE lo Hlo); lra].
    apply ap_fin; [|rewrite Rz_k; lra]. eapply Rle_trans; [apply (r64_abs l 12 Bl); lra|exact r2_50].
  Qed.
  Lemma lon_D32 : exists l, apb (@div32 ext O64 (Fin (rnd E lo)) (lit (Ops := O64) 15.0)) l (13 * S90) (2 ^ 50) /\ Rabs (15 * l - lo) <= 21.5 / 1000000.
  Proof.
    destruct l15_64 as (l & El & E15 & Bl). exists (r32 l). unfold div32. rewrite El. cbn [cast32 DoubleOps e_fun]. fold (r32 l). split.
    - eapply ap_le with (e := 0%Z); [|apply Z.leb_refl|vm_compute; reflexivity]. apply exact_apb. rewrite Rz_k. assert (X := r32_bound l 12 ltac:(lia) Bl). lra.
    - assert (X := r32_abs l 12 Bl ltac:(lra)). destruct (r_lo E HE lo Hlo) as [L1 _]. apply Rabs_le_inv in X, L1. apply Rabs_le. lra.
  Qed.
  Lemma lat_eq : @mul32 ext O64 (Fin (rnd E la)) (cast32 (Ops := O64) (IQ_RAD (O := O64))) = Fin q_lat.
  Proof.
    destruct rad32_ok as [-> K0]. unfold mul32. cbn [cast32 mul DoubleOps e_fun]. rewrite fin_mul, (rd_fin_s D HD); [reflexivity|].
    apply Rabs_le_inv in K0. pose proof pi_b as HP. assert (C := rl_abs E HE rad32 0.0175 ltac:(apply Rabs_le; lra)). apply Rabs_le_inv in C.
    destruct (r_la E HE la Hla) as [_ L2]. eapply Rle_trans with (90 * 1); [|lra]. rewrite Rabs_mult. apply Rmult_le_compat; try apply Rabs_pos; [exact L2|]. apply Rabs_le. lra.
  Qed.

  Ltac iq_fin C HL Hl f g Hf Hg := 
    let S1 := fresh in let S2 := fresh in
    assert (S1 := near_sin f _ _ _ (proj1 Hf) q_lat_err); assert (S2 := near_cos g _ _ _ (proj1 Hg) q_lat_err);
    edestruct (iq_shape D HD) as (j & Hj); 
      [apply near_dec; [exact (ic_dec _ _ C)|exact i_dec_2]|exact (cos_dec_2 _ i_dec_2)|exact (i_std_2 _ C)|exact (i_eot_2 _ C)
      |apply (unit_abs f q_lat), Hf|apply (unit_abs g q_lat), Hg|exact HL| |
       eapply iq_pos; [exact C|exact HL|exact Hl|apply (unit_abs f q_lat), Hf|apply (unit_abs g q_lat), Hg|lra|lra|exact Hj]].

  Lemma pos_pyiq uc r : pos64 false r (parallax_coef "iqbal") (double_tol "iqbal" "numpy" la - 1 / 100000000) phi (i_dec z) (hour_angle_of "iqbal" "numpy" (nem E) t lo)
    (lib_cell (py_iqbal (O := O64)) uc r (lib_time (py_iqbal (O := O64)) (sec_of t)) (lib_cast (py_iqbal (O := O64)) (Fin lo)) (lib_cast (py_iqbal (O := O64)) (Fin la))).
  Proof.
    assert (C := py_iqbal_time_D D HD z).
    replace (lib_cell (py_iqbal (O := O64)) uc) with (lib_2d (py_iqbal (O := O64))) by (destruct uc; reflexivity).
    cbn [py_iqbal lib_2d lib_time lib_cast]. fold z. set (tm := py_iqbal_time _) in *. cbn [cast32 DoubleOps e_fun].
    destruct lon_D32 as (l & HL & Hl).
    iq_fin C HL Hl (sinf D) (cosf D) (dl_sinf D HD) (dl_cosf D HD).
    cbv beta zeta delta [py_iqbal_2d]. rewrite lat_eq. reflexivity.
  Qed.

  Lemma pos_neiq uc r : pos64 false r (parallax_coef "iqbal") (double_tol "iqbal" "numexpr" la - 1 / 100000000) phi (i_dec z) (hour_angle_of "iqbal" "numexpr" (nem E) t lo)
    (lib_cell (ne_iqbal (O := O64)) uc r (lib_time (ne_iqbal (O := O64)) (sec_of t)) (lib_cast (ne_iqbal (O := O64)) (Fin lo)) (lib_cast (ne_iqbal (O := O64)) (Fin la))).
  Proof.
    assert (C := ne_iqbal_time_D D HD z).
    cbn [ne_iqbal lib_cell lib_1d lib_2d lib_3d lib_time lib_cast]. fold z. set (tm := ne_iqbal_time _) in *. cbn [cast32 DoubleOps e_fun].
    destruct lon_D32 as (l & HL & Hl). destruct lon_D64 as (l' & HL' & Hl').
    destruct uc; cbv iota.
    - iq_fin C HL Hl (nesinf D) (necosf D) (dl_nesinf D HD) (dl_necosf D HD).
      cbv beta iota zeta delta [lib_cell lib_2d ne_iqbal ne_iqbal_2d]. rewrite lat_eq. reflexivity.
    - iq_fin C HL Hl (nesinf D) (necosf D) (dl_nesinf D HD) (dl_necosf D HD).
      cbv beta iota zeta delta [lib_cell lib_3d ne_iqbal ne_iqbal_3d]. rewrite lat_eq. reflexivity.
    - iq_fin C HL' Hl' (nesinf D) (necosf D) (dl_nesinf D HD) (dl_necosf D HD).
      cbv beta iota zeta delta [lib_cell lib_1d ne_iqbal ne_iqbal_1d]. rewrite lat_eq. reflexivity.
  Qed.
End Pos.
