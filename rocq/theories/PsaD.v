(** * PsaD: psa in double precision *)

From Coq Require Import ZArith QArith Reals Bool List Lra Lia.
From Flocq Require Import Core.Raux.
From Interval Require Import Tactic.
From Verif Require Import Num Ext ExtLemmas Sky SkyClose AstroTac AstroSpec SingleSpec Double DoubleTac DoubleLemmas Psa PsaR.
Open Scope R_scope.

Definition bS : Z := (9223372037 * S90)%Z.
Lemma ofZ_ap D (HD : double_like D) (z : Z) : in_ns_range (IZR z) -> apb (ofZ (Ops := DoubleOps D) z) (IZR z) bS 0.
Proof.
  intros H. unfold in_ns_range in H. assert (Hz : (-9223372037 <= z <= 9223372037)%Z) by (split; apply le_IZR; lra).
  apply (ap_ofZ D HD).
  - apply Z.abs_le. change (2 ^ 53)%Z with 9007199254740992%Z. lia.
  - unfold bS, Rz. rewrite mult_IZR, Rmult_assoc. fold (Rz S90). rewrite Rz_S. apply Rabs_le. lra.
Qed.

Definition tol9 : R := / 1000000000.
Record psa_close (s : R) (t : psa_time) : Prop := {
  pc_delta : near (psa_delta t) (p_delta s) tol9;
  pc_ra    : exists k : Z, near_b (psa_ra t) (p_ra0 s + 2 * PI * IZR k) tol9 11;
  pc_gmst  : exists k : Z, near_b (psa_gmst t) (#6.697096103 + #6.570984737e-2 * p_jde s + (s / #86400 - IZR k * #1) * #24) tol9 8000;
  pc_eot   : near (psa_eot t) (p_eot s) (10 * tol9);
  pc_ecf   : near (psa_ecf t) (p_ecf s) tol9 }.


(** The quadrant-free reductions of psa. *)
Section Turn.
  Variable D : Env64.
  Hypothesis HD : double_like D.
  Notation O64 := (DoubleOps D).
  Lemma Rz_k k : Rz (k * S90) = IZR k.
  Proof. unfold Rz. rewrite mult_IZR, Rmult_assoc. fold (Rz S90). rewrite Rz_S. ring. Qed.
  Definition jE : Z := Eval vm_compute in rdE (1010 * S90).

  (** ra := where(ra < 0, ra + 2 pi, ra). *)
  Lemma ap_ra y a (k : Z) b e q : q = 0%Q \/ q = 0.0%Q -> apb y (a + 2 * PI * IZR k) b e -> (b <=? 4 * S90)%Z = true -> (e <=? S90 / 1024 / 1024)%Z = true -> Rabs (a + 2 * PI * IZR k) <= PI + 0.0001 ->
    exists k' : Z, apb (where_ (flt (Ops := O64) y (lit (Ops := O64) q)) (add (Ops := O64) y (TWOPI (O := O64))) y) (a + 2 * PI * IZR k') (11 * S90)
      (e + twopiE + rdE (b + twopiB + (e + twopiE))) /\ -0.001 <= a + 2 * PI * IZR k' <= 2 * PI + 0.001.
  Proof.
    intros Hq H Hb He HP. apply Z.leb_le in Hb, He. assert (N := apb_nonneg _ _ _ _ H).
    assert (L : (0 <= rdE (b + twopiB + (e + twopiE)))%Z).
    { unfold rdE. assert (0 <= twopiB /\ 0 <= twopiE)%Z by (vm_compute; split; discriminate).
      assert (0 <= (b + twopiB + (e + twopiE)) / 2 ^ 53)%Z by (apply Z.div_pos; [lia|reflexivity]). lia. }
    assert (P3 : 3.14 < PI < 3.142) by (split; interval). assert (P2 : (0 <= twopiE)%Z) by (vm_compute; discriminate).
    assert (Ee : Rz e <= 0.0001).
    { apply Rz_le in He. eapply Rle_trans; [exact He|]. unfold Rz, u90, S90. 
      let z := eval vm_compute in (1237940039285380274899124224 / 1024 / 1024)%Z in change (1237940039285380274899124224 / 1024 / 1024)%Z with z. lra. }
    destruct (H) as (v & E1 & E2 & E3). 
    assert (F : flt (Ops := O64) y (lit (Ops := O64) q) = Rltb v 0).
    { rewrite E1. cbn [flt lit DoubleOps]. rewrite fin_lt. f_equal. replace (Q2R q) with (IZR 0) by (destruct Hq as [-> | ->]; q2r). apply (dl_int D HD). vm_compute. discriminate. }
    rewrite F. apply Rabs_le_inv in E2. apply Rabs_le_inv in HP. destruct (Rltb_spec v 0) as [C|C]; cbn [where_].
    - exists (k + 1)%Z. assert (Ho : fits64 (b + twopiB) (e + twopiE) = true) by (apply (fits64_mono (4 * S90 + twopiB) (S90 / 1024 / 1024 + twopiE)); [vm_compute; reflexivity|lia|lia]).
      assert (X := ap_add D HD _ _ _ _ _ _ _ _ H (ap_TWOPI D HD) Ho). rewrite plus_IZR.
      replace (a + 2 * PI * (IZR k + 1)) with (a + 2 * PI * IZR k + 2 * PI) by ring. split; [|lra].
      eapply ap_le; [exact X| |apply Z.leb_refl]. apply Z.leb_le. assert (twopiB <= 7 * S90)%Z by (vm_compute; discriminate). lia.
    - exists k. split; [|lra]. eapply ap_le; [exact H| |]; apply Z.leb_le; assert (0 < S90)%Z by reflexivity; lia.
  Qed.

  (** L reduced to one turn with int32 truncation. *)
  Lemma ap_turn y L b e q q1 : q = 0%Q \/ q = 0.0%Q -> q1 = 1.0%Q -> apb y L b e -> (b <=? 2500 * S90)%Z = true -> (e <=? S90 / 1024 / 1024)%Z = true ->
    let dX := ftrunc (Ops := O64) (div (Ops := O64) (fabs (Ops := O64) y) (TWOPI (O := O64))) in
    exists j : Z, apb (where_ (flt (Ops := O64) y (lit (Ops := O64) q)) (add (Ops := O64) (lit (Ops := O64) q1) dX) (neg (Ops := O64) dX)) (IZR j) (1000 * S90) jE
      /\ -0.001 <= L + 2 * PI * IZR j <= 2 * PI + 0.001.
  Proof.
    intros Hq Hq1 H Hb He. assert (N := apb_nonneg _ _ _ _ H).
    assert (Ap := ap_abs D _ _ _ _ H).
    assert (Lo : Rz (6 * S90) <= Rabs (2 * PI)) by (rewrite Rz_k, Rabs_pos_eq by (pose proof PI_RGT_0; lra); assert (3.14 < PI) by interval; lra).
    assert (Ne : (0 < 6 * S90 - twopiE)%Z) by reflexivity.
    assert (Bv : (divB b (6 * S90) <= 420 * S90)%Z).
    { apply Z.leb_le in Hb. unfold divB. assert (b * S90 / (6 * S90) <= 2500 * S90 * S90 / (6 * S90))%Z by (apply Z.div_le_mono; [reflexivity|apply Z.mul_le_mono_nonneg_r; [discriminate|lia]]).
      assert (2500 * S90 * S90 / (6 * S90) + 1 <= 420 * S90)%Z by (vm_compute; discriminate). lia. }
    apply Z.leb_le in Hb, He.
    assert (De : (divE b (6 * S90) e twopiE <= S90 / 1024 / 1024)%Z).
    { unfold divE. assert (X : ((e * S90 + divB b (6 * S90) * twopiE) / (6 * S90 - twopiE) <= (S90 / 1024 / 1024 * S90 + 420 * S90 * twopiE) / (6 * S90 - twopiE))%Z).
      { apply Z.div_le_mono; [exact Ne|]. apply Z.add_le_mono; apply Z.mul_le_mono_nonneg_r; (discriminate || lia). }
      assert ((S90 / 1024 / 1024 * S90 + 420 * S90 * twopiE) / (6 * S90 - twopiE) + 1 <= S90 / 1024 / 1024)%Z by (vm_compute; discriminate). lia. }
    assert (Ho : fits64 (divB b (6 * S90)) (divE b (6 * S90) e twopiE) = true) by (apply (fits64_mono (420 * S90) (S90 / 1024 / 1024)); [vm_compute; reflexivity|lia|lia]).
    assert (Dv := ap_div D HD _ _ _ _ _ _ _ _ _ Ap (ap_TWOPI D HD) Lo eq_refl Ho).
    assert (Dv' : apb (div (Ops := O64) (fabs (Ops := O64) y) (TWOPI (O := O64))) (Rabs L / (2 * PI)) (420 * S90) (S90 / 1024 / 512)).
    { eapply ap_le; [exact Dv|now apply Z.leb_le|]. apply Z.leb_le. unfold rdE.
      assert ((divB b (6 * S90) + divE b (6 * S90) e twopiE) / 2 ^ 53 <= (420 * S90 + S90 / 1024 / 1024) / 2 ^ 53)%Z by (apply Z.div_le_mono; [reflexivity|lia]).
      assert (S90 / 1024 / 1024 + ((420 * S90 + S90 / 1024 / 1024) / 2 ^ 53 + 2) <= S90 / 1024 / 512)%Z by (vm_compute; discriminate). lia. }
    clear Dv De Bv. assert (Ee : Rz e <= 0.000001).
    { apply Rz_le in He. eapply Rle_trans; [exact He|]. unfold Rz, u90, S90. 
      let z := eval vm_compute in (1237940039285380274899124224 / 1024 / 1024)%Z in change (1237940039285380274899124224 / 1024 / 1024)%Z with z. lra. }
    assert (P3 : 3.14 < PI < 3.142) by (split; interval).
    destruct H as (v & Ey & H1 & H2). 
    destruct Dv' as (w & Ew & D1 & D2). cbv zeta. rewrite Ew. cbn [ftrunc DoubleOps]. rewrite fin_fun.
    assert (D3 : Rabs (w - Rabs L / (2 * PI)) <= 0.000002).
    { eapply Rle_trans; [exact D1|]. unfold Rz, u90, S90. let z := eval vm_compute in (1237940039285380274899124224 / 1024 / 512)%Z in change (1237940039285380274899124224 / 1024 / 512)%Z with z. lra. }
    assert (W0 : 0 <= w).
    { revert Ew. rewrite Ey. cbn [fabs div DoubleOps e_abs]. destruct (ap_TWOPI D HD) as (p & Ep & Hp & _). rewrite Ep.
      assert (Hp0 : 0 < p). { apply Rabs_le_inv in Hp. assert (Rz twopiE <= 1) by (rewrite <- Rz_S; apply Rz_le; vm_compute; discriminate). lra. }
      rewrite fin_div by lra. cbn [e_rd]. intros ->%fin64_inv. rewrite <- (dl_int D HD 0) by (vm_compute; discriminate). apply (dl_mono D HD).
      apply Rle_mult_inv_pos; [apply Rabs_pos|exact Hp0]. }
    rewrite Ztrunc_floor by exact W0. set (n := Zfloor w). assert (F1 := Zfloor_lb w). assert (F2 := Zfloor_ub w). fold n in F1, F2.
    assert (W1 : w <= 421).
    { rewrite Rz_k in D2. apply Rabs_le_inv in D2, D3. lra. }
    assert (Hn : (0 <= n <= 421)%Z).
    { split; [apply Zfloor_lub; exact W0|]. apply le_IZR. lra. }
    assert (Nn : apb (Fin (IZR n)) (IZR n) (421 * S90) 0).
    { apply ap_fin; [rewrite Rminus_diag_eq, Rabs_R0 by reflexivity; unfold Rz; lra|]. rewrite Rz_k. apply Rabs_le. assert (IZR 0 <= IZR n <= IZR 421) by (split; apply IZR_le; lia). lra. }
    assert (F : flt (Ops := O64) y (lit (Ops := O64) q) = Rltb v 0).
    { rewrite Ey. cbn [flt lit DoubleOps]. rewrite fin_lt. f_equal. replace (Q2R q) with (IZR 0) by (destruct Hq as [-> | ->]; q2r). apply (dl_int D HD). vm_compute. discriminate. }
    rewrite F. apply Rabs_le_inv in H1.
    assert (X : 2 * PI * IZR n <= Rabs L + 0.0001 /\ Rabs L < 2 * PI * IZR n + 2 * PI + 0.0001).
    { set (g := Rabs L / (2 * PI)) in *. assert (G : Rabs L = 2 * PI * g) by (unfold g; field; lra). rewrite G. apply Rabs_le_inv in D3. split; nra. }
    destruct (Rltb_spec v 0) as [C|C]; cbn [where_].
    - exists (1 + n)%Z. rewrite plus_IZR. split.
      + assert (Y := ap_add D HD _ _ _ _ _ _ _ _ (ap_lit D HD 1.0) Nn eq_refl). subst q1. eapply ap_eq in Y; [eapply ap_le; [exact Y| |]; vm_compute; reflexivity|]. f_equal. q2r.
      + assert (Rabs L <= - L + 0.00001) by (unfold Rabs; destruct (Rcase_abs L); lra). assert (- L <= Rabs L) by (rewrite <- Rabs_Ropp; apply Rle_abs). lra.
    - exists (- n)%Z. rewrite opp_IZR. split.
      + eapply ap_le; [apply (ap_neg D); exact Nn| |]; vm_compute; reflexivity.
      + assert (Rabs L <= L + 0.00001) by (unfold Rabs; destruct (Rcase_abs L); lra). assert (L <= Rabs L) by apply Rle_abs. lra.
  Qed.
End Turn.
Ltac low := unfold Rz, u90; rewrite ?Rabs_pos_eq by (first [interval | q2; lra]); first [interval | q2; lra].

Ltac tol := unfold Rz, u90, tol9, S90; match goal with |- IZR ?z * _ <= _ => let z' := eval vm_compute in z in change z with z' end; lra.

Section Psa.
  Variable D : Env64.
  Hypothesis HD : double_like D.
  Variable s : R.
  Hypothesis Hs : in_ns_range s.

  Lemma eot_ref (j k : Z) : exists n : Z, p_L s + 2 * PI * IZR j - (p_ra0 s + 2 * PI * IZR k) = (p_eot s + 1440 * IZR n) * (PI / 720).
  Proof.
    destruct (p_ra_spec s) as [_ (k1 & K1)]. destruct (p_eot_thm s Hs) as [_ (k2 & K2)]. exists (j - k + k1 - k2)%Z.
    rewrite K2, K1, !minus_IZR, plus_IZR, minus_IZR. field. apply PI_neq.
  Qed.
  Lemma den_low : Rz (qlow 0.98) <= Rabs (#1.0 + p_ecc s * cos (p_ma s + p_sec s)).
  Proof. assert (H := p_den_b s Hs). rewrite Rabs_pos_eq by lra. let z := eval vm_compute in (qlow 0.98) in change (qlow 0.98) with z. unfold Rz, u90, S90. lra. Qed.
  Lemma R_low : Rz (qlow 0.96) <= Rabs (p_R s ^ 2).
  Proof. assert (H := p_R_b s Hs). rewrite Rabs_pos_eq by nra. let z := eval vm_compute in (qlow 0.96) in change (qlow 0.96) with z. unfold Rz, u90, S90. nra. Qed.
  Lemma ra_norm : 1 / 2 <= cos (p_ep s) * sin (p_l s) * (cos (p_ep s) * sin (p_l s)) + cos (p_l s) * cos (p_l s).
  Proof.
    assert (Hep : 0.917 <= cos (p_ep s)) by (pose proof (p_ep_b s Hs); generalize dependent (p_ep s); intros x Hx; interval).
    assert (S := sc1 (p_l s)). set (c := cos (p_ep s)) in *. replace (_ + _) with (1 - (1 - c * c) * (sin (p_l s) * sin (p_l s))) by nra. 
    assert (0.84 <= c * c) by nra. assert (0 <= sin (p_l s) * sin (p_l s) <= 1) by nra. nra.
  Qed.

  Lemma ne_psa_time_D S0 : apb S0 s bS 0 -> psa_close s (ne_psa_time (O := DoubleOps D) S0).
  Proof.
    intros H0. cbv beta delta [ne_psa_time]. assert (DL := den_low). assert (RL := R_low).
    dl D HD (p_jde s).
    (* decimal hour *)
    edestruct (ap_nemod D (div (Ops := DoubleOps D) S0 (lit (Ops := DoubleOps D) 86400)) (lit (Ops := DoubleOps D) 1)) as (k & Hk);
      [ap D HD|ap D HD|apply (Q2R_low 1 eq_refl)|vm_compute; reflexivity|]. norm_in Hk. revert Hk.
    generalize (nemod (Ops := DoubleOps D) (div (Ops := DoubleOps D) S0 (lit (Ops := DoubleOps D) 86400)) (lit (Ops := DoubleOps D) 1)). intros M Hk.
    dl D HD ((s / #86400 - IZR k * #1) * #24).
    dl D HD (#6.697096103 + #6.570984737e-2 * p_jde s + (s / #86400 - IZR k * #1) * #24).
    dl D HD (p_omega s). dl D HD (p_L s). dl D HD (p_g s). dl D HD (p_l s). dl D HD (p_ep s).
    (* right ascension *)
    lazymatch goal with |- _ (let x := fatan2 ?a ?b in _) => edestruct (ap_atan2 D HD a b) as (k1 & Hk1); [ap D HD|ap D HD|exact ra_norm|vm_compute; reflexivity|] end.
    norm_in Hk1. fold (p_ra0 s) in Hk1.
    lazymatch type of Hk1 with apb ?x ?a ?b ?e => generalize dependent x; intros A0 Hk1; dskip;
      edestruct (ap_ra D HD A0 (p_ra0 s) k1 b e 0 (or_introl eq_refl) Hk1) as (k2 & Hk2 & Bk2); [vm_compute; reflexivity|vm_compute; reflexivity| |] end.
    { destruct Hk1 as (_ & _ & _ & B). eapply Rle_trans; [exact B|]. unfold Rz, u90, S90. interval. }
    norm_in Hk2. 
    lazymatch type of Hk2 with apb ?x _ _ _ => generalize dependent x; intros A1 Hk2; dskip end.
    (* declination *)
    lazymatch goal with |- _ (let x := fasin ?a in _) => assert (Hd : apb a (sin (p_ep s) * sin (p_l s)) (S90 / 2 - 2 ^ 53) (2 ^ 53)) end.
    { eapply ap_le; [ap D HD| |]; vm_compute; reflexivity. }
    apply (ap_asin D HD) in Hd; [|vm_compute; reflexivity]. fold (p_delta s) in Hd.
    lazymatch type of Hd with apb ?x _ _ _ => generalize dependent x; intros A2 Hd; dskip end.
    (* equation of time *)
    lazymatch goal with HL : apb ?x (p_L s) ?b ?e |- _ => edestruct (ap_turn D HD x (p_L s) b e 0.0 1.0 (or_intror eq_refl) eq_refl HL) as (j & Hj & Bj); [vm_compute; reflexivity|vm_compute; reflexivity|] end.
    dskip. lazymatch type of Hj with apb ?x _ _ _ => generalize dependent x; intros A3 Hj end.
    destruct (eot_ref j k2) as (n & Hn). destruct (p_eot_thm s Hs) as [Be _].
    lazymatch goal with |- _ (let x := ?body in _) => eassert (He : apb body _ _ _) by (ap D HD) end.
    norm_in He. eapply ap_eq in He; [|instantiate (1 := p_eot s + 1440 * IZR n); rewrite Hn; q2; field; apply PI_neq].
    assert (Bn : Rabs (p_eot s + 1440 * IZR n) <= Rz (1500 * S90)).
    { rewrite Rz_k. replace (p_eot s + 1440 * IZR n) with ((p_L s + 2 * PI * IZR j - (p_ra0 s + 2 * PI * IZR k2)) * (720 / PI)) by (rewrite Hn; field; apply PI_neq).
      rewrite Rabs_mult. assert (Rabs (p_L s + 2 * PI * IZR j - (p_ra0 s + 2 * PI * IZR k2)) <= 2 * PI + 0.002) by (apply Rabs_le; lra).
      assert (229 <= 720 / PI <= 229.3) by (split; interval). rewrite (Rabs_pos_eq (720 / PI)) by lra. assert (PI < 3.142) by interval.
      pose proof (Rabs_pos (p_L s + 2 * PI * IZR j - (p_ra0 s + 2 * PI * IZR k2))). nra. }
    apply (ap_bnd _ _ _ _ _ ltac:(eassumption)) in Bn. clear He.
    lazymatch type of Bn with apb ?x _ _ _ => generalize dependent x; intros A4 Bn; dskip end.
    dskip. dskip.
    assert (Hw := ap_wrap_gt_first D HD A4 (p_eot s) n _ _ 1440.0 Bn ltac:(lra) ltac:(vm_compute; reflexivity) ltac:(vm_compute; reflexivity) (or_introl eq_refl)).
    cbv zeta in Hw. norm_in Hw. lazymatch type of Hw with apb ?x _ _ _ => generalize dependent x; intros A5 Hw end.
    dl D HD (p_jdc s). dl D HD (p_ecc s). dl D HD (p_ma s). dl D HD (p_sec s). dl D HD (p_R s). dl D HD (p_ecf s).
    constructor; cbn [psa_delta psa_ra psa_gmst psa_eot psa_ecf].
    - eapply apb_near; [exact Hd|tol].
    - exists k2. eapply apb_near_b; [exact Hk2|tol|tol].
    - exists k. eapply apb_near_b; [eassumption|tol|tol].
    - eapply apb_near; [exact Hw|tol].
    - eapply apb_near; [eassumption|tol].
  Qed.
  Lemma py_psa_time_D S0 : apb S0 s bS 0 -> psa_close s (py_psa_time (O := DoubleOps D) S0).
  Proof.
    intros H0. cbv beta delta [py_psa_time]. assert (DL := den_low). assert (RL := R_low).
    dl D HD (p_jde s).
    (* decimal hour *)
    edestruct (ap_npmod D HD (div (Ops := DoubleOps D) S0 (lit (Ops := DoubleOps D) 86400)) (lit (Ops := DoubleOps D) 1)) as (k & Hk);
      [ap D HD|ap D HD|apply (Q2R_low 1 eq_refl)|vm_compute; reflexivity|]. norm_in Hk. revert Hk.
    generalize (npmod (Ops := DoubleOps D) (div (Ops := DoubleOps D) S0 (lit (Ops := DoubleOps D) 86400)) (lit (Ops := DoubleOps D) 1)). intros M Hk.
    dl D HD ((s / #86400 - IZR k * #1) * #24).
    dl D HD (p_omega s). dl D HD (p_L s). dl D HD (p_g s). dl D HD (p_l s). dl D HD (p_ep s). dskip.
    (* right ascension *)
    lazymatch goal with |- _ (let x := fatan2 ?a ?b in _) => edestruct (ap_atan2 D HD a b) as (k1 & Hk1); [ap D HD|ap D HD|exact ra_norm|vm_compute; reflexivity|] end.
    norm_in Hk1. fold (p_ra0 s) in Hk1.
    lazymatch type of Hk1 with apb ?x ?a ?b ?e => generalize dependent x; intros A0 Hk1; dskip;
      edestruct (ap_ra D HD A0 (p_ra0 s) k1 b e 0.0 (or_intror eq_refl) Hk1) as (k2 & Hk2 & Bk2); [vm_compute; reflexivity|vm_compute; reflexivity| |] end.
    { destruct Hk1 as (_ & _ & _ & B). eapply Rle_trans; [exact B|]. unfold Rz, u90, S90. interval. }
    norm_in Hk2. 
    lazymatch type of Hk2 with apb ?x _ _ _ => generalize dependent x; intros A1 Hk2; dskip end.
    (* declination *)
    lazymatch goal with |- _ (let x := fasin ?a in _) => assert (Hd : apb a (sin (p_ep s) * sin (p_l s)) (S90 / 2 - 2 ^ 53) (2 ^ 53)) end.
    { eapply ap_le; [ap D HD| |]; vm_compute; reflexivity. }
    apply (ap_asin D HD) in Hd; [|vm_compute; reflexivity]. fold (p_delta s) in Hd.
    lazymatch type of Hd with apb ?x _ _ _ => generalize dependent x; intros A2 Hd; dskip end.
    dl D HD (#6.697096103 + #6.570984737e-2 * p_jde s + (s / #86400 - IZR k * #1) * #24).
    dl D HD (p_jdc s). dl D HD (p_ecc s). dl D HD (p_ma s). dl D HD (p_sec s). dl D HD (p_R s). dl D HD (p_ecf s).
    (* equation of time *)
    lazymatch goal with HL : apb ?x (p_L s) ?b ?e |- _ => edestruct (ap_turn D HD x (p_L s) b e 0.0 1.0 (or_intror eq_refl) eq_refl HL) as (j & Hj & Bj); [vm_compute; reflexivity|vm_compute; reflexivity|] end.
    dskip. lazymatch type of Hj with apb ?x _ _ _ => generalize dependent x; intros A3 Hj end.
    destruct (eot_ref j k2) as (n & Hn). destruct (p_eot_thm s Hs) as [Be _].
    lazymatch goal with |- _ (let x := ?body in _) => eassert (He : apb body _ _ _) by (ap D HD) end.
    norm_in He. eapply ap_eq in He; [|instantiate (1 := p_eot s + 1440 * IZR n); rewrite Hn; q2; field; apply PI_neq].
    assert (Bn : Rabs (p_eot s + 1440 * IZR n) <= Rz (1500 * S90)).
    { rewrite Rz_k. replace (p_eot s + 1440 * IZR n) with ((p_L s + 2 * PI * IZR j - (p_ra0 s + 2 * PI * IZR k2)) * (720 / PI)) by (rewrite Hn; field; apply PI_neq).
      rewrite Rabs_mult. assert (Rabs (p_L s + 2 * PI * IZR j - (p_ra0 s + 2 * PI * IZR k2)) <= 2 * PI + 0.002) by (apply Rabs_le; lra).
      assert (229 <= 720 / PI <= 229.3) by (split; interval). rewrite (Rabs_pos_eq (720 / PI)) by lra. assert (PI < 3.142) by interval.
      pose proof (Rabs_pos (p_L s + 2 * PI * IZR j - (p_ra0 s + 2 * PI * IZR k2))). nra. }
    apply (ap_bnd _ _ _ _ _ ltac:(eassumption)) in Bn. clear He.
    lazymatch type of Bn with apb ?x _ _ _ => generalize dependent x; intros A4 Bn; dskip end.
    dskip. dskip.
    assert (Hw := ap_wrap_gt_first D HD A4 (p_eot s) n _ _ 1440.0 Bn ltac:(lra) ltac:(vm_compute; reflexivity) ltac:(vm_compute; reflexivity) (or_introl eq_refl)).
    cbv zeta in Hw. norm_in Hw. lazymatch type of Hw with apb ?x _ _ _ => generalize dependent x; intros A5 Hw end.
    constructor; cbn [psa_delta psa_ra psa_gmst psa_eot psa_ecf].
    - eapply apb_near; [exact Hd|tol].
    - exists k2. eapply apb_near_b; [exact Hk2|tol|tol].
    - exists k. eapply apb_near_b; [eassumption|tol|tol].
    - eapply apb_near; [exact Hw|tol].
    - eapply apb_near; [eassumption|tol].
  Qed.
End Psa.
