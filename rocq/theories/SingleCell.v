(** * SingleCell: the cells of iqbal, soltrack/numpy and psa/numpy under float32 rounding *)

From Coq Require Import ZArith QArith Reals Bool List String Lra Lia.
From Flocq Require Import Core.Raux.
From Interval Require Import Tactic.
From Verif Require Import Num Arrays Libspa Time Core Usecases Spec GenericLemmas GenericLemmas2 Ext ExtLemmas ExactLaws
  Sky SkyClose AstroTac Refraction AstroSpec SingleSpec SingleLemmas Astro AstroCell AstroCall Calendar
  Psa PsaR PsaCell Soltrack SoltrackR SoltrackCell Iqbal IqbalR.
Import ListNotations.
Open Scope R_scope.

Definition g_cosz (d sl cl h : R) : R := sin d * sl + cos d * cl * cos h.
Definition in_unit (x : R) : Prop := -1 <= x <= 1.
Lemma in_unit_dec x : in_unit x \/ (x < -1 \/ 1 < x).
Proof. unfold in_unit. lra. Qed.

(** ** iqbal *)
Section Iqbal.
  Variable E : Env.
  Variables (r : bool) (std eot del : R) (ecf : ext).
  Hypothesis Hd : 0 < cos del.
  Let t := {| iq_std := Fin std; iq_ecf := ecf; iq_eot := Fin eot; iq_dec := Fin del |}.

  Lemma iq_core_g l sl cl :
    let h := e_mul (e_mul (e_sub (Fin l) (Fin #12.0)) (Fin #15.0)) (Fin (PI / #180.0)) in
    let hr := (l - #12.0) * #15.0 * (PI / #180.0) in
    let sza := e_unit acos (e_add (e_mul (Fin (sin del)) (Fin sl)) (e_mul (e_mul (Fin (cos del)) (Fin cl)) (e_fun cos h))) in
    let alpha := e_sub (Fin (PI / 2)) sza in
    let az := e_atan2 (e_neg (e_fun sin h)) (e_sub (e_mul (e_tan (Fin del)) (Fin cl)) (e_mul (Fin sl) (e_fun cos h))) in
    (if r then e_sub (Fin (PI / 2)) (e_add alpha
        (e_div (e_mul (Fin #0.061359) (e_add (e_add (Fin #0.1594) (e_mul (Fin #1.1230) alpha)) (e_mul (Fin #0.065656) (e_mul alpha alpha))))
          (e_add (e_add (Fin #1.0) (e_mul (Fin #28.9344) alpha)) (e_mul (Fin #277.3971) (e_mul alpha alpha)))))
     else sza,
     where_ (e_lt az (Fin #0)) (e_add az (Fin PI)) (e_sub az (Fin PI)))
    = (match e_unit acos (Fin (g_cosz del sl cl hr)) with Fin z => if r then i_refr z else Fin z | x => x end, Fin (psa_az del sl cl hr)).
  Proof.
    cbv zeta. rewrite fin_tan by lra. fin.
    change (sin del * sl + cos del * cl * cos ((l - #12.0) * #15.0 * (PI / #180.0))) with (g_cosz del sl cl ((l - #12.0) * #15.0 * (PI / #180.0))).
    set (hr := (l - #12.0) * #15.0 * (PI / #180.0)).
    apply f_equal2.
    - destruct (in_unit_dec (g_cosz del sl cl hr)) as [H|H].
      + rewrite fin_unit by exact H. fin. destruct r; reflexivity.
      + rewrite fin_unit_out by exact H. destruct r; reflexivity.
    - rewrite Q0. rewrite <- Q00. exact (psa_az_eq _ _ _ _).
  Qed.

  Definition z_sl lat := rnd E (sin (rnd E (lat * rnd E (PI / #180.0)))).
  Definition z_cl lat := rnd E (cos (rnd E (lat * rnd E (PI / #180.0)))).
  Definition z_H l15 := (i_lat std l15 eot - #12.0) * #15.0 * (PI / #180.0).
  Definition z_cell l15 lat : ext * ext :=
    (match e_unit acos (Fin (g_cosz del (z_sl lat) (z_cl lat) (z_H l15))) with Fin z => if r then i_refr z else Fin z | x => x end,
     Fin (psa_az del (z_sl lat) (z_cl lat) (z_H l15))).

  Ltac zc := ext_ops; rewrite !eIQ_RAD, !eHALFPI, !ePI; rewrite !fin_fun; rewrite !fin_mul; rewrite !fin_fun;
    rewrite fin_div by (q2; lra); rewrite ?fin_fun; rewrite !fin_add; rewrite lat_where; reflexivity.
  Lemma ne_iqbal_z lon lat : ne_iqbal_2d (O := ExtOps E) r t (Fin lon) (Fin lat) = z_cell (rnd E (lon / #15.0)) lat.
  Proof. unfold z_cell, z_H. rewrite <- iq_core_g. subst t. cbv beta iota zeta delta [ne_iqbal_2d iq_std iq_eot iq_dec div32 mul32]. zc. Qed.
  Lemma py_iqbal_z lon lat : py_iqbal_2d (O := ExtOps E) r t (Fin lon) (Fin lat) = z_cell (rnd E (lon / #15.0)) lat.
  Proof. unfold z_cell, z_H. rewrite <- iq_core_g. subst t. cbv beta iota zeta delta [py_iqbal_2d iq_std iq_eot iq_dec div32 mul32]. zc. Qed.
  Lemma ne_iqbal_z1 lon lat : ne_iqbal_1d (O := ExtOps E) r t (Fin lon) (Fin lat) = z_cell (lon / #15.0) lat.
  Proof. unfold z_cell, z_H. rewrite <- iq_core_g. subst t. cbv beta iota zeta delta [ne_iqbal_1d iq_std iq_eot iq_dec div32 mul32]. zc. Qed.
End Iqbal.

(** ** soltrack/numpy *)
Lemma py_soltrack_z E r agst ra del ecf eot lon lat :
  float32_like E -> 0 < cos del -> 0 <= sq_w E (rnd E (lat * (PI / 180))) -> 0 <= 1 - rnd E (sq_s E (rnd E (lat * (PI / 180))) * sq_s E (rnd E (lat * (PI / 180)))) ->
  py_soltrack_2d (O := ExtOps E) r {| st_agst := Fin agst; st_ra := Fin ra; st_dec := Fin del; st_ecf := ecf; st_eot := eot |} (Fin lon) (Fin lat)
  = (match e_unit acos (Fin (g_cosz del (sq_s E (rnd E (lat * (PI / 180)))) (sq_c E (rnd E (lat * (PI / 180)))) (agst - ra + rnd E (lon * (PI / 180))))) with
     | Fin z => st_finish E r z | x => x end,
     Fin (st_az del (sq_s E (rnd E (lat * (PI / 180)))) (sq_c E (rnd E (lat * (PI / 180)))) (agst - ra + rnd E (lon * (PI / 180))))).
Proof.
  intros HE Hd Hw Hv. set (q := rnd E (lat * (PI / 180))) in *.
  cbv beta iota zeta delta [py_soltrack_2d st_agst st_ra st_dec sub32 mul32 sqrt32]. ext_ops. fin.
  fold q. change (rnd E (sin q)) with (sq_s E q). qs.
  change (rnd E (1 - rnd E (sq_s E q * sq_s E q))) with (sq_w E q).
  assert (E2 : 0 <= 1 - sin del ^ 2) by (pose proof (sc1 del); nra).
  rewrite (fin_sqrt (1 - sin del ^ 2)) by assumption. rewrite (fin_sqrt (sq_w E q)) by assumption.
  replace (sin del ^ 2) with (sin del * sin del) by ring.
  rewrite sqrt_1_sin2 by lra. rewrite fin_div by lra. fin. change (rnd E (sqrt (sq_w E q))) with (sq_c E q).
  set (h := agst - ra + rnd E (lon * (PI / 180))).
  replace (sq_s E q * sin del + sq_c E q * cos del * cos h) with (g_cosz del (sq_s E q) (sq_c E q) h) by (unfold g_cosz; ring).
  apply f_equal2; [|reflexivity].
  destruct (in_unit_dec (g_cosz del (sq_s E q) (sq_c E q) h)) as [H|H].
  - rewrite !fin_unit by exact H. fin. rewrite st_alt_eq by exact H. destruct r; [reflexivity|]. cbn [st_finish]. rewrite fin_sub. f_equal. ring.
  - rewrite !fin_unit_out by exact H. destruct r; reflexivity.
Qed.

(** ** What a cell contains *)
Section Single.
  Variable E : Env.
  Hypothesis HE : float32_like E.
  Variables (t : Z) (la lo : R).
  Hypothesis Ht : representable t.
  Hypothesis Hla : -90 <= la <= 90.
  Hypothesis Hlo : -180 <= lo <= 180.
  Let Hs := sec_range t Ht.
  Let phi := la * (PI / 180).

  Definition single_spec (alg eng : string) (m : spalib ext) (uc : usecase) (d eot : R) : Prop :=
    exists h a, near_turn h (solar_hour_angle t lo eot) (hour_tol alg + 4 / 10000000) /\
      near_turn h (hour_angle_of alg eng (nem E) t lo) (4 / 10000000) /\
      near_azimuth (single_tol alg eng la) a phi d h /\ azimuth_in_turn alg a /\
      ((exists z, near_zenith (single_tol alg eng la) (parallax_coef alg) z phi d h /\ 0 <= z <= PI /\
          forall r, lib_cell m uc r (lib_time m (sec_of t)) (lib_cast m (Fin lo)) (lib_cast m (Fin la))
                    = (if r then refracted E alg z else Fin z, Fin a))
       \/ (alg = "iqbal"%string \/ alg = "soltrack"%string /\ eng = "numpy"%string) /\ 1 - single_tol alg eng la < Rabs (sun_U phi d h) /\
          forall r, lib_cell m uc r (lib_time m (sec_of t)) (lib_cast m (Fin lo)) (lib_cast m (Fin la)) = (NaN, Fin a)).

  (** From a real cosine of the zenith to the two cases. *)
  Lemma z_cases d sl cl h e1 e2 tol : 
    Rabs (sl - sin phi) <= e1 -> Rabs (cl - cos phi) <= e2 -> e1 + e2 <= tol ->
    (exists z0, e_unit acos (Fin (g_cosz d sl cl h)) = Fin z0 /\ 0 <= z0 <= PI /\ Rabs (cos z0 - sun_U phi d h) <= tol)
    \/ (e_unit acos (Fin (g_cosz d sl cl h)) = NaN /\ 1 - tol < Rabs (sun_U phi d h)).
  Proof.
    intros H1 H2 H3. assert (H := height_err phi d h sl cl e1 e2 H1 H2). fold (g_cosz d sl cl h) in H.
    destruct (in_unit_dec (g_cosz d sl cl h)) as [U|U].
    - left. exists (acos (g_cosz d sl cl h)). rewrite fin_unit by exact U. split; [reflexivity|]. split; [apply acos_bound|].
      rewrite cos_acos by exact U. lra.
    - right. split; [now apply fin_unit_out|]. apply Rabs_le_inv in H. destruct U as [U|U].
      + eapply Rlt_le_trans; [|rewrite <- Rabs_Ropp; apply Rle_abs]. lra.
      + eapply Rlt_le_trans; [|apply Rle_abs]. lra.
  Qed.

  Lemma iq_single eng (m : spalib ext) uc l15 :
    Rabs (15 * l15 - lo) <= 21.47 / 1000000 -> Rabs (15 * l15) <= 180 ->
    (forall r, lib_cell m uc r (lib_time m (sec_of t)) (lib_cast m (Fin lo)) (lib_cast m (Fin la))
       = z_cell E r (i_std (sec_of t)) (i_eoth (sec_of t)) (i_dec (sec_of t)) l15 (rnd E la)) ->
    single_spec "iqbal" eng m uc (i_dec (sec_of t)) (i_eoth (sec_of t) * #60).
  Proof.
    intros L1 L2 Hv. set (s := sec_of t) in *.
    assert (Hc : 0.9 <= cos (i_dec s)) by (apply cos_dec_b; pose proof (i_dec_b (i_ang s)) as H; change (i_dec0 (i_ang s)) with (i_dec s) in H; lra).
    assert (He : -0.3 <= i_eoth s <= 0.3) by (pose proof (i_eot_b (i_ang s)); unfold i_eoth; q2; lra).
    set (h := z_H (i_std s) (i_eoth s) l15).
    assert (Lq := lat_iqbal E HE la Hla). fold phi in Lq.
    assert (S1 := sin_r E HE _ _ _ Lq). assert (S2 := cos_r E HE _ _ _ Lq).
    fold (z_sl E (rnd E la)) in S1. fold (z_cl E (rnd E la)) in S2.
    assert (Tl : 2.9 / 10000000 + 3 / 100000000 + (2.9 / 10000000 + 3 / 100000000) <= single_tol "iqbal" eng la) by (cbn; lra).
    exists h, (psa_az (i_dec s) (z_sl E (rnd E la)) (z_cl E (rnd E la)) h).
    split; [|split; [|split; [|split]]].
    - assert (N := iq_hour t (15 * l15) (i_eoth s) ltac:(apply Rabs_le_inv in L2; lra) He). fold s in N.
      replace (i_H (i_std s) (i_eoth s) (15 * l15)) with h in N.
      2:{ unfold h, z_H, i_H. do 3 f_equal. f_equal. replace (15 * l15 / #15.0) with l15 by (q2; field). reflexivity. }
      destruct (near_turn_shift _ _ _ _ _ N (hour_shift t lo (15 * l15) _ _ L1)) as (k & Hk). exists k.
      eapply Rle_trans; [exact Hk|]. cbn. pose proof pi_b. lra.
    - assert (N := iq_hour t (15 * l15) (i_eoth s) ltac:(apply Rabs_le_inv in L2; lra) He). fold s in N.
      replace (i_H (i_std s) (i_eoth s) (15 * l15)) with h in N.
      2:{ unfold h, z_H, i_H. do 3 f_equal. f_equal. replace (15 * l15 / #15.0) with l15 by (q2; field). reflexivity. }
      assert (N' := iq_hour t lo (i_eoth s) Hlo He). fold s in N'.
      eapply near_turn_le; [|exact (near_turn_via _ _ _ _ _ _ _ N N' (hour_shift t lo (15 * l15) _ _ L1))]. pose proof pi_b. lra.
    - eapply near_azimuth_le; [exact Tl|]. apply psa_az_near; [exact S1|exact S2|lra].
    - apply turn_range, Ratan2_range.
    - destruct (z_cases (i_dec s) _ _ h _ _ _ S1 S2 Tl) as [(z0 & Z1 & Z2 & Z3)|(Z1 & Z2)].
      + left. exists z0. split; [|split; [exact Z2|]].
        * exists z0. split; [exact Z2|]. split; [exact Z3|]. cbn. ring.
        * intros r. rewrite Hv. unfold z_cell. fold h. rewrite Z1. reflexivity.
      + right. split; [now left|]. split; [exact Z2|]. intros r. rewrite Hv. unfold z_cell. fold h. rewrite Z1. reflexivity.
  Qed.
  Lemma lon_15' : Rabs (15 * rnd E (rnd E lo / #15.0) - lo) <= 21.47 / 1000000 /\ Rabs (15 * rnd E (rnd E lo / #15.0)) <= 180.
  Proof. replace (#15.0) with 15 by q2r. now apply lon_15. Qed.
  Lemma lon_15'' : Rabs (15 * (rnd E lo / #15.0) - lo) <= 21.47 / 1000000 /\ Rabs (15 * (rnd E lo / #15.0)) <= 180.
  Proof. replace (15 * (rnd E lo / #15.0)) with (rnd E lo) by (q2; field). destruct (r_lo E HE lo Hlo). split; lra. Qed.

  Lemma single_pyiq uc : single_spec "iqbal" "numpy" (py_iqbal (O := ExtOps E)) uc (i_dec (sec_of t)) (i_eoth (sec_of t) * #60).
  Proof.
    destruct lon_15' as [L1 L2]. apply (iq_single "numpy" _ uc _ L1 L2). intros r.
    replace (lib_cell (py_iqbal (O := ExtOps E)) uc) with (lib_2d (py_iqbal (O := ExtOps E))) by (destruct uc; reflexivity).
    cbn [py_iqbal lib_2d lib_time lib_cast]. rewrite (proj2 (iq_time_R E (sec_of t))). ext_ops. rewrite !fin_fun. apply py_iqbal_z.
    pose proof (cos_dec_b (i_dec (sec_of t))) as H. pose proof (i_dec_b (i_ang (sec_of t))) as H'. change (i_dec0 (i_ang (sec_of t))) with (i_dec (sec_of t)) in H'. lra.
  Qed.
  Lemma single_neiq uc : single_spec "iqbal" "numexpr" (ne_iqbal (O := ExtOps E)) uc (i_dec (sec_of t)) (i_eoth (sec_of t) * #60).
  Proof.
    assert (Hc : 0 < cos (i_dec (sec_of t))).
    { pose proof (cos_dec_b (i_dec (sec_of t))) as H. pose proof (i_dec_b (i_ang (sec_of t))) as H'. change (i_dec0 (i_ang (sec_of t))) with (i_dec (sec_of t)) in H'. lra. }
    destruct (Sumbool.sumbool_of_bool (match uc with Transect => true | _ => false end)) as [U|U].
    - destruct lon_15'' as [L1 L2]. destruct uc; try discriminate U. apply (iq_single "numexpr" _ _ _ L1 L2). intros r.
      cbn [ne_iqbal lib_cell lib_1d lib_time lib_cast]. rewrite (proj1 (iq_time_R E (sec_of t))). ext_ops. rewrite !fin_fun. now apply ne_iqbal_z1.
    - destruct lon_15' as [L1 L2]. apply (iq_single "numexpr" _ _ _ L1 L2). intros r.
      replace (lib_cell (ne_iqbal (O := ExtOps E)) uc) with (lib_2d (ne_iqbal (O := ExtOps E))) by (destruct uc; try discriminate U; reflexivity).
      cbn [ne_iqbal lib_2d lib_time lib_cast]. rewrite (proj1 (iq_time_R E (sec_of t))). ext_ops. rewrite !fin_fun. now apply ne_iqbal_z.
  Qed.

  Lemma single_pysol uc : single_spec "soltrack" "numpy" (py_soltrack (O := ExtOps E)) uc (t_dec Rfloor_mod (IZR (sec_of t))) (t_eot Rfloor_mod (IZR (sec_of t))).
  Proof.
    set (s := IZR (sec_of t)). assert (Hc := cos_dec_b (t_dec Rfloor_mod s) ltac:(pose proof (t_dec_b s Hs Rfloor_mod); lra)).
    destruct (t_eot_thm Rfloor_mod floor_mod_mod_spec s Hs) as [_ (k & Hk)].
    set (p := rnd E (rnd E la * (PI / 180))). set (lo' := rnd E (rnd E lo * (PI / 180))).
    set (h := t_agst s - t_ra Rfloor_mod s + lo').
    assert (Lq := lat_radians32 E HE la Hla). fold phi p in Lq.
    assert (Cp : 0 <= cos phi) by now apply cos_lat_pos.
    destruct (sq_facts E HE p phi Lq Cp) as (W1 & W2 & _). destruct (sq_c_err E HE p phi Lq Cp) as [C1 C2].
    assert (S1 := sin_r E HE _ _ _ Lq). fold (sq_s E p) in S1.
    assert (S2 : exists e2, Rabs (sq_c E p - cos phi) <= e2 /\ 1.88 / 10000000 + 3 / 100000000 + e2 <= single_tol "soltrack" "numpy" la).
    { cbn. destruct (Rle_dec (Rabs la) 80) as [H8|H8].
      - exists (1.2 / 1000000). split; [apply C2, cos_80, H8|lra].
      - exists (3.7 / 10000). split; [exact C1|lra]. }
    destruct S2 as (e2 & S2 & Tl).
    exists h, (st_az (t_dec Rfloor_mod s) (sq_s E p) (sq_c E p) h).
    assert (Hv : forall r, lib_cell (py_soltrack (O := ExtOps E)) uc r (lib_time (py_soltrack (O := ExtOps E)) (sec_of t)) (lib_cast (py_soltrack (O := ExtOps E)) (Fin lo)) (lib_cast (py_soltrack (O := ExtOps E)) (Fin la))
      = (match e_unit acos (Fin (g_cosz (t_dec Rfloor_mod s) (sq_s E p) (sq_c E p) h)) with Fin z => st_finish E r z | x => x end,
         Fin (st_az (t_dec Rfloor_mod s) (sq_s E p) (sq_c E p) h))).
    { intros r. replace (lib_cell (py_soltrack (O := ExtOps E)) uc) with (lib_2d (py_soltrack (O := ExtOps E))) by (destruct uc; reflexivity).
      cbn [py_soltrack lib_2d lib_time lib_cast]. rewrite ofZ_fin, py_soltrack_time_R by exact Hs. ext_ops. rewrite !fin_fun. fold s.
      apply py_soltrack_z; [exact HE|lra|fold p; lra|exact W2]. }
    split; [|split; [|split; [|split]]].
    - assert (N := st_hour Rfloor_mod t (lo' * (180 / PI)) k Hs Hk). fold s in N.
      replace (s_H (t_agst s) (t_ra Rfloor_mod s) (lo' * (180 / PI))) with h in N by (unfold h, s_H; field; apply PI_neq0).
      assert (Ll := lon_radians32 E HE lo Hlo). fold lo' in Ll.
      assert (L1 : Rabs (lo' * (180 / PI) - lo) <= 3.76 / 10000000 * (180 / PI)).
      { pose proof pi_b. assert (P8 : 0 < 180 / PI) by (apply Rdiv_lt_0_compat; lra).
        replace (lo' * (180 / PI) - lo) with ((lo' - lo * (PI / 180)) * (180 / PI)) by (field; lra).
        rewrite Rabs_mult, (Rabs_pos_eq (180 / PI)) by lra. apply Rmult_le_compat_r; lra. }
      destruct (near_turn_shift _ _ _ _ _ N (hour_shift t lo _ _ _ L1)) as (k' & Hk'). exists k'.
      eapply Rle_trans; [exact Hk'|]. replace (3.76 / 10000000 * (180 / PI) * (PI / 180)) with (3.76 / 10000000) by (field; apply PI_neq0). cbn. lra.
    - apply near_turn_0. unfold hour_angle_of. cbn [String.eqb Ascii.eqb Bool.eqb]. fold s. unfold h, s_H. replace (_ - _) with (lo' - lo * (PI / 180)) by ring.
      eapply Rle_trans; [apply lon_radians32; assumption|]. lra.
    - eapply near_azimuth_le; [exact Tl|]. apply st_az_near; [exact S1|exact S2|lra].
    - apply Ratan2_range.
    - destruct (z_cases (t_dec Rfloor_mod s) _ _ h _ _ _ S1 S2 Tl) as [(z0 & Z1 & Z2 & Z3)|(Z1 & Z2)].
      + left. exists (st_parallax z0). split; [|split; [now apply st_parallax_b|]].
        * exists z0. split; [exact Z2|]. split; [exact Z3|]. unfold st_parallax. f_equal. f_equal. q2r.
        * intros r. rewrite Hv, Z1. destruct r; reflexivity.
      + right. split; [right; split; reflexivity|]. split; [exact Z2|]. intros r. rewrite Hv, Z1. reflexivity.
  Qed.

  Lemma single_pypsa uc : single_spec "psa" "numpy" (py_psa (O := ExtOps E)) uc (p_delta (IZR (sec_of t))) (p_eot (IZR (sec_of t))).
  Proof.
    set (s := IZR (sec_of t)). assert (Hc := cos_dec_b (p_delta s) ltac:(pose proof (p_delta_b s Hs); lra)).
    destruct (psa_gmst_k' t) as (n & Hn). destruct (p_eot_thm s Hs) as [_ (k & Hk)].
    assert (HA : rnd_accurate E) by (destruct HE as (HA & _); exact HA).
    assert (Hu := q_unit E (p_delta s) (p_ra s) (p_gmst Rfloor_mod s) (rnd E lo) (rnd E la) HA).
    set (h := c_H (p_ra s) (p_gmst Rfloor_mod s) (rnd E lo)).
    assert (Lq := lat_radians32 E HE la Hla). fold phi in Lq. fold (q_phi E (rnd E la)) in Lq.
    assert (S1 := sin_r E HE _ _ _ Lq). assert (S2 := cos_r E HE _ _ _ Lq).
    fold (q_sl E (rnd E la)) in S1. fold (q_cl E (rnd E la)) in S2.
    set (z0 := q_zen0 E (p_delta s) (p_ra s) (p_gmst Rfloor_mod s) (rnd E lo) (rnd E la)) in *.
    exists h, (q_az E (p_delta s) (p_ra s) (p_gmst Rfloor_mod s) (rnd E lo) (rnd E la)).
    split; [|split; [|split; [|split]]].
    - assert (N := psa_hour Rfloor_mod t (rnd E lo) n k Hs Hn Hk). fold s in N. fold h in N.
      destruct (r_lo E HE lo Hlo) as [L1 _].
      destruct (near_turn_shift _ _ _ _ _ N (hour_shift t lo _ _ _ L1)) as (k' & Hk'). exists k'. eapply Rle_trans; [exact Hk'|]. cbn. pose proof pi_b. lra.
    - apply near_turn_0. unfold hour_angle_of. cbn [String.eqb Ascii.eqb Bool.eqb]. fold s. unfold h, c_H. replace (_ - _) with ((rnd E lo - lo) * (PI / 180)) by ring.
      eapply Rle_trans; [apply deg_mul, (r_lo E HE lo Hlo)|]. pose proof pi_b. lra.
    - eapply near_azimuth_le; [|apply psa_az_near; [exact S1|exact S2|lra]]. cbn. lra.
    - apply turn_range, Ratan2_range.
    - left. exists (psa_parallax z0). split; [|split; [apply psa_parallax_b, acos_bound|]].
      + exists z0. split; [apply acos_bound|]. split; [|unfold psa_parallax; rewrite EM_eq; reflexivity].
        unfold z0, q_zen0. rewrite cos_acos by exact Hu.
        assert (H1 := round6_err (q_cosz E (p_delta s) (p_ra s) (p_gmst Rfloor_mod s) (rnd E lo) (rnd E la))).
        assert (H2 := height_err phi (p_delta s) h _ _ _ _ S1 S2).
        replace (sin (p_delta s) * q_sl E (rnd E la) + cos (p_delta s) * q_cl E (rnd E la) * cos h)
          with (q_cosz E (p_delta s) (p_ra s) (p_gmst Rfloor_mod s) (rnd E lo) (rnd E la)) in H2 by (unfold q_cosz, h; ring).
        set (x := q_cosz _ _ _ _ _ _) in *.
        replace (Rround6 x - sun_U phi (p_delta s) h) with ((Rround6 x - x) + (x - sun_U phi (p_delta s) h)) by ring.
        eapply Rle_trans; [apply Rabs_triang|]. cbn. lra.
      + intros r. replace (lib_cell (py_psa (O := ExtOps E)) uc) with (lib_2d (py_psa (O := ExtOps E))) by (destruct uc; reflexivity).
        cbn [py_psa lib_2d lib_time lib_cast]. rewrite ofZ_fin, py_psa_time_R by exact Hs. ext_ops. rewrite !fin_fun.
        rewrite py_psa_cell_R by (fold s; assumption || lra). unfold q_zen. fold s. fold z0. now rewrite (psa_finish_saem E).
  Qed.

  (** The pairs that only round the coordinates. *)
  Lemma single_exact alg eng (m : spalib ext) uc d eot ecf :
    (alg = "psa"%string \/ alg = "soltrack"%string) -> eng = "numexpr"%string ->
    (forall r, lib_cell m uc r (lib_time m (sec_of t)) (lib_cast m (Fin lo)) (lib_cast m (Fin la)) = lib_2d m r (lib_time m (sec_of t)) (lib_cast m (Fin lo)) (lib_cast m (Fin la))) ->
    value_spec E t la lo alg eng m d eot ecf -> single_spec alg eng m uc d eot.
  Proof.
    intros Ha -> Hdim (h & z & a & H0 & H1 & H2 & H3 & H4 & H5).
    assert (Hu : forall x, used E alg x = rnd E x) by (intros x; destruct Ha as [-> | ->]; reflexivity). rewrite Hu in H0, H1, H2.
    assert (Lq := lat_f64 E HE la Hla). fold phi in Lq. set (phi' := rnd E la * (PI / 180)) in *.
    assert (Sp : sky_plain (parallax_coef alg) (cos_tol alg "numexpr") phi' d h z a) by (destruct Ha as [-> | ->]; exact H2).
    assert (Ct : cos_tol alg "numexpr" = 0) by (destruct Ha as [-> | ->]; reflexivity).
    assert (Tl : single_tol alg "numexpr" la = 2 / 1000000) by (destruct Ha as [-> | ->]; reflexivity).
    assert (S1 : Rabs (sin phi' - sin phi) <= 0.94 / 10000000) by (eapply Rle_trans; [apply sin_lip|exact Lq]).
    assert (S2 : Rabs (cos phi' - cos phi) <= 0.94 / 10000000) by (eapply Rle_trans; [apply cos_lip|exact Lq]).
    destruct Sp as (z0 & Z1 & Z2 & Z3 & rho & A1 & A2 & A3). rewrite Ct in Z2.
    exists h, a. rewrite Tl. split; [|split; [|split; [|split; [exact H4|left; exists z; split; [|split; [exact H3|]]]]]].
    - destruct (r_lo E HE lo Hlo) as [L1 _].
      destruct (near_turn_shift _ _ _ _ _ H1 (hour_shift t lo _ _ _ L1)) as (k' & Hk'). exists k'. eapply Rle_trans; [exact Hk'|]. pose proof pi_b. lra.
    - apply near_turn_0. rewrite H0. replace (_ - _) with ((rnd E lo - lo) * (PI / 180)).
      2:{ unfold hour_angle_of. destruct Ha as [-> | ->]; cbn [String.eqb Ascii.eqb Bool.eqb]; unfold c_H, s_H; ring. }
      eapply Rle_trans; [apply deg_mul, (r_lo E HE lo Hlo)|]. pose proof pi_b. lra.
    - exists rho. split; [exact A1|]. rewrite <- A2, <- A3. split.
      + assert (H := south_err phi d h _ _ _ _ S1 S2).
        replace (cos d * cos h * sin phi' - sin d * cos phi') with (sun_S phi' d h) in H by (unfold sun_S; ring). lra.
      + unfold sun_W. rewrite Rminus_diag_eq by reflexivity. rewrite Rabs_R0. lra.
    - exists z0. split; [exact Z1|]. split; [|exact Z3].
      assert (H := height_err phi d h _ _ _ _ S1 S2).
      replace (sin d * sin phi' + cos d * cos phi' * cos h) with (sun_U phi' d h) in H by (unfold sun_U; ring).
      replace (cos z0 - sun_U phi d h) with ((cos z0 - sun_U phi' d h) + (sun_U phi' d h - sun_U phi d h)) by ring.
      eapply Rle_trans; [apply Rabs_triang|]. lra.
    - intros r. now rewrite Hdim, H5.
  Qed.

  Lemma single_cell alg eng m uc d eot ecf :
    In (alg, eng, m) (supported (O := ExtOps E)) -> alg <> "nrel"%string ->
    lib_dec m (lib_time m (sec_of t)) = Fin d -> lib_eot m (lib_time m (sec_of t)) = Fin eot ->
    lib_ecf m (lib_time m (sec_of t)) = Fin ecf -> single_spec alg eng m uc d eot.
  Proof.
    intros Hin Hn V1 V2 V3. assert (Hin' := Hin). cbn [supported In] in Hin'.
    destruct Hin' as [H|[H|[H|[H|[H|[H|[H|[]]]]]]]]; injection H as <- <- <-; revert V1 V2 V3;
      cbn [py_psa ne_psa py_soltrack ne_soltrack py_iqbal ne_iqbal ne_nrel lib_T lib_time lib_dec lib_eot lib_ecf]; rewrite ?ofZ_fin.
    - rewrite py_psa_time_R by exact Hs. cbn [psa_delta psa_eot psa_ecf]. intros [= <-] [= <-] [= <-]. apply single_pypsa.
    - rewrite ne_psa_time_R' by exact Hs. cbn [psa_delta psa_eot psa_ecf]. intros [= <-] [= <-] [= <-].
      eapply single_exact; [now left|reflexivity| |apply value_nepsa; exact Ht].
      intros r. apply (dims E "psa" "numexpr"); [exact Hin|exact Hs|discriminate].
    - rewrite py_soltrack_time_R by exact Hs. cbn [st_dec st_eot st_ecf]. intros [= <-] [= <-] [= <-]. apply single_pysol.
    - rewrite ne_soltrack_time_R by exact Hs. cbn [st_dec st_eot st_ecf]. intros [= <-] [= <-] [= <-].
      eapply single_exact; [now right|reflexivity| |apply value_nesol; exact Ht].
      intros r. apply (dims E "soltrack" "numexpr"); [exact Hin|exact Hs|discriminate].
    - rewrite (proj2 (iq_time_R E (sec_of t))). cbn [iq_dec iq_eot iq_ecf]. ext_ops. rewrite fin_mul. intros [= <-] [= <-] [= <-]. apply single_pyiq.
    - rewrite (proj1 (iq_time_R E (sec_of t))). cbn [iq_dec iq_eot iq_ecf]. ext_ops. rewrite fin_mul. intros [= <-] [= <-] [= <-]. apply single_neiq.
    - now contradiction Hn.
  Qed.
End Single.
