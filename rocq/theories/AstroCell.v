(** * AstroCell: the returned angles of the seven implementations, uniformly *)

From Coq Require Import ZArith QArith Reals Bool List String Lra Lia.
From Flocq Require Import Core.Raux.
From Interval Require Import Tactic.
From Verif Require Import Num Arrays Libspa Time Core Usecases Spec GenericLemmas GenericLemmas2 Ext ExtLemmas ExactLaws
  Sky AstroTac Refraction AstroSpec Astro Calendar
  Psa PsaR PsaCell Soltrack SoltrackR SoltrackCell Iqbal IqbalR Nrel NrelR NrelCell.
Import ListNotations.
Open Scope R_scope.

(** ** One cell function for the three use cases *)
Lemma tan_law_fin E d : cos d <> 0 -> tan_law (O := ExtOps E) (Fin d).
Proof. intros H. unfold tan_law. ext_ops. rewrite fin_tan by exact H. fin. rewrite fin_div by exact H. reflexivity. Qed.

Lemma dims_pr E alg eng m uc r pr t lo la :
  In (alg, eng, m) (supported (O := ExtOps E)) -> in_ns_range (IZR t) ->
  (alg = "iqbal"%string -> eng = "numexpr"%string -> ideal E) ->
  cell (O := ExtOps E) m uc r pr (Some t) lo la = cell (O := ExtOps E) m Sites r pr (Some t) lo la.
Proof.
  intros Hin Ht Hi.
  destruct (time_value E alg eng m t Hin Ht) as (d & _ & _ & Hd & _ & _ & Hb & _).
  assert (Hc : cos d <> 0) by (pose proof (cos_dec_b d Hb); lra).
  cbn [supported In] in Hin.
  destruct Hin as [H|[H|[H|[H|[H|[H|[H|[]]]]]]]]; injection H as <- <- <-.
  - apply cell_pypsa.
  - apply cell_nepsa.
  - apply cell_pysol.
  - apply cell_nesol_tan. intros z [= <-].
    cbn [lib_dec lib_time ne_soltrack] in Hd. 
    match goal with |- tan_law ?x => replace x with (Fin d) by (symmetry; exact Hd) end. now apply tan_law_fin.
  - apply cell_pyiqbal.
  - destruct uc; [reflexivity|apply cell_neiqbal_grid|apply cell_neiqbal_lon15, ideal_lon15, Hi; reflexivity].
  - apply cell_nrel.
Qed.

Lemma dims E alg eng m uc r t lo la :
  In (alg, eng, m) (supported (O := ExtOps E)) -> in_ns_range (IZR t) ->
  (alg = "iqbal"%string -> eng = "numexpr"%string -> ideal E) ->
  lib_cell m uc r (lib_time m t) (lib_cast m lo) (lib_cast m la) = lib_2d m r (lib_time m t) (lib_cast m lo) (lib_cast m la).
Proof.
  intros Hin Ht Hi.
  assert (H1 := dims_pr E alg eng m uc r fst t lo la Hin Ht Hi). assert (H2 := dims_pr E alg eng m uc r snd t lo la Hin Ht Hi).
  cbn [cell lib_cell] in H1, H2.
  rewrite (surjective_pairing (lib_cell _ _ _ _ _ _)), (surjective_pairing (lib_2d _ _ _ _ _)). now rewrite H1, H2.
Qed.

(** ** Refraction as a function of the unrefracted zenith angle *)
Definition saem (A z : R) : R :=
  PI / 2 - where_ (Rleb (- #1.4545e-2) (PI / 2 - z)) (PI / 2 - z + refr_corr (A * #1.7802e-2) #60 k_psa (PI / 2 - z)) (PI / 2 - z).
Definition refracted (E : Env) (alg : string) (z : R) : ext :=
  if String.eqb alg "psa" then Fin (saem #1 z) else if String.eqb alg "nrel" then Fin (saem n_ATM z)
  else if String.eqb alg "iqbal" then i_refr z else st_refracted E (PI / 2 - z).

(** The half-open interval of each implementation's azimuth. *)
Definition azimuth_in_turn (alg : string) (a : R) : Prop :=
  if String.eqb alg "psa" || String.eqb alg "iqbal" then - PI <= a < PI else - PI < a <= PI.

Lemma is_zenith_plain z phi d h : is_zenith z phi d h -> Rabs (cos z - sun_U phi d h) <= 0.
Proof. intros [_ ->]. replace (_ - _) with 0 by ring. rewrite Rabs_R0. lra. Qed.

Lemma n_u_spec phi : 0 <= cos phi -> 
  0 <= cos (n_u phi) /\ 0 <= sin (n_u phi) * sin phi /\ 0.99664719 * sin phi * cos (n_u phi) = sin (n_u phi) * cos phi.
Proof.
  intros Hp. unfold n_u. destruct (Req_EM_T (cos phi) 0) as [E|E].
  - rewrite E. destruct (Rlt_dec 0 (sin phi)) as [H|H].
    + rewrite sin_PI2, cos_PI2. repeat split; lra.
    + rewrite sin_neg, cos_neg, sin_PI2, cos_PI2. repeat split; lra.
  - pose proof (cos_atan_pos (FLAT * tan phi)) as Hc. split; [lra|].
    assert (Es : sin (atan (FLAT * tan phi)) = FLAT * tan phi * cos (atan (FLAT * tan phi))).
    { set (w := FLAT * tan phi) in *. assert (T := tan_atan w). unfold tan in T. apply Rmult_eq_reg_r with (/ cos (atan w)).
      - rewrite Rmult_assoc, Rinv_r, Rmult_1_r by lra. exact T.
      - apply Rinv_neq_0_compat. lra. }
    rewrite Es. set (c := cos (atan _)) in *. assert (F1 : 0 < FLAT) by q2r. split.
    + replace (FLAT * tan phi * c * sin phi) with (FLAT * c * (sin phi * sin phi) * / cos phi) by (unfold tan; field; exact E).
      assert (0 < / cos phi) by (apply Rinv_0_lt_compat; lra). assert (0 <= sin phi * sin phi) by (apply Rle_0_sqr).
      apply Rmult_le_pos; [|lra]. apply Rmult_le_pos; [|assumption]. nra.
    + unfold tan. field. exact E.
Qed.

(** ** The value of a cell *)
(** The hour angle each module computes at longitude [lon] (degrees). *)
Definition hour_angle_of (alg eng : string) (md : R -> R -> R) (t : Z) (lon : R) : R :=
  let s := IZR (sec_of t) in
  let mo := if String.eqb eng "numpy" then Rfloor_mod else md in
  if String.eqb alg "psa" then c_H (p_ra s) (p_gmst mo s) lon
  else if String.eqb alg "soltrack" then s_H (t_agst s) (t_ra mo s) lon
  else if String.eqb alg "iqbal" then i_H (i_std (sec_of t)) (i_eoth (sec_of t)) lon
  else m_H mo (n_alpha mo s) (n_v mo s) lon.

Section Value.
  Variable E : Env.
  Variables (t : Z) (la lo : R).
  Hypothesis Ht : representable t.
  Hypothesis Hla : -90 <= la <= 90.
  Hypothesis Hlo : -180 <= lo <= 180.
  Let Hs := sec_range t Ht.

  Lemma ofZ_fin : ofZ (Ops := ExtOps E) (sec_of t) = Fin (IZR (sec_of t)). Proof. reflexivity. Qed.

  Lemma psa_gmst_k : exists n : Z, nem E (IZR (sec_of t) / #86400) #1 = IZR (sec_of t) / #86400 - IZR n * #1.
  Proof. destruct (nem_spec E (IZR (sec_of t) / #86400) #1) as (k & H & _); [q2r|]. now exists k. Qed.
  Lemma psa_gmst_k' : exists n : Z, Rfloor_mod (IZR (sec_of t) / #86400) #1 = IZR (sec_of t) / #86400 - IZR n * #1.
  Proof. destruct (floor_mod_spec (IZR (sec_of t) / #86400) #1) as (k & H & _); [q2r|]. now exists k. Qed.
  Lemma cos_used : 0 <= cos (la * (PI / 180)).
  Proof. now apply cos_lat_pos. Qed.

  Lemma psa_finish_saem r z0 : Fin (psa_finish r z0) = if r then refracted E "psa" (psa_parallax z0) else Fin (psa_parallax z0).
  Proof. destruct r; reflexivity. Qed.
  Lemma EM_eq : EM = 42587565907513806 / 1000000000000000000000. Proof. q2r. Qed.
  Lemma KST_eq : #42635e-9 = 42635 / 1000000000. Proof. q2r. Qed.

  Definition value_spec (alg eng : string) (m : spalib ext) (d eot ecf : R) : Prop :=
    exists h z a, h = hour_angle_of alg eng (nem E) t (used E alg lo) /\
      near_turn h (solar_hour_angle t (used E alg lo) eot) (hour_tol alg) /\
      sky_position alg eng (used E alg la * (PI / 180)) d h ecf z a /\
      0 <= z <= PI /\ azimuth_in_turn alg a /\
      forall r, lib_2d m r (lib_time m (sec_of t)) (lib_cast m (Fin lo)) (lib_cast m (Fin la))
                = (if r then refracted E alg z else Fin z, Fin a).

  Lemma value_nepsa : value_spec "psa" "numexpr" (ne_psa (O := ExtOps E)) (p_delta (IZR (sec_of t))) (p_eot (IZR (sec_of t))) (p_ecf (IZR (sec_of t))).
  Proof.
    set (s := IZR (sec_of t)). assert (Hc := cos_dec_b (p_delta s) ltac:(pose proof (p_delta_b s Hs); lra)).
    destruct psa_gmst_k as (n & Hn). destruct (p_eot_thm s Hs) as [_ (k & Hk)].
    set (h := c_H (p_ra s) (p_gmst (nem E) s) (rnd E lo)).
    pose proof (c_zen0_spec (p_delta s) (p_ra s) (p_gmst (nem E) s) (rnd E lo) (rnd E la)) as Hz.
    exists h, (psa_parallax (c_zen0 (p_delta s) (p_ra s) (p_gmst (nem E) s) (rnd E lo) (rnd E la))),
      (c_az (p_delta s) (p_ra s) (p_gmst (nem E) s) (rnd E lo) (rnd E la)).
    split; [reflexivity|]. split; [apply (psa_hour (nem E) t (rnd E lo) n k Hs Hn Hk)|].
    split; [|split; [apply psa_parallax_b, Hz|split; [apply turn_range, Ratan2_range|]]].
    - exists (c_zen0 (p_delta s) (p_ra s) (p_gmst (nem E) s) (rnd E lo) (rnd E la)). split; [apply Hz|]. split; [|split].
      + exact (is_zenith_plain _ _ _ _ Hz).
      + unfold psa_parallax. rewrite EM_eq. reflexivity.
      + apply azimuth_turn. lra.
    - intros r. cbn [ne_psa lib_2d lib_time lib_cast]. rewrite ofZ_fin, ne_psa_time_R' by exact Hs. ext_ops. rewrite !fin_fun.
      rewrite ne_psa_cell_R by (fold s; lra). unfold c_zen. now rewrite psa_finish_saem.
  Qed.

  Lemma value_pypsa : ideal E -> value_spec "psa" "numpy" (py_psa (O := ExtOps E)) (p_delta (IZR (sec_of t))) (p_eot (IZR (sec_of t))) (p_ecf (IZR (sec_of t))).
  Proof.
    intros HE.
    set (s := IZR (sec_of t)). assert (Hc := cos_dec_b (p_delta s) ltac:(pose proof (p_delta_b s Hs); lra)).
    destruct psa_gmst_k' as (n & Hn). destruct (p_eot_thm s Hs) as [_ (k & Hk)].
    set (h := c_H (p_ra s) (p_gmst Rfloor_mod s) (rnd E lo)).
    assert (Hq : q_cosz E (p_delta s) (p_ra s) (p_gmst Rfloor_mod s) (rnd E lo) (rnd E la) = sun_U (rnd E la * (PI / 180)) (p_delta s) h).
    { unfold q_cosz, q_sl, q_cl, q_phi, sun_U. rewrite !HE. fold h. unfold h. rewrite !HE. ring. }
    assert (Hu : -1 <= Rround6 (sun_U (rnd E la * (PI / 180)) (p_delta s) h) <= 1).
    { apply round6_unit. pose proof (sun_U_bound (rnd E la * (PI / 180)) (p_delta s) h). lra. }
    set (z0 := acos (Rround6 (sun_U (rnd E la * (PI / 180)) (p_delta s) h))).
    assert (Hz : 0 <= z0 <= PI) by apply acos_bound.
    exists h, (psa_parallax z0), (q_az E (p_delta s) (p_ra s) (p_gmst Rfloor_mod s) (rnd E lo) (rnd E la)).
    split; [reflexivity|]. split; [apply (psa_hour Rfloor_mod t (rnd E lo) n k Hs Hn Hk)|].
    split; [|split; [apply psa_parallax_b, Hz|split; [apply turn_range, Ratan2_range|]]].
    - exists z0. split; [exact Hz|]. split; [|split].
      + unfold z0. rewrite cos_acos by exact Hu. apply round6_err.
      + unfold psa_parallax. rewrite EM_eq. reflexivity.
      + change (used E "psa" la) with (rnd E la). unfold q_az, q_sl, q_cl, q_phi, psa_az. rewrite !HE. fold h.
        replace h with (c_H (p_ra s) (p_gmst Rfloor_mod s) lo) by (unfold h; now rewrite HE). apply azimuth_turn. lra.
    - intros r. cbn [py_psa lib_2d lib_time lib_cast]. rewrite ofZ_fin, py_psa_time_R by exact Hs. ext_ops. rewrite !fin_fun.
      rewrite py_psa_cell_R by (fold s; rewrite ?Hq; assumption || lra). unfold q_zen, q_zen0. fold s. rewrite Hq. fold z0. now rewrite psa_finish_saem.
  Qed.

  (** psa/numpy with an accurate float32 rounding: still defined and in range. *)
  Lemma range_pypsa : rnd_accurate E -> exists z a, 0 <= z <= PI /\ - PI <= a < PI /\
    forall r, lib_2d (py_psa (O := ExtOps E)) r (lib_time (py_psa (O := ExtOps E)) (sec_of t)) (Fin (rnd E lo)) (Fin (rnd E la))
              = (if r then refracted E "psa" z else Fin z, Fin a).
  Proof.
    intros HE.
    set (s := IZR (sec_of t)). assert (Hc := cos_dec_b (p_delta s) ltac:(pose proof (p_delta_b s Hs); lra)).
    assert (Hu := q_unit E (p_delta s) (p_ra s) (p_gmst Rfloor_mod s) (rnd E lo) (rnd E la) HE).
    exists (psa_parallax (q_zen0 E (p_delta s) (p_ra s) (p_gmst Rfloor_mod s) (rnd E lo) (rnd E la))), (q_az E (p_delta s) (p_ra s) (p_gmst Rfloor_mod s) (rnd E lo) (rnd E la)).
    split; [apply psa_parallax_b, acos_bound|]. split; [apply turn_range, Ratan2_range|].
    intros r. cbn [py_psa lib_2d lib_time]. rewrite ofZ_fin, py_psa_time_R by exact Hs.
    rewrite py_psa_cell_R by (fold s; assumption || lra). unfold q_zen. fold s. now rewrite psa_finish_saem.
  Qed.

  Lemma st_value eng (m : spalib ext) md :
    mod_spec md ->
    (forall r, lib_2d m r (lib_time m (sec_of t)) (lib_cast m (Fin lo)) (lib_cast m (Fin la))
       = (st_finish E r (s_zen0 (t_agst (IZR (sec_of t))) (t_ra md (IZR (sec_of t))) (t_dec md (IZR (sec_of t))) (rnd E lo) (rnd E la)),
          Fin (s_az (t_agst (IZR (sec_of t))) (t_ra md (IZR (sec_of t))) (t_dec md (IZR (sec_of t))) (rnd E lo) (rnd E la)))) ->
    md = (if String.eqb eng "numpy" then Rfloor_mod else nem E) ->
    value_spec "soltrack" eng m (t_dec md (IZR (sec_of t))) (t_eot md (IZR (sec_of t))) (t_ecf (IZR (sec_of t))).
  Proof.
    intros Hm Hv Hmd. set (s := IZR (sec_of t)) in *.
    assert (Hc := cos_dec_b (t_dec md s) ltac:(pose proof (t_dec_b s Hs md); lra)).
    destruct (t_eot_thm md Hm s Hs) as [_ (k & Hk)].
    pose proof (s_zen0_spec (t_agst s) (t_ra md s) (t_dec md s) (rnd E lo) (rnd E la)) as Hz.
    set (z0 := s_zen0 _ _ _ _ _) in *.
    exists (s_H (t_agst s) (t_ra md s) (rnd E lo)), (st_parallax z0), (s_az (t_agst s) (t_ra md s) (t_dec md s) (rnd E lo) (rnd E la)).
    split; [unfold hour_angle_of; cbn [String.eqb Ascii.eqb Bool.eqb]; rewrite <- Hmd; reflexivity|]. split; [apply (st_hour md t (rnd E lo) k Hs Hk)|].
    split; [|split; [apply st_parallax_b, Hz|split; [apply Ratan2_range|]]].
    - exists z0. split; [apply Hz|]. split; [|split].
      + unfold cos_tol. cbn [String.eqb andb]. exact (is_zenith_plain _ _ _ _ Hz).
      + unfold st_parallax. f_equal. f_equal. q2r.
      + apply s_az_spec. lra.
    - intros r. rewrite Hv. destruct r; reflexivity.
  Qed.
  Lemma value_nesol : value_spec "soltrack" "numexpr" (ne_soltrack (O := ExtOps E)) (t_dec (nem E) (IZR (sec_of t))) (t_eot (nem E) (IZR (sec_of t))) (t_ecf (IZR (sec_of t))).
  Proof.
    apply st_value; [apply nem_mod_spec| |reflexivity]. intros r. cbn [ne_soltrack lib_2d lib_time lib_cast].
    rewrite ofZ_fin, ne_soltrack_time_R by exact Hs. ext_ops. rewrite !fin_fun. apply ne_soltrack_cell_R.
    pose proof (cos_dec_b (t_dec (nem E) (IZR (sec_of t))) ltac:(pose proof (t_dec_b _ Hs (nem E)); lra)). lra.
  Qed.
  Lemma value_pysol : ideal E -> value_spec "soltrack" "numpy" (py_soltrack (O := ExtOps E)) (t_dec Rfloor_mod (IZR (sec_of t))) (t_eot Rfloor_mod (IZR (sec_of t))) (t_ecf (IZR (sec_of t))).
  Proof.
    intros HE. apply st_value; [apply floor_mod_mod_spec| |reflexivity]. intros r. cbn [py_soltrack lib_2d lib_time lib_cast].
    rewrite ofZ_fin, py_soltrack_time_R by exact Hs. ext_ops. rewrite !fin_fun. apply py_soltrack_cell_R; [exact HE| |now rewrite HE].
    pose proof (cos_dec_b (t_dec Rfloor_mod (IZR (sec_of t))) ltac:(pose proof (t_dec_b _ Hs Rfloor_mod); lra)). lra.
  Qed.

  Lemma iq_value eng (m : spalib ext) : ideal E ->
    let s := sec_of t in
    (forall r, lib_2d m r (lib_time m s) (lib_cast m (Fin lo)) (lib_cast m (Fin la))
       = (i_finish (i_std s) (i_eoth s) (i_dec s) (rnd E lo) (rnd E la) r, Fin (i_az (i_std s) (i_eoth s) (i_dec s) (rnd E lo) (rnd E la)))) ->
    value_spec "iqbal" eng m (i_dec s) (i_eoth s * Q2R 60) (i_ecf s).
  Proof.
    intros HE s Hv.
    assert (Hc : 0.9 <= cos (i_dec s)) by (apply cos_dec_b; pose proof (i_dec_b (i_ang s)) as H; change (i_dec0 (i_ang s)) with (i_dec s) in H; lra).
    assert (He : -0.3 <= i_eoth s <= 0.3).
    { pose proof (i_eot_b (i_ang s)). unfold i_eoth. q2. lra. }
    pose proof (i_zen0_spec (i_std s) (i_eoth s) (i_dec s) (rnd E lo) (rnd E la)) as Hz.
    set (z0 := i_zen0 _ _ _ _ _) in *.
    exists (i_H (i_std s) (i_eoth s) (rnd E lo)), z0, (i_az (i_std s) (i_eoth s) (i_dec s) (rnd E lo) (rnd E la)).
    split; [reflexivity|]. split; [apply (iq_hour t (rnd E lo) (i_eoth s)); [rewrite HE; lra|exact He]|].
    split; [|split; [apply Hz|split; [apply turn_range, Ratan2_range|]]].
    - exists z0. split; [apply Hz|]. assert (Ep : rnd E la * (PI / 180) = i_phi (rnd E la)) by (unfold i_phi; f_equal; f_equal; q2r).
      cbn [used String.eqb Ascii.eqb Bool.eqb]. change (used E "iqbal" la) with (rnd E la). rewrite Ep. split; [|split].
      + unfold cos_tol. cbn [String.eqb andb]. exact (is_zenith_plain _ _ _ _ Hz).
      + unfold parallax_coef. cbn [String.eqb Ascii.eqb Bool.eqb]. ring.
      + apply i_az_spec. lra.
    - intros r. rewrite Hv. unfold i_finish. destruct r; reflexivity.
  Qed.
  Lemma value_neiq : ideal E -> value_spec "iqbal" "numexpr" (ne_iqbal (O := ExtOps E)) (i_dec (sec_of t)) (i_eoth (sec_of t) * Q2R 60) (i_ecf (sec_of t)).
  Proof.
    intros HE. apply iq_value; [exact HE|]. intros r. cbn [ne_iqbal lib_2d lib_time lib_cast].
    rewrite (proj1 (iq_time_R E (sec_of t))). ext_ops. rewrite !fin_fun. apply ne_iqbal_cell_R; [exact HE|].
    pose proof (cos_dec_b (i_dec (sec_of t))) as H. pose proof (i_dec_b (i_ang (sec_of t))) as H'. change (i_dec0 (i_ang (sec_of t))) with (i_dec (sec_of t)) in H'. lra.
  Qed.
  Lemma value_pyiq : ideal E -> value_spec "iqbal" "numpy" (py_iqbal (O := ExtOps E)) (i_dec (sec_of t)) (i_eoth (sec_of t) * Q2R 60) (i_ecf (sec_of t)).
  Proof.
    intros HE. apply iq_value; [exact HE|]. intros r. cbn [py_iqbal lib_2d lib_time lib_cast].
    rewrite (proj2 (iq_time_R E (sec_of t))). ext_ops. rewrite !fin_fun. apply py_iqbal_cell_R; [exact HE|].
    pose proof (cos_dec_b (i_dec (sec_of t))) as H. pose proof (i_dec_b (i_ang (sec_of t))) as H'. change (i_dec0 (i_ang (sec_of t))) with (i_dec (sec_of t)) in H'. lra.
  Qed.

  Lemma value_nrel : value_spec "nrel" "numexpr" (ne_nrel (O := ExtOps E)) (n_delta (nem E) (IZR (sec_of t))) (n_eot (nem E) (IZR (sec_of t))) (n_ecf (IZR (sec_of t))).
  Proof.
    set (s := IZR (sec_of t)). set (md := nem E).
    assert (Hc := cos_dec_b (n_delta md s) ltac:(pose proof (n_delta_b s Hs md); lra)).
    destruct (n_eot_thm md (nem_mod_spec E) s Hs) as [_ (k & Hk)].
    assert (HR := n_R_b s Hs).
    assert (Hx := m_xi_b (n_R s) HR).
    set (al := n_alpha md s) in *. set (del := n_delta md s) in *. set (v := n_v md s) in *.
    pose proof (m_zen0_spec md al del v (n_R s) lo la) as Hz. set (z0 := m_zen0 _ _ _ _ _ _ _) in *.
    exists (m_H md al v lo), z0, (m_az md al del v (n_R s) lo la).
    split; [reflexivity|]. split; [apply (nrel_hour md t lo k (nem_mod_spec E) Hs Hk)|].
    split; [|split; [apply Hz|split; [apply Ratan2_range|]]].
    - destruct (topo_spec (n_x (m_phi la)) (n_y (m_phi la)) (sin (m_xi (n_R s))) del (m_H md al v lo) (n_x_b la) (n_y_b la) ltac:(lra) Hc) as (rho & Hr & K1 & K2 & K3).
      destruct (n_u_spec (m_phi la) cos_used) as (U1 & U2 & U3).
      exists (n_u (m_phi la)), rho, (m_dp md al del v (n_R s) lo la), (m_Hp md al del v (n_R s) lo la).
      assert (Ex : 8.794 / 3600 * sqrt (n_ecf s) * (PI / 180) = m_xi (n_R s)).
      { unfold m_xi, n_ecf. replace (#1 / n_R s ^ 2) with ((/ n_R s) * (/ n_R s)) by (qs; field; lra).
        rewrite sqrt_square by (apply Rlt_le, Rinv_0_lt_compat; lra). q2. field. lra. }
      cbv zeta. rewrite Ex. change (used E "nrel" la * (PI / 180)) with (m_phi la).
      assert (Hcd := t_dp_cos (n_x (m_phi la)) (n_y (m_phi la)) (sin (m_xi (n_R s))) del (m_H md al v lo) (n_x_b la) ltac:(lra) Hc).
      apply Rabs_le_inv in Hr. unfold n_x, n_y in K1, K2, K3.
      split; [exact U1|]. split; [exact U2|]. split; [exact U3|]. split; [lra|]. split; [exact Hcd|].
      split; [etransitivity; [exact K1|ring]|]. split; [exact K2|]. split; [etransitivity; [exact K3|ring]|].
      split; [exact Hz|]. apply m_az_spec, Hcd.
    - intros r. cbn [ne_nrel lib_2d lib_time lib_cast]. rewrite ofZ_fin, ne_nrel_time_R by exact Hs.
      fold s. fold md. fold al del v. rewrite ne_nrel_cell_R by assumption. fold md. fold z0. destruct r; reflexivity.
  Qed.

  Lemma cell_value alg eng m d eot ecf :
    In (alg, eng, m) (supported (O := ExtOps E)) -> exact_for E alg eng ->
    lib_dec m (lib_time m (sec_of t)) = Fin d -> lib_eot m (lib_time m (sec_of t)) = Fin eot ->
    lib_ecf m (lib_time m (sec_of t)) = Fin ecf -> value_spec alg eng m d eot ecf.
  Proof.
    intros Hin Hx. cbn [supported In] in Hin.
    destruct Hin as [H|[H|[H|[H|[H|[H|[H|[]]]]]]]]; injection H as <- <- <-;
      cbn [py_psa ne_psa py_soltrack ne_soltrack py_iqbal ne_iqbal ne_nrel lib_T lib_time lib_dec lib_eot lib_ecf]; rewrite ?ofZ_fin.
    - rewrite py_psa_time_R by exact Hs. cbn [psa_delta psa_eot psa_ecf]. intros [= <-] [= <-] [= <-]. apply value_pypsa.
      destruct Hx as [Hx|[Hx|[Hx _]]]; [exact Hx|discriminate Hx..].
    - rewrite ne_psa_time_R' by exact Hs. cbn [psa_delta psa_eot psa_ecf]. intros [= <-] [= <-] [= <-]. apply value_nepsa.
    - rewrite py_soltrack_time_R by exact Hs. cbn [st_dec st_eot st_ecf]. intros [= <-] [= <-] [= <-]. apply value_pysol.
      destruct Hx as [Hx|[Hx|[Hx _]]]; [exact Hx|discriminate Hx..].
    - rewrite ne_soltrack_time_R by exact Hs. cbn [st_dec st_eot st_ecf]. intros [= <-] [= <-] [= <-]. apply value_nesol.
    - rewrite (proj2 (iq_time_R E (sec_of t))). cbn [iq_dec iq_eot iq_ecf]. ext_ops. rewrite fin_mul. intros [= <-] [= <-] [= <-]. apply value_pyiq.
      destruct Hx as [Hx|[Hx|[Hx _]]]; [exact Hx|discriminate Hx..].
    - rewrite (proj1 (iq_time_R E (sec_of t))). cbn [iq_dec iq_eot iq_ecf]. ext_ops. rewrite fin_mul. intros [= <-] [= <-] [= <-]. apply value_neiq.
      destruct Hx as [Hx|[Hx|[_ [Hx|Hx]]]]; [exact Hx|discriminate Hx..].
    - rewrite ne_nrel_time_R by exact Hs. cbn [nr_delta nr_eot]. unfold nrel_ecf. cbn [nr_R]. ext_ops.
      rewrite fin_powi, fin_div by (apply n_R2_nz; exact Hs). intros [= <-] [= <-] [= <-]. apply value_nrel.
  Qed.
End Value.
