(** * SmoothPos: movement of the returned directions *)
From Coq Require Import ZArith QArith Reals Bool List String Lra Lia.
From Flocq Require Import Core.Raux.
From Interval Require Import Tactic.
From Verif Require Import Num Arrays Libspa Time Core Usecases Spec GenericLemmas GenericLemmas2 TimeLemmas Ext ExtLemmas Witness
  AstroTac Sky SkyClose AstroSpec Astro AstroCell AstroCall AstroRefute Float32 PropAstro Psa PsaR Soltrack SoltrackR Iqbal IqbalR Nrel NrelR
  CalendarSpec CalendarLemmas PropCalendar Almanac AlmanacR AlmanacN AlmanacSky AlmanacTime AlmanacIqbal AlmanacPos
  PsaCell SoltrackCell NrelCell PropAlmanac SmoothR SmoothN.
Import ListNotations.
Open Scope R_scope.

(** ** Normalising vectors *)
Definition scale (c : R) (u : vec) : vec := let '(x, y, z) := u in (c * x, c * y, c * z).
Lemma normalise r r' u v m : 0 < m -> m <= r -> m <= r' -> dot u u = 1 -> dot v v = 1 -> m * dist u v <= dist (scale r u) (scale r' v).
Proof.
  intros Hm Hr Hr' Hu Hv. assert (Pd := dist_pos u v). assert (Pe := dist_pos (scale r u) (scale r' v)).
  assert (E : dist (scale r u) (scale r' v) * dist (scale r u) (scale r' v) = (r - r') * (r - r') + r * r' * (dist u v * dist u v)).
  { rewrite (dist_unit u v Hu Hv), dist_sq. destruct u as [[a b] c], v as [[x y] z]. cbn in *.
    transitivity (r * r * (a * a + b * b + c * c) + r' * r' * (x * x + y * y + z * z) - 2 * (r * r') * (a * x + b * y + c * z)); [ring|]. rewrite Hu, Hv. ring. }
  apply Rsqr_incr_0_var; [|exact Pe]. unfold Rsqr. rewrite E. set (D := dist u v) in *. assert (m * m <= r * r') by nra. pose proof (Rle_0_sqr (r - r')). unfold Rsqr in *. assert (0 <= D * D) by nra. nra.
Qed.
Lemma scale_dist c c' u v : 0 <= c -> dot v v <= 1 -> dist (scale c u) (scale c' v) <= c * dist u v + Rabs (c - c').
Proof.
  intros Hc Hv. eapply Rle_trans; [apply (dist_tri _ (scale c v))|]. apply Rplus_le_compat.
  - pose proof (dist_pos u v). apply dist_le; [nra|]. replace (c * dist u v * (c * dist u v)) with (c * c * (dist u v * dist u v)) by ring. rewrite dist_sq. right. destruct u as [[x y] z], v as [[x' y'] z']. cbn. ring.
  - apply dist_le; [apply Rabs_pos|]. rewrite abs_sq. destruct v as [[x y] z]. cbn in *. pose proof (Rle_0_sqr (c - c')). unfold Rsqr in *. nra.
Qed.
Lemma sub_dist a b a' b' : dist (sub a b) (sub a' b') <= dist a a' + dist b b'.
Proof.
  eapply Rle_trans; [apply (dist_tri _ (sub a' b))|]. apply Rplus_le_compat; unfold dist, norm; right; f_equal; destruct a as [[x y] z], b as [[p q] r], a' as [[x' y'] z'], b' as [[p' q'] r']; cbn; ring.
Qed.

(** ** The observer on the ellipsoid *)
Definition FL : R := 0.99664719.
Definition obs (u : R) : vec := (cos u, 0, FL * sin u).
Definition reduced (phi u : R) : Prop := 0 <= cos u /\ 0 <= sin u * sin phi /\ FL * sin phi * cos u = sin u * cos phi.
Lemma reduced_polar phi u : 0 <= cos phi -> reduced phi u -> exists m, FL <= m /\ m * cos u = cos phi /\ m * sin u = FL * sin phi.
Proof.
  intros Hc (U1 & U2 & U3). exists (cos phi * cos u + FL * (sin phi * sin u)). assert (S := sc1 u). assert (Sp := sc1 phi). assert (0 < FL) by (unfold FL; lra).
  assert (E1 : (cos phi * cos u + FL * (sin phi * sin u)) * cos u = cos phi).
  { transitivity (cos phi * (cos u * cos u) + (FL * sin phi * cos u) * sin u); [ring|]. rewrite U3. transitivity (cos phi * (sin u * sin u + cos u * cos u)); [ring|]. rewrite S. ring. }
  assert (E2 : (cos phi * cos u + FL * (sin phi * sin u)) * sin u = FL * sin phi).
  { transitivity ((sin u * cos phi) * cos u + FL * sin phi * (sin u * sin u)); [ring|]. rewrite <- U3. transitivity (FL * sin phi * (sin u * sin u + cos u * cos u)); [ring|]. rewrite S. ring. }
  split; [|split; assumption]. set (m := cos phi * cos u + FL * (sin phi * sin u)) in *.
  assert (Pm : 0 <= m) by (unfold m; assert (0 <= cos phi * cos u) by nra; nra).
  assert (Em : m * m = cos phi * cos phi + FL * FL * (sin phi * sin phi)).
  { transitivity (m * m * (sin u * sin u + cos u * cos u)); [rewrite S; ring|]. transitivity ((m * cos u) * (m * cos u) + (m * sin u) * (m * sin u)); [ring|]. rewrite E1, E2. ring. }
  apply Rsqr_incr_0_var; [|exact Pm]. unfold Rsqr. rewrite Em. assert (FL * FL <= 1) by (unfold FL; lra). pose proof (Rle_0_sqr (cos phi)). unfold Rsqr in *. nra.
Qed.
Lemma obs_lip phi u phi' u' : 0 <= cos phi -> 0 <= cos phi' -> reduced phi u -> reduced phi' u' -> dist (obs u) (obs u') <= 1.004 * Rabs (phi - phi').
Proof.
  intros Hc Hc' H H'. destruct (reduced_polar _ _ Hc H) as (m & Hm & E1 & E2). destruct (reduced_polar _ _ Hc' H') as (m' & Hm' & E1' & E2').
  assert (F : 0 < FL < 1) by (unfold FL; lra). assert (Pa := Rabs_pos (phi - phi')).
  set (p := (cos u, sin u, 0) : vec). set (p' := (cos u', sin u', 0) : vec).
  assert (N : dot p p = 1) by (cbn; pose proof (sc1 u); lra). assert (N' : dot p' p' = 1) by (cbn; pose proof (sc1 u'); lra).
  assert (A := normalise m m' p p' FL ltac:(lra) Hm Hm' N N').
  assert (B : dist (scale m p) (scale m' p') <= Rabs (phi - phi')).
  { apply dist_le; [exact Pa|]. rewrite abs_sq. eapply Rle_trans; [|apply vers]. unfold p, p'. cbn. rewrite E1, E2, E1', E2', cos_minus.
    apply Rle_trans with ((cos phi - cos phi') * (cos phi - cos phi') + (sin phi - sin phi') * (sin phi - sin phi')).
    - replace ((FL * sin phi - FL * sin phi') * (FL * sin phi - FL * sin phi')) with (FL * FL * ((sin phi - sin phi') * (sin phi - sin phi'))) by ring. pose proof (Rle_0_sqr (sin phi - sin phi')). unfold Rsqr in *. assert (FL * FL <= 1) by nra. nra.
    - pose proof (sc1 phi). pose proof (sc1 phi'). nra. }
  assert (C : dist (obs u) (obs u') <= dist p p').
  { apply dist_le; [apply dist_pos|]. rewrite dist_sq. unfold obs, p, p'. cbn. replace ((FL * sin u - FL * sin u') * (FL * sin u - FL * sin u')) with (FL * FL * ((sin u - sin u') * (sin u - sin u'))) by ring.
    pose proof (Rle_0_sqr (sin u - sin u')). unfold Rsqr in *. assert (FL * FL <= 1) by nra. nra. }
  assert (G : FL * dist p p' <= Rabs (phi - phi')) by lra. unfold FL in G. lra.
Qed.
Lemma obs_norm u : dot (obs u) (obs u) <= 1.
Proof. cbn. pose proof (sc1 u). pose proof (Rle_0_sqr (sin u)). unfold Rsqr, FL in *. lra. Qed.
Definition par (ecf : R) : R := sin (8.794 / 3600 * sqrt ecf * (PI / 180)).
Lemma par_b ecf : 0.96 <= ecf <= 1.04 -> 0 <= par ecf <= 0.0000436.
Proof.
  intros B. assert (0.97 <= sqrt ecf <= 1.02). { split; [apply Rsqr_incr_0_var; [|apply sqrt_pos]|apply Rsqr_incr_0_var; [|lra]]; rewrite Rsqr_sqrt by lra; unfold Rsqr; lra. }
  unfold par. generalize dependent (sqrt ecf). intros q Hq. split; interval.
Qed.
Lemma topo_vec phi d h ecf z a : sky_topo phi d h ecf z a -> exists u rho, reduced phi u /\ 0 < rho /\
  scale rho (sky z a) = sub (hor phi d h) (scale (par ecf) (look phi (obs u))).
Proof.
  intros (u & rho & d' & h' & H7). cbv zeta in H7. destruct H7 as (U1 & U2 & U3 & R1 & R2 & K1 & K2 & K3 & [Bz Z] & A).
  destruct (is_azimuth_sky _ _ _ _ A) as (zt & Bt & Ht & Ct). assert (zt = z).
  { rewrite <- (acos_cos zt) by lra. rewrite <- (acos_cos z) by lra. now rewrite Ct, Z. } subst zt. rewrite <- Ht. exists u, rho. split; [split; [exact U1|split; [exact U2|exact U3]]|]. split; [exact R1|].
  fold (par ecf) in *. unfold hor, obs, look, scale, sub, sun_S, sun_W, sun_U, FL.
  apply (f_equal2 pair); [apply (f_equal2 pair)|].
  - transitivity (sin phi * (rho * (cos d' * cos h')) - cos phi * (rho * sin d')); [ring|]. rewrite K1, K3. ring.
  - rewrite K2. ring.
  - transitivity (sin phi * (rho * sin d') + cos phi * (rho * (cos d' * cos h'))); [ring|]. rewrite K1, K3. ring.
Qed.
Lemma topo_lip phi d h ecf z a phi' d' h' ecf' z' a' : 0 <= cos phi -> 0 <= cos phi' -> 0.96 <= ecf <= 1.04 -> 0.96 <= ecf' <= 1.04 ->
  sky_topo phi d h ecf z a -> sky_topo phi' d' h' ecf' z' a' ->
  dist (sky z a) (sky z' a') <= 1.0000437 * (dist (hor phi d h) (hor phi' d' h') + 0.0000875 * Rabs (phi - phi') + Rabs (par ecf - par ecf')).
Proof.
  intros Hc Hc' He He' H H'. destruct (topo_vec _ _ _ _ _ _ H) as (u & rho & U & R & E). destruct (topo_vec _ _ _ _ _ _ H') as (u' & rho' & U' & R' & E').
  assert (B := par_b _ He). assert (B' := par_b _ He').
  assert (Rb : forall phi d h u p rho z a, 0 <= p <= 0.0000436 -> 0 < rho -> scale rho (sky z a) = sub (hor phi d h) (scale p (look phi (obs u))) -> 0.9999564 <= rho).
  { intros phi0 d0 h0 u0 p r z0 a0 Hp Hr Ev. assert (N : norm (scale r (sky z0 a0)) = r).
    { unfold norm. replace (dot (scale r (sky z0 a0)) (scale r (sky z0 a0))) with (r * r * dot (sky z0 a0) (sky z0 a0)) by (cbn; ring). rewrite sky_unit, Rmult_1_r. apply sqrt_square. lra. }
    assert (T := dist_tri (hor phi0 d0 h0) (scale p (look phi0 (obs u0))) (0, 0, 0)). unfold dist at 1 in T.
    assert (N1 : norm (sub (hor phi0 d0 h0) (0, 0, 0)) = 1). { unfold norm. replace (dot _ _) with (dot (hor phi0 d0 h0) (hor phi0 d0 h0)) by (cbn; ring). rewrite hor_unit. apply sqrt_1. }
    assert (N2 : dist (scale p (look phi0 (obs u0))) (0, 0, 0) <= p).
    { apply dist_le; [lra|]. set (w := look phi0 (obs u0)). assert (W : dot w w <= 1) by (unfold w; rewrite look_norm; apply obs_norm). destruct w as [[x y] zz]. cbn in *. nra. }
    rewrite N1 in T. unfold dist at 1 in T. rewrite <- Ev, N in T. lra. }
  assert (Hr := Rb _ _ _ _ _ _ _ _ B R E). assert (Hr' := Rb _ _ _ _ _ _ _ _ B' R' E').
  assert (M := normalise rho rho' (sky z a) (sky z' a') 0.9999564 ltac:(lra) Hr Hr' (sky_unit z a) (sky_unit z' a')). rewrite E, E' in M.
  assert (S1 := sub_dist (hor phi d h) (scale (par ecf) (look phi (obs u))) (hor phi' d' h') (scale (par ecf') (look phi' (obs u')))).
  assert (S2 := scale_dist (par ecf) (par ecf') (look phi (obs u)) (look phi' (obs u')) ltac:(lra) ltac:(rewrite look_norm; apply obs_norm)).
  assert (S3 := look_lip phi phi' (obs u) (obs u') _ (turn_abs _ _ _ (Rle_refl _)) (obs_norm u')). assert (S4 := obs_lip _ _ _ _ Hc Hc' U U').
  assert (Pa := Rabs_pos (phi - phi')). assert (Pp := Rabs_pos (par ecf - par ecf')). assert (Pd := dist_pos (hor phi d h) (hor phi' d' h')).
  set (w := dist (look phi (obs u)) (look phi' (obs u'))) in *. assert (Pw : 0 <= w) by apply dist_pos.
  assert (S5 : par ecf * w <= 0.0000436 * (2.004 * Rabs (phi - phi'))) by (apply Rmult_le_compat; lra). lra.
Qed.

(** ** The elements behind a result *)
Definition el_l (alg : string) (s : R) : R := if String.eqb alg "psa" then p_l s else if String.eqb alg "soltrack" then u_lon s else m_lam s.
Definition el_b (alg : string) (s : R) : R := if String.eqb alg "nrel" then n_beta s else 0.
Definition el_e (alg : string) (s : R) : R := if String.eqb alg "psa" then p_ep s else if String.eqb alg "soltrack" then t_obl s else n_eps s.
Definition el_th (alg : string) (s : R) : R := if String.eqb alg "psa" then p_th s else if String.eqb alg "soltrack" then t_agst s else m_th s.
Definition el_ecf (alg : string) (s : R) : R := if String.eqb alg "psa" then p_ecf s else if String.eqb alg "soltrack" then t_ecf s else n_ecf s.
(** Rates per second of longitude, latitude, obliquity, sidereal angle and eccentricity correction. *)
Lemma el_lip alg s s' : in_ns_range s -> in_ns_range s' -> alg = "psa"%string \/ alg = "soltrack"%string \/ alg = "nrel"%string ->
  let D := Rabs (s - s') in
  Rabs (el_l alg s - el_l alg s') <= 0.00000020661 * D /\ Rabs (el_b alg s - el_b alg s') <= 0.00000000032 * D /\ Rabs (el_e alg s - el_e alg s') <= 0.00000000064 * D /\
  Rabs (el_th alg s - el_th alg s') <= 0.0000729222 * D /\ Rabs (el_ecf alg s - el_ecf alg s') <= 0.0000000083 * D /\
  Rabs (par (el_ecf alg s) - par (el_ecf alg s')) <= 0.0000000000002 * D.
Proof.
  intros Hs Hs' H D. assert (P : 0 <= D) by apply Rabs_pos. unfold el_l, el_b, el_e, el_th, el_ecf.
  assert (Q : forall r r', 0.982 <= r <= 1.02 -> 0.982 <= r' <= 1.02 -> Rabs (r - r') <= 0.0000000038 * D -> Rabs (par (1 / r ^ 2) - par (1 / r' ^ 2)) <= 0.0000000000002 * D).
  { intros r r' B B' Hr. unfold par. assert (SQ : forall x, 0.982 <= x -> sqrt (1 / x ^ 2) = 1 / x) by (intros x Hx; replace (1 / x ^ 2) with (1 / x * (1 / x)) by (field; lra); apply sqrt_square; unfold Rdiv; rewrite Rmult_1_l; apply Rlt_le, Rinv_0_lt_compat; lra).
    rewrite !SQ by lra. eapply Rle_trans; [apply sin_lip|]. replace (8.794 / 3600 * (1 / r) * (PI / 180) - 8.794 / 3600 * (1 / r') * (PI / 180)) with (8.794 / 3600 * (PI / 180) * (1 / r - 1 / r')) by (field; lra).
    assert (I := inv_R r r' _ ltac:(lra) ltac:(lra) Hr). rewrite Rabs_mult. assert (0 <= 8.794 / 3600 * (PI / 180) <= 0.000043) by (split; interval). rewrite (Rabs_pos_eq (8.794 / 3600 * (PI / 180))) by lra.
    pose proof (Rabs_pos (1 / r - 1 / r')). apply Rle_trans with (0.000043 * (1.0413 * (0.0000000038 * D))); [apply Rmult_le_compat; lra|lra]. }
  assert (RP : forall x, p_R x = t_R x) by (intros x; apply psa_sol_R).
  destruct H as [->|[->| ->]]; cbn [String.eqb Ascii.eqb Bool.eqb].
  - assert (H1 := p_l_lip s s'). assert (H2 := p_ep_lip s s'). assert (H3 := p_th_lip s s'). fold D in H1, H2, H3.
    assert (HR := t_R_lip s s' Hs Hs'). fold D in HR. assert (B := t_R_b s Hs). assert (B' := t_R_b s' Hs'). assert (HE := t_ecf_lip s s' Hs Hs'). fold D in HE.
    assert (EE : forall x, p_ecf x = t_ecf x) by (intros x; unfold p_ecf, t_ecf; rewrite RP; apply (f_equal2 Rdiv); [q2r|reflexivity]). rewrite !EE. unfold t_ecf in *. replace (#1) with 1 in * by q2r.
    assert (HQ := Q (t_R s) (t_R s') ltac:(lra) ltac:(lra) HR). rewrite Rminus_eq_0, Rabs_R0. repeat split; lra.
  - assert (H1 := u_lon_lip s s' Hs Hs'). assert (H2 := t_obl_lip s s' Hs Hs'). assert (H3 := t_agst_lip s s' Hs Hs'). fold D in H1, H2, H3.
    assert (HR := t_R_lip s s' Hs Hs'). fold D in HR. assert (B := t_R_b s Hs). assert (B' := t_R_b s' Hs'). assert (HE := t_ecf_lip s s' Hs Hs'). fold D in HE.
    unfold t_ecf in *. replace (#1) with 1 in * by q2r. assert (HQ := Q (t_R s) (t_R s') ltac:(lra) ltac:(lra) HR). rewrite Rminus_eq_0, Rabs_R0. repeat split; lra.
  - assert (H0 := n_jce_lip s s'). fold D in H0. assert (H1 := m_lam_lip s s' Hs Hs'). assert (H2 := n_eps_lip s s' Hs Hs'). assert (H3 := m_th_lip s s' Hs Hs'). assert (H4 := n_beta_lip s s' Hs Hs'). assert (HR := n_R_lip s s' Hs Hs'). fold D in H3.
    assert (B := n_R_b s Hs). assert (B' := n_R_b s' Hs'). set (d := Rabs (n_jce s - n_jce s')) in *.
    assert (HR' : Rabs (n_R s - n_R s') <= 0.0000000038 * D) by lra.
    assert (HQ := Q (n_R s) (n_R s') ltac:(lra) ltac:(lra) HR'). unfold n_ecf. replace (#1) with 1 by q2r.
    assert (H5 := inv_R (n_R s) (n_R s') _ ltac:(lra) ltac:(lra) HR').
    assert (I : forall r, 0.9826 <= r -> Rabs (1 / r) <= 1.0184). { intros r Hr. unfold Rdiv. rewrite Rmult_1_l. assert (0 < / r <= / 0.9826) by (split; [apply Rinv_0_lt_compat; lra|apply Rinv_le_contravar; lra]). rewrite Rabs_pos_eq; lra. }
    assert (C := mul_diff (1 / n_R s) (1 / n_R s) (1 / n_R s') (1 / n_R s') _ _ _ _ (I _ (proj1 B)) (I _ (proj1 B')) H5 H5).
    replace (1 / n_R s * (1 / n_R s)) with (1 / n_R s ^ 2) in C by (field; lra). replace (1 / n_R s' * (1 / n_R s')) with (1 / n_R s' ^ 2) in C by (field; lra).
    repeat split; lra.
Qed.

Lemma turn0 x y k : x = y + 2 * PI * IZR k -> near_turn x y 0.
Proof. intros ->. exists k. replace (y + 2 * PI * IZR k - y - 2 * PI * IZR k) with 0 by ring. rewrite Rabs_R0. lra. Qed.
Lemma ecl_turn l b k : ecl (l + 2 * PI * IZR k) b = ecl l b.
Proof. unfold ecl. rewrite <- (cos_2kpi (l + _) k), <- (sin_2kpi (l + _) k). replace (l + 2 * PI * IZR k - 2 * PI * IZR k) with l by ring. reflexivity. Qed.
Lemma call_place E alg eng m t lo d eot ecf : In (alg, eng, m) (supported (O := ExtOps E)) -> alg <> "iqbal"%string -> representable t ->
  time_is E m (t / 1000000000) d eot ecf -> let s := IZR (t / 1000000000) in
  ecf = el_ecf alg s /\
  forall phi, hor phi d (hour_angle_of alg eng (nem E) t lo) = place (el_l alg s) (el_b alg s) (el_e alg s) (el_th alg s + lo * (PI / 180)) phi.
Proof.
  intros Hin Hi Ht T s. assert (Hs := sec_range t Ht). unfold hour_angle_of, sec_of in *. fold s in Hs |- *. pose proof PI_RGT_0 as PP.
  assert (FI : forall a b, Fin a = Fin b -> a = b) by (intros a b H; now injection H).
  assert (PSA : forall md, mod_spec md -> forall phi, hor phi (p_delta s) (c_H (p_ra s) (p_gmst md s) lo) = place (p_l s) 0 (p_ep s) (p_th s + lo * (PI / 180)) phi).
  { intros md Hmd phi. destruct (Hmd (s / #86400) #1) as (n & Hn & _); [q2r|]. destruct (p_ra_spec s) as (_ & k & Hk).
    apply (place_hor _ _ _ (p_ra s) _ _ _ _ (- n)).
    - unfold p_delta. apply (equatorial_plain _ _ _ k). exact Hk.
    - unfold c_H, p_gmst, p_dh, p_th. rewrite Hn, opp_IZR. q2. field. }
  assert (SOL : forall md md', mod_spec md -> mod_spec md' -> forall phi, hor phi (t_dec md' s) (s_H (t_agst s) (t_ra md s) lo) = place (u_lon s) 0 (t_obl s) (t_agst s + lo * (PI / 180)) phi).
  { intros md md' Hmd Hmd' phi. destruct (Hmd (t_ra0 md s) (2 * PI)) as (k1 & E1 & _); [lra|]. fold (t_ra md s) in E1.
    assert (EL : forall f, mod_spec f -> exists k, t_L f s = u_lon s + 2 * PI * IZR k) by (intros f Hf; destruct (Hf (t_l0 s + t_sec s + - #9.93087e-5 / t_R s + t_dpsi s) (2 * PI)) as (k & Hk & _); [lra|]; exists (- k)%Z; unfold t_L; rewrite Hk, opp_IZR; unfold u_lon; ring).
    destruct (EL md Hmd) as (k2 & E2). destruct (EL md' Hmd') as (k3 & E3).
    assert (Ed : t_dec md' s = asin (sin (t_obl s) * sin (t_L md s))).
    { unfold t_dec. rewrite E2, E3. rewrite <- (sin_2kpi (u_lon s + _) k3), <- (sin_2kpi (u_lon s + 2 * PI * IZR k2) k2). do 3 f_equal. ring. }
    rewrite Ed. rewrite (place_hor (t_L md s) 0 (t_obl s) (t_ra md s) _ (t_agst s + lo * (PI / 180)) phi _ 0).
    - unfold place. now rewrite E2, ecl_turn.
    - apply (equatorial_plain _ _ _ (- k1)). rewrite E1, opp_IZR. unfold t_ra0. ring.
    - unfold s_H. ring. }
  cbn [supported In] in Hin.
  destruct Hin as [H|[H|[H|[H|[H|[H|[H|[]]]]]]]]; injection H as <- <- <-; try (exfalso; apply Hi; reflexivity); destruct T as (T1 & _ & T3); cbn [String.eqb Ascii.eqb Bool.eqb]; unfold el_ecf, el_l, el_b, el_e, el_th; cbn [String.eqb Ascii.eqb Bool.eqb].
  - destruct (py_psa_is E (t / 1000000000) Hs) as (V1 & _ & V3). rewrite V1 in T1. rewrite V3 in T3. apply FI in T1, T3. subst d ecf. split; [reflexivity|]. apply PSA, floor_mod_mod_spec.
  - destruct (ne_psa_is E (t / 1000000000) Hs) as (V1 & _ & V3). rewrite V1 in T1. rewrite V3 in T3. apply FI in T1, T3. subst d ecf. split; [reflexivity|]. apply PSA, nem_mod_spec.
  - destruct (py_soltrack_is E (t / 1000000000) Hs) as (V1 & _ & V3). rewrite V1 in T1. rewrite V3 in T3. apply FI in T1, T3. subst d ecf. split; [reflexivity|]. apply SOL; apply floor_mod_mod_spec.
  - destruct (ne_soltrack_is E (t / 1000000000) Hs) as (V1 & _ & V3). rewrite V1 in T1. rewrite V3 in T3. apply FI in T1, T3. subst d ecf. split; [reflexivity|]. apply SOL; apply nem_mod_spec.
  - destruct (ne_nrel_is E (t / 1000000000) Hs) as (V1 & _ & V3). rewrite V1 in T1. rewrite V3 in T3. apply FI in T1, T3. subst d ecf. split; [reflexivity|]. intros phi.
    set (md := nem E) in *. assert (Hmd : mod_spec md) by apply nem_mod_spec. fold s. destruct (m_H_spec md (n_alpha md s) (n_v md s) lo Hmd) as (k1 & ->).
    destruct (Hmd (#280.46061837 + #360.98564736629 * (n_jd s - #2451545) + #0.000387933 * n_jc s ^ 2 - n_jc s ^ 3 / #38710000) #360.0) as (k2 & E2 & _); [q2r|]. fold (n_v0 md s) in E2.
    destruct (Hmd (n_ra0 md s * (180 / PI)) #360) as (k3 & E3 & _); [q2r|]. fold (n_alpha md s) in E3.
    destruct (Hmd ((180 / PI) * nj_Lrad (n_jme s) / #1e8) #360) as (k4 & E4 & _); [q2r|]. fold (n_L md s) in E4.
    destruct (Hmd (n_L md s + #180.0) #360) as (k5 & E5 & _); [q2r|]. fold (n_theta md s) in E5.
    assert (BR := n_R_b s Hs).
    assert (EL : n_lam md s = m_lam s + 2 * PI * IZR (- k4 - k5)).
    { unfold n_lam, m_lam, n_dtau. rewrite E5, E4, minus_IZR, opp_IZR. q2. field. lra. }
    assert (Bb := n_beta_b s Hs).
    rewrite (place_hor (n_lam md s) (n_beta s) (n_eps s) (n_alpha md s * (PI / 180)) _ (m_th s + lo * (PI / 180)) phi _ (- k1 - k2)).
    + unfold place. now rewrite EL, ecl_turn.
    + unfold n_delta, n_sind. replace (cos (n_beta s) * sin (n_eps s) * sin (n_lam md s)) with (cos (n_beta s) * sin (n_lam md s) * sin (n_eps s)) by ring.
      apply (equatorial_polar _ _ _ _ (- k3)).
      * apply Rabs_le_inv in Bb. replace 5.44e-6 with (5.44 / 1000000) in Bb by q2r. apply cos_gt_0; assert (1.5 < PI / 2) by interval; lra.
      * rewrite E3, opp_IZR. unfold n_ra0. replace (#360) with 360 by q2r. field. lra.
    + unfold n_v, m_th. rewrite E2, minus_IZR, opp_IZR. q2. field.
Qed.
