(** * Astro: values of the seven implementations, uniformly *)

From Coq Require Import ZArith QArith Reals Bool List String Lra Lia.
From Flocq Require Import Core.Raux.
From Interval Require Import Tactic.
From Verif Require Import Num Arrays Libspa Time Core Usecases Spec GenericLemmas GenericLemmas2 Ext ExtLemmas ExactLaws
  Sky AstroTac Refraction AstroSpec Calendar
  Psa PsaR PsaCell Soltrack SoltrackR SoltrackCell Iqbal IqbalR Nrel NrelR NrelCell.
Import ListNotations.
Open Scope R_scope.

Definition sec_of (t : Z) : Z := (t / 1000000000)%Z.
Lemma sec_range t : representable t -> in_ns_range (IZR (sec_of t)).
Proof.
  intros [H1 H2]. unfold in_ns_range, sec_of.
  assert (-9223372037 <= t / 1000000000 <= 9223372037)%Z.
  { split; [apply Z.div_le_lower_bound; lia|apply Z.div_le_upper_bound; lia]. }
  split; apply IZR_le; lia.
Qed.

(** The time of day against the number of days. *)
Lemma utc_days t : exists n : Z, utc_hours t = (IZR (sec_of t) / 86400 - IZR n) * 24.
Proof.
  exists (sec_of t / 86400)%Z. unfold utc_hours. fold (sec_of t). rewrite Z.mod_eq by lia.
  rewrite minus_IZR, mult_IZR. field.
Qed.

(** ** The location-independent outputs, for every environment *)
Lemma time_value (E : Env) alg eng m s :
  In (alg, eng, m) (supported (O := ExtOps E)) -> in_ns_range (IZR s) ->
  exists d eot ecf,
    lib_dec m (lib_time m s) = Fin d /\ lib_eot m (lib_time m s) = Fin eot /\ lib_ecf m (lib_time m s) = Fin ecf /\
    -0.411 <= d <= 0.411 /\ Rabs eot <= 18.1 /\ 0.96 <= ecf <= 1.04.
Proof.
  intros Hin Hs. cbn [supported In] in Hin.
  destruct Hin as [H|[H|[H|[H|[H|[H|[H|[]]]]]]]]; injection H as <- <- <-; cbn [py_psa ne_psa py_soltrack ne_soltrack py_iqbal ne_iqbal ne_nrel lib_T lib_time lib_dec lib_eot lib_ecf ofZ].
  - change (ofZ (Ops := ExtOps E) s) with (Fin (IZR s)). rewrite py_psa_time_R by exact Hs. do 3 eexists. repeat (split; [reflexivity|]).
    pose proof (p_delta_b _ Hs). destruct (p_eot_thm _ Hs) as [H1 _]. pose proof (p_ecf_b _ Hs). repeat split; lra.
  - change (ofZ (Ops := ExtOps E) s) with (Fin (IZR s)). rewrite ne_psa_time_R' by exact Hs. do 3 eexists. repeat (split; [reflexivity|]).
    pose proof (p_delta_b _ Hs). destruct (p_eot_thm _ Hs) as [H1 _]. pose proof (p_ecf_b _ Hs). repeat split; lra.
  - change (ofZ (Ops := ExtOps E) s) with (Fin (IZR s)). rewrite py_soltrack_time_R by exact Hs. do 3 eexists. repeat (split; [reflexivity|]).
    pose proof (t_dec_b _ Hs Rfloor_mod). destruct (t_eot_thm _ floor_mod_mod_spec _ Hs) as [H1 _]. pose proof (t_ecf_b _ Hs). repeat split; lra.
  - change (ofZ (Ops := ExtOps E) s) with (Fin (IZR s)). rewrite ne_soltrack_time_R by exact Hs. do 3 eexists. repeat (split; [reflexivity|]).
    pose proof (t_dec_b _ Hs (nem E)). destruct (t_eot_thm _ (nem_mod_spec E) _ Hs) as [H1 _]. pose proof (t_ecf_b _ Hs). repeat split; lra.
  - rewrite (proj2 (iq_time_R E s)). do 3 eexists. repeat (split; [reflexivity|]).
    pose proof (i_dec_b (i_ang s)). pose proof (i_eot_b (i_ang s)). pose proof (i_ecf_b (i_ang s)).
    change (i_dec s) with (i_dec0 (i_ang s)). change (i_ecf s) with (i_ecf0 (i_ang s)).
    replace (i_eoth s * Q2R 60) with (i_eot0 (i_ang s)) by (unfold i_eoth; q2; field).
    repeat split; try lra. apply Rabs_le. lra.
  - rewrite (proj1 (iq_time_R E s)). do 3 eexists. repeat (split; [reflexivity|]).
    pose proof (i_dec_b (i_ang s)). pose proof (i_eot_b (i_ang s)). pose proof (i_ecf_b (i_ang s)).
    change (i_dec s) with (i_dec0 (i_ang s)). change (i_ecf s) with (i_ecf0 (i_ang s)).
    replace (i_eoth s * Q2R 60) with (i_eot0 (i_ang s)) by (unfold i_eoth; q2; field).
    repeat split; try lra. apply Rabs_le. lra.
  - change (ofZ (Ops := ExtOps E) s) with (Fin (IZR s)). rewrite ne_nrel_time_R by exact Hs. do 3 eexists. split; [reflexivity|]. split; [reflexivity|].
    unfold nrel_ecf. cbn [nr_R]. ext_ops. rewrite fin_powi, fin_div by (apply n_R2_nz; exact Hs). split; [reflexivity|].
    change (#1 / n_R (IZR s) ^ 2) with (n_ecf (IZR s)).
    pose proof (n_delta_b _ Hs (nem E)). destruct (n_eot_thm _ (nem_mod_spec E) _ Hs) as [H1 _]. pose proof (n_ecf_b _ Hs). repeat split; lra.
Qed.

Lemma cos_dec_b d : -0.411 <= d <= 0.411 -> 0.9 <= cos d.
Proof. intros H. interval. Qed.

(** ** Hour angles *)
Lemma psa_hour md t lon (n : Z) k :
  in_ns_range (IZR (sec_of t)) ->
  let s := IZR (sec_of t) in
  md (s / #86400) #1 = s / #86400 - IZR n * #1 ->
  p_eot s = 4 * (p_L s - p_ra s) * (180 / PI) + 1440 * IZR k ->
  near_turn (c_H (p_ra s) (p_gmst md s) lon) (solar_hour_angle t lon (p_eot s)) (37 / 100000).
Proof.
  intros Hs s Hn He. destruct (utc_days t) as (n' & Hn'). unfold near_turn, solar_hour_angle, c_H, p_gmst, p_dh.
  rewrite Hn', Hn, He. exists (n' - n - k)%Z. fold s.
  assert (Hj := p_jde_b s Hs).
  match goal with |- Rabs ?x <= _ => replace x with
    ((#6.697096103 * #15 * (PI / 180) - #4.895036035 + PI) + (#6.570984737e-2 * #15 * (PI / 180) - #1.720279602e-2) * p_jde s) end.
  2:{ rewrite !minus_IZR. unfold p_L. set (j := p_jde s). q2. field. apply PI_neq. }
  generalize dependent (p_jde s). intros j Hj. q2. interval with (i_prec 60).
Qed.

Lemma st_hour md t lon k :
  in_ns_range (IZR (sec_of t)) ->
  let s := IZR (sec_of t) in
  t_eot md s = 4 * ((t_l0 s - t_ra md s + t_dpsi s * cos (t_obl s)) * (180 / PI) - 0.0057183) + 1440 * IZR k ->
  near_turn (s_H (t_agst s) (t_ra md s) lon) (solar_hour_angle t lon (t_eot md s)) (2 / 100000).
Proof.
  intros Hs s He. destruct (utc_days t) as (n' & Hn'). unfold near_turn, solar_hour_angle, s_H, t_agst, t_gmst.
  rewrite Hn', He. exists (n' - k - 10957)%Z. fold s.
  assert (Hj := t_JC_b s Hs).
  match goal with |- Rabs ?x <= _ => replace x with
    ((#4.89496121 - #4.895063168 + 57183 / 10000000 * (PI / 180)) + ((#6.300388098985 - 2 * PI) * #36525.0 - #628.331966786) * t_JC s
      + (#6.77e-6 - #5.291838e-6) * t_JC s ^ 2) end.
  2:{ rewrite !minus_IZR. unfold t_l0, t_JC2, t_JC, t_JD. q2. field. apply PI_neq. }
  generalize dependent (t_JC s). intros j Hj. q2. interval with (i_bisect j, i_prec 80).
Qed.

Lemma nrel_hour md t lon k :
  mod_spec md -> in_ns_range (IZR (sec_of t)) ->
  let s := IZR (sec_of t) in
  n_eot md s = 4 * (n_m s - n_alpha md s - 0.0057183 + n_dpsi s * cos (n_eps s)) + 1440 * IZR k ->
  near_turn (m_H md (n_alpha md s) (n_v md s) lon) (solar_hour_angle t lon (n_eot md s)) (2 / 100000).
Proof.
  intros Hm Hs s He. destruct (utc_days t) as (n' & Hn'). destruct (m_H_spec md (n_alpha md s) (n_v md s) lon Hm) as (k1 & ->).
  unfold n_v, n_v0. 
  destruct (Hm (#280.46061837 + #360.98564736629 * (n_jd s - #2451545) + #0.000387933 * n_jc s ^ 2 - n_jc s ^ 3 / #38710000) #360.0) as (k2 & -> & _); [q2r|].
  unfold near_turn, solar_hour_angle.
  rewrite Hn', He. exists (n' - k - 10957 - k1 - k2)%Z. fold s.
  assert (Hj := n_jce_b s Hs).
  assert (Ej : n_jc s = n_jce s - 67 / 86400 / 36525) by (unfold n_jc, n_jce, n_jde; q2; field).
  assert (Ed : n_jd s - #2451545 = 36525 * n_jce s - 67 / 86400) by (unfold n_jce, n_jde; q2; field).
  assert (Es : s / 86400 = 36525 * n_jce s - 67 / 86400 + 10957.5) by (unfold n_jce, n_jde, n_jd; q2; field).
  rewrite Ed, Ej, Es. unfold n_m, n_jme.
  match goal with |- Rabs ?x <= _ => replace x with
    ((#280.46061837 - #280.4664567 + #0.0057183 - (#360.98564736629 - 360) * (67 / 86400)
     + ((#360.98564736629 - 360) * 36525 - #36000.76982779) * n_jce s
     + (#0.000387933 * (n_jce s - 67 / 86400 / 36525) ^ 2 - (n_jce s - 67 / 86400 / 36525) ^ 3 / #38710000)
     - #0.0003032028 * n_jce s ^ 2 - n_jce s ^ 3 / #49931000 + n_jce s ^ 4 / #153000000 + n_jce s ^ 5 / #200000000000) * (PI / 180)) end.
  2:{ rewrite !minus_IZR. q2. field. }
  generalize dependent (n_jce s). intros j Hj _ _ _. q2. interval with (i_bisect j, i_prec 80).
Qed.

Lemma iq_hour t lon eoth : -180 <= lon <= 180 -> -0.3 <= eoth <= 0.3 ->
  near_turn (i_H (i_std (sec_of t)) eoth lon) (solar_hour_angle t lon (eoth * #60)) 0.
Proof.
  intros Hl He. unfold near_turn, solar_hour_angle, i_H.
  destruct (i_lat_spec (i_std (sec_of t)) (lon / #15.0) eoth (i_std_b _)) as [_ (k & ->)]; [q2; lra|exact He|].
  exists k. rewrite i_std_eq. unfold utc_hours. fold (sec_of t).
  match goal with |- Rabs ?x <= _ => replace x with 0 by (q2; field) end. rewrite Rabs_R0. lra.
Qed.
