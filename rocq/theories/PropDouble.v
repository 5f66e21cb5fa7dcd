(** * PropDouble: every claim about values survives IEEE double precision (C69; C04, C20, C23-C26, C28, C29, C55 in floating point) *)

From Coq Require Import ZArith QArith Reals Bool List String Lra Lia.
From Flocq Require Import Core.Raux.
From Interval Require Import Tactic.
From Verif Require Import Num Arrays Libspa Time Core Usecases Spec GenericLemmas GenericLemmas2 Ext ExtLemmas
  Sky SkyClose AstroTac AstroSpec SingleSpec SingleLemmas Astro AstroCell AstroCall AstroRefute EngineLemmas Float32 Float32L
  Psa PsaR PsaCell Soltrack SoltrackR SoltrackCell Iqbal IqbalR 
  Double DoubleTac DoubleLemmas DoubleSpec DoubleCore DoubleCell PsaD SoltrackD IqbalD DoublePos Float64.
From Verif Require Import PropAstro PropSingle Almanac AlmanacPos PropAlmanac PropSinglePos.
Import ListNotations.
Open Scope R_scope.

(** ** Validated coordinates *)
Lemma fin_coords64 D lat lon la lo : double_like D ->
  coords_ok (O := DoubleOps D) lat lon -> In (Fin la) lat -> In (Fin lo) lon -> -90 <= la <= 90 /\ -180 <= lo < 180.
Proof.
  intros HD [H1 H2] Ha Ho. destruct (H1 _ Ha) as [H|[A B]]; [discriminate H|]. destruct (H2 _ Ho) as [H|[C F]]; [discriminate H|].
  cbn -[Q2R Rleb Rltb] in A, B, C, F.
  assert (Q : forall z, (Z.abs z <= 1000)%Z -> r64 D (Q2R (Qmake z 1)) = IZR z).
  { intros z Hz. replace (Q2R (Qmake z 1)) with (IZR z) by (unfold Q2R; cbn; field). apply (dl_int D HD). lia. }
  rewrite (Q (-90)%Z) in A by lia. rewrite (Q 90%Z) in B by lia. rewrite (Q (-180)%Z) in C by lia. rewrite (Q 180%Z) in F by lia.
  destruct (Rleb_spec (IZR (-90)) la) as [A'|]; [|discriminate]. destruct (Rleb_spec la (IZR 90)) as [B'|]; [|discriminate].
  destruct (Rleb_spec (IZR (-180)) lo) as [C'|]; [|discriminate]. destruct (Rltb_spec lo (IZR 180)) as [D'|]; [|discriminate].
  clear - A' B' C' D'. repeat split; lra.
Qed.

(** ** One library, in double precision and exactly *)
Lemma hour_ok E alg eng m t lo d eot ecf : In (alg, eng, m) (supported (O := ExtOps E)) -> alg <> "nrel"%string -> representable t -> -180 <= lo <= 180 ->
  lib_dec m (lib_time m (sec_of t)) = Fin d -> lib_eot m (lib_time m (sec_of t)) = Fin eot -> lib_ecf m (lib_time m (sec_of t)) = Fin ecf ->
  near_turn (hour_angle_of alg eng (nem E) t lo) (solar_hour_angle t lo eot) (hour_tol alg).
Proof.
  intros Hin Hn Ht Hlo. assert (Hs := sec_range t Ht). assert (He : -0.3 <= i_eoth (sec_of t) <= 0.3) by (pose proof (i_eot_b (i_ang (sec_of t))); unfold i_eoth; q2; lra).
  cbn [supported In] in Hin.
  destruct Hin as [H|[H|[H|[H|[H|[H|[H|[]]]]]]]]; injection H as <- <- <-; 
      cbn [py_psa ne_psa py_soltrack ne_soltrack py_iqbal ne_iqbal ne_nrel lib_T lib_time lib_dec lib_eot lib_ecf]; rewrite ?ofZ_fin.
  - rewrite py_psa_time_R by exact Hs. cbn [psa_delta psa_eot psa_ecf]. intros [= <-] [= <-] [= <-].
    destruct (psa_gmst_k' t) as (n & Hn'). destruct (p_eot_thm _ Hs) as [_ (k & Hk)]. exact (psa_hour Rfloor_mod t lo n k Hs Hn' Hk).
  - rewrite ne_psa_time_R' by exact Hs. cbn [psa_delta psa_eot psa_ecf]. intros [= <-] [= <-] [= <-].
    destruct (psa_gmst_k E t) as (n & Hn'). destruct (p_eot_thm _ Hs) as [_ (k & Hk)]. exact (psa_hour (nem E) t lo n k Hs Hn' Hk).
  - rewrite py_soltrack_time_R by exact Hs. cbn [st_dec st_eot st_ecf]. intros [= <-] [= <-] [= <-].
    destruct (t_eot_thm Rfloor_mod floor_mod_mod_spec _ Hs) as [_ (k & Hk)]. exact (st_hour Rfloor_mod t lo k Hs Hk).
  - rewrite ne_soltrack_time_R by exact Hs. cbn [st_dec st_eot st_ecf]. intros [= <-] [= <-] [= <-].
    destruct (t_eot_thm (nem E) (nem_mod_spec E) _ Hs) as [_ (k & Hk)]. exact (st_hour (nem E) t lo k Hs Hk).
  - rewrite (proj2 (iq_time_R E (sec_of t))). cbn [iq_dec iq_eot iq_ecf]. ext_ops. rewrite fin_mul. intros [= <-] [= <-] [= <-]. now apply iq_hour.
  - rewrite (proj1 (iq_time_R E (sec_of t))). cbn [iq_dec iq_eot iq_ecf]. ext_ops. rewrite fin_mul. intros [= <-] [= <-] [= <-]. now apply iq_hour.
  - now contradiction Hn.
Qed.

Lemma near_x60 D x e : double_like D -> near x e tol9 -> Rabs e <= 1 -> near (mul (Ops := DoubleOps D) x (lit (Ops := DoubleOps D) 60)) (e * #60) (70 * tol9).
Proof.
  intros HD (v & -> & H) He. cbn [mul lit DoubleOps]. replace (Q2R 60) with (IZR 60) by q2r. rewrite (dl_int D HD 60) by lia. rewrite fin_mul. apply Rabs_le_inv in He. unfold tol9 in *. apply Rabs_le_inv in H.
  rewrite (rd_fin_s D HD) by (apply Rabs_le; lra). eexists. split; [reflexivity|].
  assert (X := r64_abs D HD (v * 60) 61 ltac:(apply Rabs_le; lra) ltac:(lra)). apply Rabs_le_inv in X. apply Rabs_le. lra.
Qed.
Lemma near_le x a e e' : e <= e' -> near x a e -> near x a e'.
Proof. intros H (v & E & B). exists v. split; [exact E|lra]. Qed.

Lemma double_lib D alg eng m t : double_like D -> representable t -> In (alg, eng, m) (supported (O := DoubleOps D)) -> alg <> "nrel"%string ->
  exists m' d eot ecf, In (alg, eng, m') (supported (O := ExtOps (single D))) /\
    lib_dec m' (lib_time m' (sec_of t)) = Fin d /\ lib_eot m' (lib_time m' (sec_of t)) = Fin eot /\ lib_ecf m' (lib_time m' (sec_of t)) = Fin ecf /\
    near (lib_dec m (lib_time m (sec_of t))) d tol9 /\ near (lib_eot m (lib_time m (sec_of t))) eot (70 * tol9) /\ near (lib_ecf m (lib_time m (sec_of t))) ecf tol9 /\
    forall la lo uc r, -90 <= la <= 90 -> -180 <= lo <= 180 ->
      pos64 D (zenith_always64 alg eng) r (parallax_coef alg) (double_tol alg eng la - 1 / 100000000) (la * (PI / 180)) d (hour_angle_of alg eng (nem (single D)) t lo)
        (lib_cell m uc r (lib_time m (sec_of t)) (lib_cast m (Fin lo)) (lib_cast m (Fin la))).
Proof.
  intros HD Ht Hin Hn. assert (Hs := sec_range t Ht). set (E := single D) in *.
  assert (T9 : 10 * tol9 <= 70 * tol9) by (unfold tol9; lra).
  assert (He : Rabs (i_eoth (sec_of t)) <= 1) by (pose proof (i_eot_b (i_ang (sec_of t))); unfold i_eoth; q2; apply Rabs_le; lra).
  cbn [supported In] in Hin.
  destruct Hin as [H|[H|[H|[H|[H|[H|[H|[]]]]]]]]; injection H as <- <- <-.
  - assert (C := py_psa_time_D D HD _ Hs _ (ofZ_ap D HD _ Hs)).
    exists (py_psa (O := ExtOps E)). do 3 eexists. split; [now left|].
    cbn [py_psa lib_T lib_time lib_dec lib_eot lib_ecf]. rewrite ofZ_fin, py_psa_time_R by exact Hs. cbn [psa_delta psa_eot psa_ecf].
    do 3 (split; [reflexivity|]). split; [exact (pc_delta _ _ C)|]. split; [exact (near_le _ _ _ _ T9 (pc_eot _ _ C))|]. split; [exact (pc_ecf _ _ C)|].
    intros la lo uc r Bla Blo. exact (pos_pypsa D HD t la lo Ht Bla Blo uc r).
  - assert (C := ne_psa_time_D D HD _ Hs _ (ofZ_ap D HD _ Hs)).
    exists (ne_psa (O := ExtOps E)). do 3 eexists. split; [right; now left|].
    cbn [ne_psa lib_T lib_time lib_dec lib_eot lib_ecf]. rewrite ofZ_fin, ne_psa_time_R' by exact Hs. cbn [psa_delta psa_eot psa_ecf].
    do 3 (split; [reflexivity|]). split; [exact (pc_delta _ _ C)|]. split; [exact (near_le _ _ _ _ T9 (pc_eot _ _ C))|]. split; [exact (pc_ecf _ _ C)|].
    intros la lo uc r Bla Blo. exact (pos_nepsa D HD t la lo Ht Bla Blo uc r).
  - assert (C := py_soltrack_time_D D HD _ Hs _ (ofZ_ap D HD _ Hs)).
    exists (py_soltrack (O := ExtOps E)). do 3 eexists. split; [do 2 right; now left|].
    cbn [py_soltrack lib_T lib_time lib_dec lib_eot lib_ecf]. rewrite ofZ_fin, py_soltrack_time_R by exact Hs. cbn [st_dec st_eot st_ecf].
    rewrite (t_dec_u Rfloor_mod floor_mod_mod_spec).
    do 3 (split; [reflexivity|]). split; [exact (sc_dec _ _ C)|]. split; [exact (near_le _ _ _ _ T9 (sc_eot _ _ C))|]. split; [exact (sc_ecf _ _ C)|].
    intros la lo uc r Bla Blo. exact (pos_pysol D HD t la lo Ht Bla Blo uc r).
  - assert (C := ne_soltrack_time_D D HD _ Hs _ (ofZ_ap D HD _ Hs)).
    exists (ne_soltrack (O := ExtOps E)). do 3 eexists. split; [do 3 right; now left|].
    cbn [ne_soltrack lib_T lib_time lib_dec lib_eot lib_ecf]. rewrite ofZ_fin, ne_soltrack_time_R by exact Hs. cbn [st_dec st_eot st_ecf].
    rewrite (t_dec_u (nem E) (nem_mod_spec E)). rewrite (t_eot_md _ _ _ (nem_mod_spec E) floor_mod_mod_spec Hs).
    do 3 (split; [reflexivity|]). split; [exact (sc_dec _ _ C)|]. split; [exact (near_le _ _ _ _ T9 (sc_eot _ _ C))|]. split; [exact (sc_ecf _ _ C)|].
    intros la lo uc r Bla Blo. exact (pos_nesol D HD t la lo Ht Bla Blo uc r).
  - assert (C := py_iqbal_time_D D HD (sec_of t)).
    exists (py_iqbal (O := ExtOps E)). do 3 eexists. split; [do 4 right; now left|].
    cbn [py_iqbal lib_T lib_time lib_dec lib_eot lib_ecf]. rewrite (proj2 (iq_time_R E (sec_of t))). cbn [iq_dec iq_eot iq_ecf]. cbn [mul lit ExtOps]. rewrite fin_mul.
    do 3 (split; [reflexivity|]). split; [exact (ic_dec _ _ C)|]. split; [exact (near_x60 D _ _ HD (ic_eot _ _ C) He)|]. split; [exact (ic_ecf _ _ C)|].
    intros la lo uc r Bla Blo. exact (pos_pyiq D HD t la lo Bla Blo uc r).
  - assert (C := ne_iqbal_time_D D HD (sec_of t)).
    exists (ne_iqbal (O := ExtOps E)). do 3 eexists. split; [do 5 right; now left|].
    cbn [ne_iqbal lib_T lib_time lib_dec lib_eot lib_ecf]. rewrite (proj1 (iq_time_R E (sec_of t))). cbn [iq_dec iq_eot iq_ecf]. cbn [mul lit ExtOps]. rewrite fin_mul.
    do 3 (split; [reflexivity|]). split; [exact (ic_dec _ _ C)|]. split; [exact (near_x60 D _ _ HD (ic_eot _ _ C) He)|]. split; [exact (ic_ecf _ _ C)|].
    intros la lo uc r Bla Blo. exact (pos_neiq D HD t la lo Bla Blo uc r).
  - now contradiction Hn.
Qed.

(** ** One call *)
Lemma dec_S phi d d' h : Rabs (sun_S phi d h - sun_S phi d' h) <= 2 * Rabs (d - d').
Proof.
  unfold sun_S. assert (A := cos_lip d d'). assert (B := sin_lip d d').
  replace (_ - _) with ((cos d - cos d') * (sin phi * cos h) - (sin d - sin d') * cos phi) by ring.
  unfold Rminus at 1. eapply Rle_trans; [apply Rabs_triang|]. rewrite Rabs_Ropp.
  assert (Rabs ((cos d - cos d') * (sin phi * cos h)) <= Rabs (d - d')) by (apply mul1; [exact A|pose proof (SIN_bound phi); pose proof (COS_bound h); split; nra]).
  assert (Rabs ((sin d - sin d') * cos phi) <= Rabs (d - d')) by (apply mul1; [exact B|apply COS_bound]). lra.
Qed.
Lemma dec_U phi d d' h : Rabs (sun_U phi d h - sun_U phi d' h) <= 2 * Rabs (d - d').
Proof.
  unfold sun_U. assert (A := cos_lip d d'). assert (B := sin_lip d d').
  replace (_ - _) with ((cos d - cos d') * (cos phi * cos h) + (sin d - sin d') * sin phi) by ring.
  eapply Rle_trans; [apply Rabs_triang|].
  assert (Rabs ((cos d - cos d') * (cos phi * cos h)) <= Rabs (d - d')) by (apply mul1; [exact A|pose proof (COS_bound phi); pose proof (COS_bound h); split; nra]).
  assert (Rabs ((sin d - sin d') * sin phi) <= Rabs (d - d')) by (apply mul1; [exact B|apply SIN_bound]). lra.
Qed.
Lemma dec_W phi d d' h : Rabs (sun_W phi d h - sun_W phi d' h) <= 2 * Rabs (d - d').
Proof.
  unfold sun_W. replace (_ - _) with ((cos d - cos d') * sin h) by ring.
  assert (A : Rabs ((cos d - cos d') * sin h) <= Rabs (d - d')) by (apply mul1; [apply cos_lip|apply SIN_bound]).
  pose proof (Rabs_pos (d - d')). lra.
Qed.
Lemma near_azimuth_dec tol a phi d d' h e : Rabs (d - d') <= e -> near_azimuth tol a phi d h -> near_azimuth (tol + 2 * e) a phi d' h.
Proof.
  intros He (rho & R0 & R1 & R2). exists rho. split; [exact R0|].
  assert (A := tri3 _ _ _ _ _ R1 (dec_S phi d d' h)). assert (B := tri3 _ _ _ _ _ R2 (dec_W phi d d' h)). split; lra.
Qed.

Lemma call_bounds64 D uc times lat lon alg refr eng sp k j i t la lo : double_like D ->
  evaluated_cell64 D uc times lat lon alg refr eng sp k j i t la lo -> -90 <= la <= 90 /\ -180 <= lo < 180.
Proof.
  intros HD [(Hc & _ & _) Hi]. destruct (at_idx_in _ _ _ _ _ _ _ _ Hi) as [Ha Ho].
  eapply (fin_coords64 D); [exact HD|exact (ok_coords (O := DoubleOps D) true _ _ _ _ _ _ _ _ Hc)|eassumption..].
Qed.

(** The returned values beside the exact ones. *)
Lemma call_double_time D uc times lat lon alg refr eng sp k t : double_like D -> alg <> "nrel"%string ->
  evaluated_time64 D uc times lat lon alg refr eng sp k t ->
  exists m' d0 eot0 ecf0 d eot ecf, In (alg, eng, m') (supported (O := ExtOps (single D))) /\
    lib_dec m' (lib_time m' (sec_of t)) = Fin d0 /\ lib_eot m' (lib_time m' (sec_of t)) = Fin eot0 /\ lib_ecf m' (lib_time m' (sec_of t)) = Fin ecf0 /\
    value (sp_declination sp) [k] d /\ value (sp_eot sp) [k] eot /\ value (sp_ecf sp) [k] ecf /\
    Rabs (d - d0) <= tol9 /\ Rabs (eot - eot0) <= 70 * tol9 /\ Rabs (ecf - ecf0) <= tol9.
Proof.
  intros HD Hn (Hc & Hk & Ht). destruct (call_supported _ _ _ _ _ _ _ _ _ Hc) as (m & Hin).
  destruct (dispatch_lemma (O := DoubleOps D) true uc times lat lon alg refr eng sp m k t NaN NaN Hc Hin Hk) as (H1 & H2 & H3 & _).
  destruct (double_lib D alg eng m t HD Ht Hin Hn) as (m' & d0 & eot0 & ecf0 & Hin' & E1 & E2 & E3 & (d & D1 & D2) & (eot & T1 & T2) & (ecf & F1 & F2) & _).
  fold (sec_of t) in *. rewrite D1 in H3. rewrite T1 in H2. rewrite F1 in H1.
  exists m', d0, eot0, ecf0, d, eot, ecf. repeat (split; [assumption|]). assumption.
Qed.
Lemma call_double D uc times lat lon alg refr eng sp k j i t la lo : double_like D -> alg <> "nrel"%string ->
  evaluated_cell64 D uc times lat lon alg refr eng sp k j i t la lo ->
  exists d eot h a, value (sp_declination sp) [k] d /\ value (sp_eot sp) [k] eot /\
    near_turn h (solar_hour_angle t lo eot) (hour_tol alg + tol9) /\ h = hour_angle_of alg eng (nem (single D)) t lo /\
    value (sp_azimuth sp) (idx uc k j i) a /\ Rabs a <= r64 D PI /\ near_azimuth (double_tol alg eng la) a (la * (PI / 180)) d h /\
    ((exists z0, 0 <= z0 <= PI /\ Rabs (cos z0 - sun_U (la * (PI / 180)) d h) <= double_tol alg eng la /\
        (is_True refr = false -> exists z, value (sp_zenith sp) (idx uc k j i) z /\ Rabs (z - (z0 + parallax_coef alg * sin z0)) <= tol9))
     \/ (zenith_always64 alg eng = false /\ 1 - double_tol alg eng la < Rabs (sun_U (la * (PI / 180)) d h) /\
         get (sp_zenith sp) (idx uc k j i) = Some NaN)).
Proof.
  intros HD Hn C. destruct (call_bounds64 _ _ _ _ _ _ _ _ _ _ _ _ _ _ _ HD C) as [Ba Bo]. destruct C as [(Hc & Hk & Ht) Hi].
  destruct (call_supported _ _ _ _ _ _ _ _ _ Hc) as (m & Hin).
  destruct (dispatch_lemma (O := DoubleOps D) true uc times lat lon alg refr eng sp m k t (Fin la) (Fin lo) Hc Hin Hk) as (H1 & H2 & H3 & Hcell).
  destruct (Hcell j i Hi) as [Hz Ha]. clear Hcell. fold (sec_of t) in *.
  destruct (double_lib D alg eng m t HD Ht Hin Hn) as (m' & d0 & eot0 & ecf0 & Hin' & E1 & E2 & E3 & (d & D1 & D2) & (eot & T1 & T2) & _ & P).
  destruct (P la lo uc (is_True refr) Ba ltac:(lra)) as [(a & A1 & A2 & A3) Z]. clear P.
  assert (N := hour_ok (single D) alg eng m' t lo d0 eot0 ecf0 Hin' Hn Ht ltac:(lra) E1 E2 E3).
  set (h := hour_angle_of alg eng (nem (single D)) t lo) in *. set (phi := la * (PI / 180)) in *.
  assert (D2' := D2). rewrite Rabs_minus_sym in D2'. assert (U := dec_U phi d0 d h).
  exists d, eot, h, a. rewrite D1 in H3. rewrite T1 in H2. rewrite A1 in Ha.
  split; [exact H3|]. split; [exact H2|]. split; [|split; [reflexivity|]].
  - destruct N as (q & Hq). exists q.
    replace (h - solar_hour_angle t lo eot - 2 * PI * IZR q) with ((h - solar_hour_angle t lo eot0 - 2 * PI * IZR q) + (eot0 - eot) * (PI / 720)) by (unfold solar_hour_angle; field).
    eapply Rle_trans; [apply Rabs_triang|]. rewrite Rabs_mult, (Rabs_minus_sym eot0), (Rabs_pos_eq (PI / 720)) by (pose proof PI_RGT_0; lra).
    assert (PI / 720 <= 0.0044) by interval. pose proof (Rabs_pos (eot - eot0)). pose proof PI_RGT_0. unfold tol9 in *. nra.
  - split; [exact Ha|]. split; [exact A2|]. unfold tol9 in *. split.
    + assert (X := near_azimuth_dec _ _ _ _ _ _ _ D2' A3). destruct X as (rho & R0 & R1 & R2). exists rho. split; [exact R0|]. split; lra.
    + destruct Z as [(z0 & Z1 & Z2 & Z3)|(Z1 & Z2 & Z3)].
      * left. exists z0. split; [exact Z1|]. split; [assert (X := tri3 _ _ _ _ _ Z2 U); lra|].
        intros Hr. destruct (Z3 Hr) as (z & V1 & V2). rewrite V1 in Hz. exists z. now split.
      * right. split; [exact Z1|]. split; [assert (X := tri_abs _ _ _ _ Z3 U); lra|]. rewrite Z2 in Hz. exact Hz.
Qed.

(** ** C69: double precision keeps declination and eccentricity factor within 1e-9 and the equation of time within 7e-8 minutes
    of the exact values of the same algorithm *)
Lemma lib_ecf_same E E' alg eng eng' m m' t : In (alg, eng, m) (supported (O := ExtOps E)) ->
  In (alg, eng', m') (supported (O := ExtOps E')) -> in_ns_range (IZR t) -> alg <> "nrel"%string ->
  lib_ecf m (lib_time m t) = lib_ecf m' (lib_time m' t).
Proof.
  intros Hin Hin' Hs Hn.
  assert (Q : forall F e (n : spalib ext), In (alg, e, n) (supported (O := ExtOps F)) -> lib_ecf n (lib_time n t) =
     Fin (if String.eqb alg "psa" then p_ecf (IZR t) else if String.eqb alg "soltrack" then t_ecf (IZR t) else i_ecf t)).
  { clear m m' Hin Hin'. intros F e n H. cbn [supported In] in H.
    destruct H as [H|[H|[H|[H|[H|[H|[H|[]]]]]]]]; injection H as <- <- <-;
      cbn [py_psa ne_psa py_soltrack ne_soltrack py_iqbal ne_iqbal lib_ecf lib_time String.eqb Ascii.eqb Bool.eqb]; try change (ofZ (Ops := ExtOps F) t) with (Fin (IZR t)).
    - now rewrite py_psa_time_R by exact Hs.
    - now rewrite ne_psa_time_R' by exact Hs.
    - now rewrite py_soltrack_time_R by exact Hs.
    - now rewrite ne_soltrack_time_R by exact Hs.
    - now rewrite (proj2 (iq_time_R F t)).
    - now rewrite (proj1 (iq_time_R F t)).
    - now contradiction Hn. }
  now rewrite (Q E eng m Hin), (Q E' eng' m' Hin').
Qed.
Theorem C69_double_time : forall D E' uc uc' times times' lat lat' lon lon' alg refr refr' eng eng' sp sp' k k' t,
  double_like D -> alg <> "nrel"%string ->
  evaluated_time64 D uc times lat lon alg refr eng sp k t ->
  evaluated_time E' uc' times' lat' lon' alg refr' eng' sp' k' t ->
  exists d m x d' m' x',
    value (sp_declination sp) [k] d /\ value (sp_eot sp) [k] m /\ value (sp_ecf sp) [k] x /\
    value (sp_declination sp') [k'] d' /\ value (sp_eot sp') [k'] m' /\ value (sp_ecf sp') [k'] x' /\
    Rabs (d - d') <= / 1000000000 /\ Rabs (m - m') <= 70 / 1000000000 /\ Rabs (x - x') <= / 1000000000.
Proof.
  intros D E' uc uc' times times' lat lat' lon lon' alg refr refr' eng eng' sp sp' k k' t HD Hn C (Hc' & Hk' & Ht).
  destruct (call_double_time _ _ _ _ _ _ _ _ _ _ _ HD Hn C) as (q & d0 & eot0 & ecf0 & d & eot & ecf & Hin & E1 & E2 & E3 & V1 & V2 & V3 & B1 & B2 & B3).
  destruct (call_supported _ _ _ _ _ _ _ _ _ Hc') as (q' & Hin').
  destruct (dispatch_lemma (O := ExtOps E') true uc' times' lat' lon' alg refr' eng' sp' q' k' t NaN NaN Hc' Hin' Hk') as (H1 & H2 & H3 & _).
  fold (sec_of t) in *. destruct (time_same _ _ _ _ _ _ _ _ Hin Hin' (sec_range t Ht) Hn) as [T1 T2].
  assert (T3 := lib_ecf_same _ _ _ _ _ _ _ _ Hin Hin' (sec_range t Ht) Hn).
  rewrite <- T1, E1 in H3. rewrite <- T2, E2 in H2. rewrite <- T3, E3 in H1.
  exists d, eot, ecf, d0, eot0, ecf0. unfold tol9 in *. repeat (split; [assumption|]). lra.
Qed.

(** ** C69: the returned position is that of the sun at the returned declination and equation of time *)
Theorem C69_double_position : forall D uc times lat lon alg refr eng sp k j i t la lo,
  double_like D -> alg <> "nrel"%string ->
  evaluated_cell64 D uc times lat lon alg refr eng sp k j i t la lo ->
  exists d eot h,
    value (sp_declination sp) [k] d /\ value (sp_eot sp) [k] eot /\
    near_turn h (solar_hour_angle t lo eot) (hour_tol alg + / 1000000000) /\
    azimuth_within64 D (double_tol alg eng la) sp (idx uc k j i) (la * (PI / 180)) d h /\
    (is_True refr = false ->
       zenith_within64 (double_tol alg eng la) (parallax_coef alg) sp (idx uc k j i) (la * (PI / 180)) d h /\
       (zenith_always64 alg eng = true -> get (sp_zenith sp) (idx uc k j i) <> Some NaN)).
Proof.
  intros D uc times lat lon alg refr eng sp k j i t la lo HD Hn C.
  destruct (call_double _ _ _ _ _ _ _ _ _ _ _ _ _ _ _ HD Hn C) as (d & eot & h & a & H1 & H2 & H3 & _ & H4 & H5 & H6 & H7).
  exists d, eot, h. split; [exact H1|]. split; [exact H2|]. split; [exact H3|]. split.
  { exists a. split; [exact H4|]. apply Rabs_le_inv in H5. split; [exact H5|exact H6]. }
  intros Hr. destruct H7 as [(z0 & Z1 & Z2 & Z3)|(Z1 & Z2 & Z3)].
  - destruct (Z3 Hr) as (z & V & B). unfold value in V. split; [left; exists z; split; [exact V|]; exists z0; auto|]. intros _. rewrite V. discriminate.
  - split; [right; auto|]. rewrite Z1. discriminate.
Qed.
