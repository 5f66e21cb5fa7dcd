(** * SingleRefute: with IEEE float32 latitude functions the sun overhead has no zenith angle (C18) *)

From Coq Require Import ZArith QArith Reals Bool List String Lra Lia.
From Flocq Require Import Core.
From Interval Require Import Tactic.
From Verif Require Import Num Arrays Libspa Time Core Usecases Spec GenericLemmas GenericLemmas2 Ext ExtLemmas ExactLaws
  Sky SkyClose AstroTac Refraction AstroSpec SingleSpec SingleLemmas SingleCell Astro AstroCell AstroCall AstroRefute Calendar
  Psa PsaR PsaCell Soltrack SoltrackR SoltrackCell Iqbal IqbalR Float32 Float32L.
Import ListNotations.
Open Scope R_scope.

(** Floats of latitude 4: 4 degrees in radians, its sine and cosine. *)
Definition Q4 : R := 9370165 / 134217728.
Definition S4 : R := 9362555 / 134217728.
Definition C4 : R := 16736348 / 16777216.

Ltac r32v m e := apply (r32_eval m e); [lia|lia|].
Lemma bp27 : bpow radix2 (-27) = / 134217728. Proof. reflexivity. Qed.
Lemma bp28 : bpow radix2 (-28) = / 268435456. Proof. reflexivity. Qed.
Lemma bp29 : bpow radix2 (-29) = / 536870912. Proof. reflexivity. Qed.
Lemma bp30 : bpow radix2 (-30) = / 1073741824. Proof. reflexivity. Qed.
Lemma bp31 : bpow radix2 (-31) = / 2147483648. Proof. reflexivity. Qed.
Lemma bp32 : bpow radix2 (-32) = / 4294967296. Proof. reflexivity. Qed.
Lemma bp24 : bpow radix2 (-24) = / 16777216. Proof. reflexivity. Qed.
Lemma bp25 : bpow radix2 (-25) = / 33554432. Proof. reflexivity. Qed.

Lemma r_four : r32 4 = 4.
Proof. exact (proj2 (proj2 (proj2 r32_like)) 4%Z ltac:(lia)). Qed.
Lemma r_deg : r32 (PI / #180.0) = 9370165 / 536870912.
Proof. replace (9370165 / 536870912) with (9370165 * bpow radix2 (-29)) by (rewrite bp29; lra). r32v 9370165%Z (-29)%Z. change (-29 - 1)%Z with (-30)%Z. rewrite bp29, bp30. q2. interval. Qed.
Lemma r_lat_iq : r32 (4 * (9370165 / 536870912)) = Q4.
Proof. unfold Q4. replace (9370165 / 134217728) with (9370165 * bpow radix2 (-27)) by (rewrite bp27; lra). r32v 9370165%Z (-27)%Z. change (-27 - 1)%Z with (-28)%Z. rewrite bp27, bp28. match goal with |- Rabs ?x < _ => replace x with 0 by lra end. rewrite Rabs_R0. lra. Qed.
Lemma r_lat_st : r32 (4 * (PI / 180)) = Q4.
Proof. unfold Q4. replace (9370165 / 134217728) with (9370165 * bpow radix2 (-27)) by (rewrite bp27; lra). r32v 9370165%Z (-27)%Z. change (-27 - 1)%Z with (-28)%Z. rewrite bp27, bp28. interval. Qed.
Lemma r_sin : r32 (sin Q4) = S4.
Proof. unfold S4, Q4. replace (9362555 / 134217728) with (9362555 * bpow radix2 (-27)) by (rewrite bp27; lra). r32v 9362555%Z (-27)%Z. change (-27 - 1)%Z with (-28)%Z. rewrite bp27, bp28. interval. Qed.
Lemma r_cos : r32 (cos Q4) = C4.
Proof. unfold C4, Q4. replace (16736348 / 16777216) with (16736348 * bpow radix2 (-24)) by (rewrite bp24; lra). r32v 16736348%Z (-24)%Z. change (-24 - 1)%Z with (-25)%Z. rewrite bp24, bp25. interval. Qed.
Lemma r_sq : r32 (S4 * S4) = 10449581 / 2147483648.
Proof. replace (10449581 / 2147483648) with (10449581 * bpow radix2 (-31)) by (rewrite bp31; lra). r32v 10449581%Z (-31)%Z. change (-31 - 1)%Z with (-32)%Z. rewrite bp31, bp32. unfold S4. interval. Qed.
Lemma r_w : r32 (1 - 10449581 / 2147483648) = 16695579 / 16777216.
Proof. replace (16695579 / 16777216) with (16695579 * bpow radix2 (-24)) by (rewrite bp24; lra). r32v 16695579%Z (-24)%Z. change (-24 - 1)%Z with (-25)%Z. rewrite bp24, bp25. interval. Qed.
Lemma r_c : r32 (sqrt (16695579 / 16777216)) = C4.
Proof. unfold C4. replace (16736348 / 16777216) with (16736348 * bpow radix2 (-24)) by (rewrite bp24; lra). r32v 16736348%Z (-24)%Z. change (-24 - 1)%Z with (-25)%Z. rewrite bp24, bp25. interval. Qed.

(** The float unit vector of latitude 4 is too long. *)
Lemma too_long d : Rabs (d - 0.069813165) <= 0.0001 -> 1 + 1 / 100000000 <= sin d * S4 + cos d * C4.
Proof.
  intros H. set (x := d - 0.069813165) in *. replace d with (0.069813165 + x) by (unfold x; ring).
  rewrite sin_plus, cos_plus.
  assert (C := cos_sq1 x). assert (Rabs x * Rabs x <= 0.0001 * 0.0001) by (pose proof (Rabs_pos x); nra).
  apply Rabs_le_inv in C. assert (Hx : Rabs (sin x) <= 0.0001).
  { assert (L := sin_lip x 0). rewrite sin_0, !Rminus_0_r in L. lra. }
  apply Rabs_le_inv in Hx.
  set (A := sin 0.069813165 * S4 + cos 0.069813165 * C4).
  set (B := cos 0.069813165 * S4 - sin 0.069813165 * C4).
  match goal with |- _ <= ?g => replace g with (A * cos x + B * sin x) by (unfold A, B; ring) end.
  assert (HA : 1 + 2.6 / 100000000 <= A <= 1.1) by (unfold A, S4, C4; split; interval).
  assert (HB : Rabs B <= 1 / 1000000000) by (unfold B, S4, C4; interval).
  apply Rabs_le_inv in HB. nra.
Qed.
Lemma overhead d h : Rabs (d - 0.069813165) <= 0.0001 -> near_turn h 0 (4 / 10000000) -> 1 < g_cosz d S4 C4 h.
Proof.
  intros Hd (k & Hk). unfold g_cosz. assert (H := too_long d Hd).
  replace (cos h) with (cos (h - 2 * PI * IZR k)) by apply cos_2kpi. rewrite Rminus_0_r in Hk. set (y := h - 2 * PI * IZR k) in *.
  assert (C := cos_sq1 y). assert (Rabs y * Rabs y <= 4 / 10000000 * (4 / 10000000)) by (pose proof (Rabs_pos y); nra).
  apply Rabs_le_inv in C. pose proof (COS_bound d). assert (0 <= C4 <= 1) by (unfold C4; lra). 
  replace (sin d * S4 + cos d * C4 * cos y) with (sin d * S4 + cos d * C4 + cos d * C4 * (cos y - 1)) by ring.
  assert (G : Rabs (cos d * C4 * (cos y - 1)) <= 1 / 1000000000).
  { rewrite !Rabs_mult. assert (Rabs (cos d) <= 1) by (apply Rabs_le; lra). rewrite (Rabs_pos_eq C4) by lra.
    assert (Rabs (cos y - 1) <= 1 / 1000000000) by (apply Rabs_le; lra). pose proof (Rabs_pos (cos d)). pose proof (Rabs_pos (cos y - 1)).
    assert (Rabs (cos d) * C4 <= 1) by nra. nra. }
  apply Rabs_le_inv in G. lra.
Qed.

(** ** iqbal: 2021-03-30 09:00 UTC, latitude 4, where it is noon *)
Definition iq_t : Z := (1617094800 * 1000000000)%Z.
Lemma iq_t_rep : representable iq_t. Proof. unfold representable, iq_t. lia. Qed.
Lemma iq_t_dec : Rabs (i_dec (sec_of iq_t) - 0.069813165) <= 0.0001.
Proof.
  change (sec_of iq_t) with 1617094800%Z. unfold i_dec, i_ang, i_dec0. rewrite i_std_eq.
  change (i_doy 1617094800) with 89%Z. change (1617094800 mod 86400)%Z with 32400%Z. q2. interval.
Qed.

Lemma z_lat4 : z_sl float32_env (rnd float32_env 4) = S4 /\ z_cl float32_env (rnd float32_env 4) = C4.
Proof. unfold z_sl, z_cl. cbn [rnd float32_env]. rewrite r_four, r_deg, r_lat_iq. split; [apply r_sin|apply r_cos]. Qed.

Lemma iq_nan lo n l15 r :
  (15 * (utc_hours iq_t - 12) + i_eoth (sec_of iq_t) * #60 / 4) * (PI / 180) + lo * (PI / 180) = 0 + 2 * PI * IZR n ->
  Rabs (15 * l15 - lo) <= 21.47 / 1000000 -> Rabs (15 * l15) <= 180 ->
  fst (z_cell float32_env r (i_std (sec_of iq_t)) (i_eoth (sec_of iq_t)) (i_dec (sec_of iq_t)) l15 (rnd float32_env 4)) = NaN.
Proof.
  intros Hn L1 L2. set (s := sec_of iq_t) in *. unfold z_cell. cbn [fst].
  destruct z_lat4 as [-> ->]. set (h := z_H (i_std s) (i_eoth s) l15).
  assert (He : -0.3 <= i_eoth s <= 0.3) by (pose proof (i_eot_b (i_ang s)); unfold i_eoth; q2; lra).
  assert (N := iq_hour iq_t (15 * l15) (i_eoth s) ltac:(apply Rabs_le_inv in L2; lra) He). fold s in N.
  replace (i_H (i_std s) (i_eoth s) (15 * l15)) with h in N.
  2:{ unfold h, z_H, i_H. do 3 f_equal. f_equal. replace (15 * l15 / #15.0) with l15 by (q2; field). reflexivity. }
  rewrite fin_unit_out; [reflexivity|]. right. apply overhead; [exact iq_t_dec|].
  destruct (near_turn_shift _ _ _ _ _ N (hour_shift iq_t lo (15 * l15) _ _ L1)) as (k & Hk).
  exists (n + k)%Z. rewrite plus_IZR. assert (solar_hour_angle iq_t lo (i_eoth s * #60) = 2 * PI * IZR n).
  { unfold solar_hour_angle. lra. }
  rewrite H in Hk. replace (h - 0 - 2 * PI * (IZR n + IZR k)) with (h - 2 * PI * IZR n - 2 * PI * IZR k) by ring.
  eapply Rle_trans; [exact Hk|]. pose proof pi_b. lra.
Qed.

Lemma iq_cos : 0 < cos (i_dec (sec_of iq_t)).
Proof. pose proof (cos_dec_b (i_dec (sec_of iq_t))) as H. pose proof (i_dec_b (i_ang (sec_of iq_t))) as H'. change (i_dec0 (i_ang (sec_of iq_t))) with (i_dec (sec_of iq_t)) in H'. lra. Qed.

Lemma call_cell E uc times lat lon alg refr eng sp k j i t la lo m :
  evaluated_cell E uc times lat lon alg refr eng sp k j i t la lo -> In (alg, eng, m) (supported (O := ExtOps E)) ->
  get (sp_zenith sp) (idx uc k j i) = Some (fst (lib_cell m uc (is_True refr) (lib_time m (sec_of t)) (lib_cast m (Fin lo)) (lib_cast m (Fin la)))).
Proof.
  intros [(Hc & Hk & Ht) Hi] Hin.
  destruct (dispatch_lemma (O := ExtOps E) true uc times lat lon alg refr eng sp m k t (Fin la) (Fin lo) Hc Hin Hk) as (_ & _ & _ & H).
  destruct (H j i Hi) as [H1 _]. exact H1.
Qed.

Lemma iqbal_nan eng m uc refr : In ("iqbal"%string, eng, m) (supported (O := ExtOps float32_env)) ->
  exists lo sp, evaluated_cell float32_env uc (at_times [Some iq_t]) (Scalar (Fin 4)) (Scalar (Fin lo)) "iqbal" refr eng sp 0 0 0 iq_t 4 lo /\
    get (sp_zenith sp) (idx uc 0 0 0) = Some NaN.
Proof.
  intros Hin.
  destruct (lon_for ((15 * (utc_hours iq_t - 12) + i_eoth (sec_of iq_t) * #60 / 4) * (PI / 180)) 0) as (lo & n & Ho & Hh).
  destruct (one_cell float32_env uc iq_t 4 lo "iqbal" refr eng m Hin iq_t_rep ltac:(lra) Ho) as (sp & Hsp).
  exists lo, sp. split; [exact Hsp|]. rewrite (call_cell _ _ _ _ _ _ _ _ _ _ _ _ _ _ _ m Hsp Hin). f_equal.
  destruct (lon_15' float32_env r32_like lo ltac:(lra)) as [A1 A2]. destruct (lon_15'' float32_env r32_like lo ltac:(lra)) as [B1 B2].
  set (s := sec_of iq_t) in *. assert (Hs : s = sec_of iq_t) by reflexivity.
  cbn [supported In] in Hin. destruct Hin as [H|[H|[H|[H|[H|[H|[H|[]]]]]]]]; try discriminate H; injection H as <- <-.
  - replace (lib_cell (py_iqbal (O := ExtOps float32_env)) uc) with (lib_2d (py_iqbal (O := ExtOps float32_env))) by (destruct uc; reflexivity).
    cbn [py_iqbal lib_2d lib_time lib_cast]. rewrite (proj2 (iq_time_R float32_env s)). ext_ops. rewrite !fin_fun.
    rewrite py_iqbal_z by exact iq_cos. exact (iq_nan lo n _ _ Hh A1 A2).
  - destruct (Sumbool.sumbool_of_bool (match uc with Transect => true | _ => false end)) as [U|U].
    + destruct uc; try discriminate U. cbn [ne_iqbal lib_cell lib_1d lib_time lib_cast]. rewrite (proj1 (iq_time_R float32_env s)). ext_ops. rewrite !fin_fun.
      rewrite ne_iqbal_z1 by exact iq_cos. exact (iq_nan lo n _ _ Hh B1 B2).
    + replace (lib_cell (ne_iqbal (O := ExtOps float32_env)) uc) with (lib_2d (ne_iqbal (O := ExtOps float32_env))) by (destruct uc; try discriminate U; reflexivity).
      cbn [ne_iqbal lib_2d lib_time lib_cast]. rewrite (proj1 (iq_time_R float32_env s)). ext_ops. rewrite !fin_fun.
      rewrite ne_iqbal_z by exact iq_cos. exact (iq_nan lo n _ _ Hh A1 A2).
Qed.

(** ** soltrack/numpy: 2021-03-30 14:22 UTC *)
Definition st_t : Z := (1617114120 * 1000000000)%Z.
Lemma st_t_rep : representable st_t. Proof. unfold representable, st_t. lia. Qed.
Lemma asin_between v a b : -1 <= v <= 1 -> - (PI / 2) <= a -> b <= PI / 2 -> sin a <= v <= sin b -> - (PI / 2) <= b -> a <= PI / 2 -> a <= asin v <= b.
Proof.
  intros Hv Ha Hb [H1 H2] Hb' Ha'. assert (B := asin_bound v). assert (Sv := sin_asin v Hv).
  split; apply Rnot_lt_le; intros C.
  - assert (H := sin_increasing_1 (asin v) a ltac:(lra) ltac:(lra) Ha Ha' C). lra.
  - assert (H := sin_increasing_1 b (asin v) Hb' Hb ltac:(lra) ltac:(lra) C). lra.
Qed.
Lemma st_t_dec : Rabs (t_dec Rfloor_mod (IZR (sec_of st_t)) - 0.069813165) <= 0.0001.
Proof.
  change (sec_of st_t) with 1617114120%Z. unfold t_dec, t_L.
  destruct (floor_mod_mod_spec (t_l0 1617114120 + t_sec 1617114120 + - #9.93087e-5 / t_R 1617114120 + t_dpsi 1617114120) (2 * PI)) as (k & -> & _); [pose proof pi_b; lra|].
  rewrite (Rmult_comm (IZR k)), sin_2kpi.
  assert (V : 0.069756 - 0.00009 <= sin (t_obl 1617114120) * sin (t_l0 1617114120 + t_sec 1617114120 + - #9.93087e-5 / t_R 1617114120 + t_dpsi 1617114120) <= 0.069756 + 0.00009).
  { unfold t_obl, t_l0, t_dpsi, t_sec, t_R, t_omg, t_ecc, t_ma, t_sec, t_ma, t_JC2, t_JC, t_JD. q2. split; interval. }
  match type of V with _ <= ?e <= _ => set (v := e) in * end. apply Rabs_le.
  enough (0.069813165 - 0.0001 <= asin v <= 0.069813165 + 0.0001) by lra.
  assert (P := pi_b). apply asin_between; try lra.
  assert (sin (0.069813165 - 0.0001) <= 0.069756 - 0.00009) by interval. assert (0.069756 + 0.00009 <= sin (0.069813165 + 0.0001)) by interval. lra.
Qed.

Lemma soltrack_nan uc refr : 
  exists lo sp, evaluated_cell float32_env uc (at_times [Some st_t]) (Scalar (Fin 4)) (Scalar (Fin lo)) "soltrack" refr "numpy" sp 0 0 0 st_t 4 lo /\
    get (sp_zenith sp) (idx uc 0 0 0) = Some NaN.
Proof.
  set (s := IZR (sec_of st_t)). assert (Hin : In ("soltrack"%string, "numpy"%string, py_soltrack (O := ExtOps float32_env)) (supported (O := ExtOps float32_env))) by (do 2 right; left; reflexivity).
  destruct (lon_for (t_agst s - t_ra Rfloor_mod s) 0) as (lo & n & Ho & Hh).
  destruct (one_cell float32_env uc st_t 4 lo "soltrack" refr "numpy" _ Hin st_t_rep ltac:(lra) Ho) as (sp & Hsp).
  exists lo, sp. split; [exact Hsp|]. rewrite (call_cell _ _ _ _ _ _ _ _ _ _ _ _ _ _ _ _ Hsp Hin). f_equal.
  replace (lib_cell (py_soltrack (O := ExtOps float32_env)) uc) with (lib_2d (py_soltrack (O := ExtOps float32_env))) by (destruct uc; reflexivity).
  cbn [py_soltrack lib_2d lib_time lib_cast]. assert (Hs := sec_range st_t st_t_rep).
  rewrite ofZ_fin, py_soltrack_time_R by exact Hs. ext_ops. rewrite !fin_fun. fold s.
  assert (Hd := st_t_dec). fold s in Hd. assert (Cd := cos_dec_b (t_dec Rfloor_mod s) ltac:(apply Rabs_le_inv in Hd; lra)).
  assert (P : rnd float32_env (rnd float32_env 4 * (PI / 180)) = Q4) by (cbn [rnd float32_env]; rewrite r_four; apply r_lat_st).
  assert (Es : sq_s float32_env Q4 = S4) by apply r_sin.
  assert (Ew : sq_w float32_env Q4 = 16695579 / 16777216) by (unfold sq_w; rewrite Es; cbn [rnd float32_env]; rewrite r_sq; apply r_w).
  assert (Ec : sq_c float32_env Q4 = C4) by (unfold sq_c; rewrite Ew; apply r_c).
  rewrite py_soltrack_z; [|exact r32_like|lra|rewrite P, Ew; lra|rewrite P, Es; cbn [rnd float32_env]; rewrite r_sq; lra].
  rewrite P, Es, Ec. rewrite fin_unit_out; [reflexivity|]. right. apply overhead; [exact Hd|].
  exists n. assert (L := lon_radians32 float32_env r32_like lo ltac:(lra)).
  replace (t_agst s - t_ra Rfloor_mod s + rnd float32_env (rnd float32_env lo * (PI / 180)) - 0 - 2 * PI * IZR n)
    with (rnd float32_env (rnd float32_env lo * (PI / 180)) - lo * (PI / 180)) by lra. lra.
Qed.

(** C18 is false in IEEE single precision: for both iqbal engines and soltrack/numpy, in every use case and with or without
    refraction, there are a place at latitude 4 and an instant of 2021-03-30 whose zenith angle is NaN. *)
Theorem C18_overhead_refuted : forall uc refr alg eng,
  alg = "iqbal"%string /\ (eng = "numpy"%string \/ eng = "numexpr"%string) \/ alg = "soltrack"%string /\ eng = "numpy"%string ->
  exists t lo sp, evaluated_cell float32_env uc (at_times [Some t]) (Scalar (Fin 4)) (Scalar (Fin lo)) alg refr eng sp 0 0 0 t 4 lo /\
    get (sp_zenith sp) (idx uc 0 0 0) = Some NaN.
Proof.
  intros uc refr alg eng [[-> [-> | ->]]|[-> ->]].
  - exists iq_t. eapply iqbal_nan. do 4 right. left. reflexivity.
  - exists iq_t. eapply iqbal_nan. do 5 right. left. reflexivity.
  - exists st_t. apply soltrack_nan.
Qed.
