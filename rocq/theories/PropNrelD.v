(** * PropNrelD: nrel in IEEE double precision (C72; C04, C18, C20, C23-C26, C28, C29, C55 for nrel in floating point) *)

From Coq Require Import ZArith QArith Reals Bool List String Lra Lia.
From Flocq Require Import Core.Raux.
From Interval Require Import Tactic.
From Verif Require Import Num Arrays Libspa Time Core Usecases Spec GenericLemmas GenericLemmas2 Ext ExtLemmas
  Sky SkyClose AstroTac AstroSpec SingleSpec SingleLemmas Astro AstroCell AstroCall AstroRefute Float32 Float32L
  PropAstro PropSingle Almanac AlmanacPos PropAlmanac PropSinglePos SoltrackR Nrel NrelR NrelCell SoltrackCell
  Double DoubleTac DoubleSpec DoubleLemmas DoubleCore DoubleCell PsaD DoublePos PropDouble Float64 PropDoublePos
  NrelD NrelPos TopoSpec TopoDist.
Import ListNotations.
Open Scope R_scope.

Lemma nrel_only {F} {O : Ops F} uc times lat lon refr eng sp : call true uc times lat lon "nrel" refr eng = Ok sp -> In ("nrel"%string, eng, ne_nrel) supported /\ eng = "numexpr"%string.
Proof.
  intros H. destruct (call_supported _ _ _ _ _ _ _ _ _ H) as (q & Hq). cbn [supported In] in Hq |- *.
  destruct Hq as [X|[X|[X|[X|[X|[X|[X|[]]]]]]]]; try discriminate X. injection X as <- <-. split; [tauto|reflexivity].
Qed.

Lemma nrel_in {F} {O : Ops F} : In ("nrel"%string, "numexpr"%string, ne_nrel) supported.
Proof. do 6 right. left. reflexivity. Qed.

(** The returned values of one call, and what is behind them. *)
Lemma call_nrel64_time D uc times lat lon refr eng sp k t : double_like D -> evaluated_time64 D uc times lat lon "nrel" refr eng sp k t ->
  exists d eot ecf, value (sp_declination sp) [k] d /\ value (sp_eot sp) [k] eot /\ value (sp_ecf sp) [k] ecf /\
    Rabs (d - w_delta (IZR (sec_of t))) <= tol9 /\ Rabs (eot - w_eot (IZR (sec_of t))) <= 400 * tol9 /\ Rabs (ecf - n_ecf (IZR (sec_of t))) <= tol9.
Proof.
  intros HD (Hc & Hk & Ht). destruct (nrel_only _ _ _ _ _ _ _ Hc) as [Hin _].
  destruct (dispatch_lemma (O := DoubleOps D) true uc times lat lon "nrel" refr eng sp _ k t NaN NaN Hc Hin Hk) as (H1 & H2 & H3 & _).
  destruct (nrel_double D HD t Ht) as (d & eot & ecf & E1 & E2 & E3 & B1 & B2 & B3 & _).
  fold (sec_of t) in *. rewrite E1 in H3. rewrite E2 in H2. rewrite E3 in H1. exists d, eot, ecf. auto 10.
Qed.
Lemma call_nrel64 D uc times lat lon refr eng sp k j i t la lo : double_like D ->
  evaluated_cell64 D uc times lat lon "nrel" refr eng sp k j i t la lo ->
  exists d eot ecf h d' h' a, value (sp_declination sp) [k] d /\ value (sp_eot sp) [k] eot /\ value (sp_ecf sp) [k] ecf /\
    Rabs (d - w_delta (IZR (sec_of t))) <= tol9 /\ Rabs (eot - w_eot (IZR (sec_of t))) <= 400 * tol9 /\ Rabs (ecf - n_ecf (IZR (sec_of t))) <= tol9 /\
    near_turn h (solar_hour_angle t lo eot) nrel_hour_tol /\ topocentric (la * (PI / 180)) d h ecf d' h' /\ 0.9 <= cos d' /\
    near_turn h (m_H Rfloor_mod (n_alpha Rfloor_mod (IZR (sec_of t))) (n_v Rfloor_mod (IZR (sec_of t))) lo) (1 / 100000000) /\
    value (sp_azimuth sp) (idx uc k j i) a /\ Rabs a <= r64 D PI /\ near_azimuth nrel_tol a (la * (PI / 180)) d' h' /\
    ((exists z0, 0 <= z0 <= PI /\ Rabs (cos z0 - sun_U (la * (PI / 180)) d' h') <= nrel_tol /\
        (is_True refr = false -> exists z, value (sp_zenith sp) (idx uc k j i) z /\ Rabs (z - (z0 + 0 * sin z0)) <= tol9))
     \/ (get (sp_zenith sp) (idx uc k j i) = Some NaN /\ 1 - nrel_tol < Rabs (sun_U (la * (PI / 180)) d' h'))).
Proof.
  intros HD C. destruct (call_bounds64 _ _ _ _ _ _ _ _ _ _ _ _ _ _ _ HD C) as [Ba Bo]. destruct C as [(Hc & Hk & Ht) Hi].
  destruct (nrel_only _ _ _ _ _ _ _ Hc) as [Hin _].
  destruct (dispatch_lemma (O := DoubleOps D) true uc times lat lon "nrel" refr eng sp _ k t (Fin la) (Fin lo) Hc Hin Hk) as (H1 & H2 & H3 & Hcell).
  destruct (Hcell j i Hi) as [Hz Ha]. clear Hcell. fold (sec_of t) in *.
  destruct (nrel_double D HD t Ht) as (d & eot & ecf & E1 & E2 & E3 & B1 & B2 & B3 & P).
  destruct (P la lo Ba ltac:(lra)) as (h & d' & h' & N & T & Cd & N' & Q). destruct (Q uc (is_True refr)) as [(a & A1 & A2 & A3) Z]. clear P Q.
  rewrite E1 in H3. rewrite E2 in H2. rewrite E3 in H1. rewrite A1 in Ha.
  exists d, eot, ecf, h, d', h', a. do 13 (split; [assumption|]).
  destruct Z as [(z0 & Z1 & Z2 & Z3)|(_ & Z2 & Z3)].
  - left. exists z0. split; [exact Z1|]. split; [exact Z2|]. intros Hr. destruct (Z3 Hr) as (z & V1 & V2). rewrite V1 in Hz. exists z. now split.
  - right. rewrite Z2 in Hz. now split.
Qed.

Lemma nrel_exact E t : representable t -> let m := ne_nrel (O := ExtOps E) in let s := IZR (sec_of t) in
  lib_dec m (lib_time m (sec_of t)) = Fin (w_delta s) /\ lib_eot m (lib_time m (sec_of t)) = Fin (w_eot s) /\ lib_ecf m (lib_time m (sec_of t)) = Fin (n_ecf s).
Proof.
  intros Ht m s. assert (Hs := sec_range t Ht). fold s in Hs. unfold m. cbn [ne_nrel lib_T lib_time lib_dec lib_eot lib_ecf]. rewrite ofZ_fin. fold s.
  rewrite ne_nrel_time_R by exact Hs. rewrite <- (n_delta_w _ (nem_mod_spec E)), <- (n_eot_w _ _ (nem_mod_spec E) Hs).
  split; [reflexivity|]. split; [reflexivity|]. unfold nrel_ecf, n_ecf. cbn [nr_R]. ext_ops.
  rewrite fin_powi, fin_div by (apply n_R2_nz; exact Hs). reflexivity.
Qed.

(** ** C72: declination, equation of time and eccentricity factor against the exact evaluation of the same formulas *)
Theorem C72_nrel_time : forall D E' uc uc' times times' lat lat' lon lon' refr refr' eng eng' sp sp' k k' t,
  double_like D ->
  evaluated_time64 D uc times lat lon "nrel" refr eng sp k t ->
  evaluated_time E' uc' times' lat' lon' "nrel" refr' eng' sp' k' t ->
  exists d m x d' m' x',
    value (sp_declination sp) [k] d /\ value (sp_eot sp) [k] m /\ value (sp_ecf sp) [k] x /\
    value (sp_declination sp') [k'] d' /\ value (sp_eot sp') [k'] m' /\ value (sp_ecf sp') [k'] x' /\
    Rabs (d - d') <= / 1000000000 /\ Rabs (m - m') <= 400 / 1000000000 /\ Rabs (x - x') <= / 1000000000.
Proof.
  intros D E' uc uc' times times' lat lat' lon lon' refr refr' eng eng' sp sp' k k' t HD C (Hc' & Hk' & Ht).
  destruct (call_nrel64_time _ _ _ _ _ _ _ _ _ _ HD C) as (d & m & x & V1 & V2 & V3 & B1 & B2 & B3).
  destruct (nrel_only _ _ _ _ _ _ _ Hc') as [Hin' _].
  destruct (dispatch_lemma (O := ExtOps E') true uc' times' lat' lon' "nrel" refr' eng' sp' _ k' t NaN NaN Hc' Hin' Hk') as (H1 & H2 & H3 & _).
  fold (sec_of t) in *. destruct (nrel_exact E' t Ht) as (X1 & X2 & X3). rewrite X1 in H3. rewrite X2 in H2. rewrite X3 in H1.
  exists d, m, x. do 3 eexists. do 3 (split; [eassumption|]). split; [exact H3|]. split; [exact H2|]. split; [exact H1|]. unfold tol9 in *. repeat split; lra.
Qed.

(** ** C72: the returned position is that of the sun seen from the place, at the returned declination, equation of time and distance *)
Theorem C72_nrel_position : forall D uc times lat lon refr eng sp k j i t la lo,
  double_like D ->
  evaluated_cell64 D uc times lat lon "nrel" refr eng sp k j i t la lo ->
  exists d eot ecf h d' h',
    value (sp_declination sp) [k] d /\ value (sp_eot sp) [k] eot /\ value (sp_ecf sp) [k] ecf /\
    near_turn h (solar_hour_angle t lo eot) nrel_hour_tol /\
    topocentric (la * (PI / 180)) d h ecf d' h' /\
    azimuth_within64 D nrel_tol sp (idx uc k j i) (la * (PI / 180)) d' h' /\
    (is_True refr = false -> zenith_within64 nrel_tol 0 sp (idx uc k j i) (la * (PI / 180)) d' h').
Proof.
  intros D uc times lat lon refr eng sp k j i t la lo HD C.
  destruct (call_nrel64 _ _ _ _ _ _ _ _ _ _ _ _ _ _ HD C) as (d & eot & ecf & h & d' & h' & a & V1 & V2 & V3 & B1 & B2 & B3 & N & T & Cd & N' & A1 & A2 & A3 & Z).
  exists d, eot, ecf, h, d', h'. do 5 (split; [assumption|]). split.
  { exists a. split; [exact A1|]. apply Rabs_le_inv in A2. split; [exact A2|exact A3]. }
  intros Hr. destruct Z as [(z0 & Z1 & Z2 & Z3)|(Z2 & Z3)].
  - left. destruct (Z3 Hr) as (z & V & B). exists z. split; [exact V|]. exists z0. auto.
  - right. now split.
Qed.

(** ** Ranges *)
Theorem C72_ranges : forall D uc times lat lon refr eng sp k t,
  double_like D ->
  evaluated_time64 D uc times lat lon "nrel" refr eng sp k t ->
  exists d m x, value (sp_declination sp) [k] d /\ value (sp_eot sp) [k] m /\ value (sp_ecf sp) [k] x /\
    Rabs (d * (180 / PI)) <= 23.6 /\ Rabs m <= 20 /\ 0.9599 <= x <= 1.0401.
Proof.
  intros D uc times lat lon refr eng sp k t HD C.
  destruct (call_nrel64_time _ _ _ _ _ _ _ _ _ _ HD C) as (d & m & x & V1 & V2 & V3 & B1 & B2 & B3).
  destruct C as (_ & _ & Ht). assert (Hs := sec_range t Ht). exists d, m, x. do 3 (split; [assumption|]). unfold tol9 in *.
  assert (Bw := n_delta_b _ Hs Rfloor_mod). rewrite (n_delta_w Rfloor_mod floor_mod_mod_spec) in Bw. assert (Be := w_eot_b _ Hs). assert (Bx := n_ecf_b _ Hs).
  apply Rabs_le_inv in B1, B2, B3, Be. split; [|split; [apply Rabs_le; lra|lra]]. assert (B : -0.41101 <= d <= 0.41101) by lra. clear - B. interval.
Qed.
Theorem C72_position_ranges : forall D uc times lat lon refr eng sp k j i t la lo,
  double_like D ->
  evaluated_cell64 D uc times lat lon "nrel" refr eng sp k j i t la lo ->
  (exists a, value (sp_azimuth sp) (idx uc k j i) a /\ - r64 D PI <= a <= r64 D PI) /\
  (is_True refr = false ->
     (exists z, value (sp_zenith sp) (idx uc k j i) z /\ - / 1000000000 <= z <= PI + / 1000000000)
     \/ (get (sp_zenith sp) (idx uc k j i) = Some NaN /\
         exists d eot ecf h d' h', value (sp_declination sp) [k] d /\ value (sp_eot sp) [k] eot /\ value (sp_ecf sp) [k] ecf /\
           near_turn h (solar_hour_angle t lo eot) nrel_hour_tol /\ topocentric (la * (PI / 180)) d h ecf d' h' /\
           1 - nrel_tol < Rabs (sun_U (la * (PI / 180)) d' h'))).
Proof.
  intros D uc times lat lon refr eng sp k j i t la lo HD C.
  destruct (C72_nrel_position _ _ _ _ _ _ _ _ _ _ _ _ _ _ HD C) as (d & eot & ecf & h & d' & h' & V1 & V2 & V3 & N & T & (a & A1 & A2 & _) & Z).
  split; [now exists a|]. intros Hr. destruct (Z Hr) as [(z & Z1 & z0 & Z2 & _ & Z4)|(Z1 & Z2)].
  - left. exists z. split; [exact Z1|]. apply Rabs_le_inv in Z4. lra.
  - right. split; [exact Z1|]. exists d, eot, ecf, h, d', h'. auto 10.
Qed.

(** ** The direction in space *)
Lemma near_dist_n tol z a phi d h : 0.00000001 <= tol <= 0.001 -> near_zenith64 tol 0 z phi d h -> near_azimuth tol a phi d h ->
  dist (sky z a) (hor phi d h) <= point_tol64 tol z + / 1000000000.
Proof.
  intros Ht (z0 & B0 & H0 & Hz) Ha. set (y := z0 + 0 * sin z0) in *.
  assert (D1 := near_dist tol 0 y a phi d h ltac:(lra) ltac:(lra) (ex_intro _ z0 (conj B0 (conj H0 eq_refl))) Ha).
  assert (D2 := dist_zen z y a). assert (T := dist_tri (sky z a) (sky y a) (hor phi d h)).
  assert (S := Rle_trans _ _ _ (sin_lip z y) Hz). apply Rabs_le_inv in S.
  assert (Q := sqrt_sqrt (2 * tol) ltac:(lra)). unfold point_tol in D1. unfold point_tol64. set (g := sqrt (2 * tol)) in *. assert (Pg : 0 < g) by (apply sqrt_lt_R0; lra).
  assert (Pg' : 0.0001 <= g) by nra.
  assert (M : 0.9999 * Rmax (sin z) g <= Rmax (sin y) g).
  { destruct (Rle_dec (sin z) g) as [L|L].
    - rewrite (Rmax_right (sin z) g) by exact L. eapply Rle_trans; [|apply Rmax_r]. lra.
    - rewrite (Rmax_left (sin z) g) by lra. eapply Rle_trans; [|apply Rmax_l]. lra. }
  set (mz := Rmax (sin z) g) in *. set (my := Rmax (sin y) g) in *. assert (Pz : g <= mz) by apply Rmax_r.
  assert (I : / my <= / (0.9999 * mz)) by (apply Rinv_le_contravar; [lra|exact M]). rewrite Rinv_mult in I.
  assert (J : 0 < / mz) by (apply Rinv_0_lt_compat; lra). unfold Rdiv in *.
  assert (2.001 * tol * / my <= 2.002 * tol * / mz) by nra. lra.
Qed.
(** What rounding does to a direction of zenith angle [z]: 9e-8 radians at 45 degrees, less than 2e-4 next to the vertical. *)
Definition nrel_place_tol (z : R) : R := point_tol64 nrel_tol z + 1.21 / 100000000.
Lemma nrel_point_b z : 0 <= point_tol64 nrel_tol z <= 0.0002.
Proof.
  unfold point_tol64. assert (Ht : nrel_tol = 1.1 / 100000000) by reflexivity. set (tol := nrel_tol) in *. clearbody tol.
  assert (Sq := sqrt_sqrt (2 * tol) ltac:(lra)). set (g := sqrt (2 * tol)) in *. assert (Pg : 0 < g) by (apply sqrt_lt_R0; lra).
  assert (Px : g <= Rmax (sin z) g) by apply Rmax_r.
  assert (0 <= 2.002 * tol / Rmax (sin z) g) by (apply Rle_mult_inv_pos; lra).
  assert (2.002 * tol / Rmax (sin z) g <= 1.001 * g).
  { apply (Rmult_le_reg_r (Rmax (sin z) g)); [lra|]. unfold Rdiv. rewrite Rmult_assoc, Rinv_l, Rmult_1_r by lra. nra. }
  assert (g <= 0.00015) by nra. split; lra.
Qed.
Lemma call_nrel64_dist D uc times lat lon refr eng sp k j i t la lo z : double_like D -> is_True refr = false ->
  evaluated_cell64 D uc times lat lon "nrel" refr eng sp k j i t la lo -> value (sp_zenith sp) (idx uc k j i) z ->
  exists d eot ecf h d' h' a, value (sp_declination sp) [k] d /\ value (sp_eot sp) [k] eot /\ value (sp_ecf sp) [k] ecf /\
    Rabs (d - w_delta (IZR (sec_of t))) <= tol9 /\ Rabs (ecf - n_ecf (IZR (sec_of t))) <= tol9 /\
    near_turn h (solar_hour_angle t lo eot) nrel_hour_tol /\ topocentric (la * (PI / 180)) d h ecf d' h' /\
    near_turn h (m_H Rfloor_mod (n_alpha Rfloor_mod (IZR (sec_of t))) (n_v Rfloor_mod (IZR (sec_of t))) lo) (1 / 100000000) /\
    value (sp_azimuth sp) (idx uc k j i) a /\ - / 1000000000 <= z <= PI + / 1000000000 /\
    dist (sky z a) (hor (la * (PI / 180)) d' h') <= point_tol64 nrel_tol z + / 1000000000.
Proof.
  intros HD Hr C Hz.
  destruct (call_nrel64 _ _ _ _ _ _ _ _ _ _ _ _ _ _ HD C) as (d & eot & ecf & h & d' & h' & a & V1 & V2 & V3 & B1 & B2 & B3 & N & T & Cd & N' & A1 & A2 & A3 & Z).
  exists d, eot, ecf, h, d', h', a. do 9 (split; [assumption|]).
  destruct Z as [(z0 & Z1 & Z2 & Z3)|(Z2 & _)]; [|unfold value in Hz; rewrite Z2 in Hz; discriminate Hz].
  destruct (Z3 Hr) as (y & Y & B). unfold value in Y, Hz. rewrite Y in Hz. injection Hz as ->. unfold tol9 in B.
  split; [apply Rabs_le_inv in B; lra|]. apply near_dist_n; [unfold nrel_tol; lra| |exact A3]. exists z0. split; [exact Z1|]. split; [exact Z2|]. lra.
Qed.

(** C24, C26: double precision against the exact evaluation of the same formulas at the same instant and place. *)
Lemma near_turn_md md md' al v al' v' lo : mod_spec md -> mod_spec md' -> (exists k, al = al' + 360 * IZR k) -> (exists k, v = v' + 360 * IZR k) ->
  near_turn (m_H md al v lo) (m_H md' al' v' lo) 0.
Proof.
  intros M M' (ka & ->) (kv & ->). destruct (m_H_spec md (al' + 360 * IZR ka) (v' + 360 * IZR kv) lo M) as (k & ->). destruct (m_H_spec md' al' v' lo M') as (k' & ->).
  exists (kv - ka - k + k')%Z. rewrite plus_IZR, !minus_IZR. right. match goal with |- Rabs ?x = 0 => replace x with 0 by field end. apply Rabs_R0.
Qed.
Lemma near_turn_trans a b c e f : near_turn a b e -> near_turn b c f -> near_turn a c (e + f).
Proof. intros (k & H) (k' & H'). exists (k + k')%Z. rewrite plus_IZR. apply Rabs_le_inv in H, H'. apply Rabs_le. lra. Qed.
Lemma exact_topo phi d h ecf z a : sky_topo phi d h ecf z a -> exists d' h', topocentric phi d h ecf d' h' /\ hor phi d' h' = sky z a.
Proof.
  intros (u & rho & d' & h' & H). cbv zeta in H. destruct H as (U1 & U2 & U3 & R1 & R2 & K1 & K2 & K3 & [Bz Z] & A).
  exists d', h'. split; [exists u, rho; cbv zeta; auto 10|].
  destruct (is_azimuth_sky _ _ _ _ A) as (zt & Bt & Ht & Ct). assert (zt = z); [|now subst].
  rewrite <- (acos_cos zt) by lra. rewrite <- (acos_cos z) by lra. now rewrite Ct, Z.
Qed.
Theorem C72_exact_position : forall D E' uc uc' times times' lat lat' lon lon' refr refr' eng eng' sp sp' k k' j j' i i' t la lo z,
  double_like D -> is_True refr = false -> is_True refr' = false ->
  evaluated_cell64 D uc times lat lon "nrel" refr eng sp k j i t la lo ->
  evaluated_cell E' uc' times' lat' lon' "nrel" refr' eng' sp' k' j' i' t la lo ->
  value (sp_zenith sp) (idx uc k j i) z ->
  exists a z' a', let tau := 1.002 * nrel_place_tol z in
    value (sp_azimuth sp) (idx uc k j i) a /\ value (sp_zenith sp') (idx uc' k' j' i') z' /\ value (sp_azimuth sp') (idx uc' k' j' i') a' /\
    separation_le z a z' a' tau /\ Rabs (z - z') <= tau + 5 / 1000000000.
Proof.
  intros D E' uc uc' times times' lat lat' lon lon' refr refr' eng eng' sp sp' k k' j j' i i' t la lo z HD R R' C C' Hz.
  destruct (call_bounds64 _ _ _ _ _ _ _ _ _ _ _ _ _ _ _ HD C) as [Ba Bo].
  destruct (call_nrel64_dist _ _ _ _ _ _ _ _ _ _ _ _ _ _ _ HD R C Hz) as (d & eot & ecf & h & d1 & h1 & a & V1 & V2 & V3 & B1 & B3 & N & T & N' & A1 & Bz & S1).
  destruct (C72_nrel_time _ _ _ _ _ _ _ _ _ _ _ _ _ _ _ _ _ _ _ HD (proj1 C) (proj1 C')) as (d0 & m0 & x0 & d' & m' & x' & W1 & W2 & W3 & W4 & W5 & W6 & F1 & F2 & F3).
  destruct (C72_ranges _ _ _ _ _ _ _ _ _ _ HD (proj1 C)) as (q1 & q2 & q3 & Q1 & Q2 & Q3 & _ & _ & Q6).
  unfold value in *. rewrite V1 in W1. rewrite V2 in W2. rewrite V3 in W3, Q3. injection W1 as <-. injection W2 as <-. injection W3 as <-. injection Q3 as <-.
  destruct C' as ((Hc' & Hk' & Ht) & Hi'). assert (Hs := sec_range t Ht).
  destruct (call_value E' true uc' times' lat' lon' "nrel" refr' eng' sp' k' t Hc' Hk' Ht j' i' la lo Hi' (or_intror (or_introl eq_refl))) as (d2 & m2 & x2 & h' & z' & a' & G1 & G2 & G3 & G4 & G5 & G6 & G7 & G8 & _ & G9).
  rewrite W4 in G1. rewrite W5 in G2. rewrite W6 in G3. injection G1 as <-. injection G2 as <-. injection G3 as <-.
  rewrite R' in G4. change (used E' "nrel" la) with la in G7. change (used E' "nrel" lo) with lo in G9.
  destruct (nrel_only _ _ _ _ _ _ _ Hc') as [_ ->].
  destruct (exact_topo _ _ _ _ _ _ G7) as (f1 & g1 & T' & Eh). apply Rabs_le_inv in F3 as F3'.
  assert (Nh : near_turn h h' (1 / 100000000)).
  { replace (1 / 100000000) with (1 / 100000000 + 0) by ring. eapply near_turn_trans; [exact N'|]. rewrite G9. 
    change (hour_angle_of "nrel" "numexpr" (nem E') t lo) with (m_H (nem E') (n_alpha (nem E') (IZR (sec_of t))) (n_v (nem E') (IZR (sec_of t))) lo).
    destruct (n_alpha_w Rfloor_mod floor_mod_mod_spec (IZR (sec_of t))) as (ja & Ja). destruct (n_v_w Rfloor_mod floor_mod_mod_spec (IZR (sec_of t))) as (jv & Jv).
    destruct (n_alpha_w _ (nem_mod_spec E') (IZR (sec_of t))) as (ja' & Ja'). destruct (n_v_w _ (nem_mod_spec E') (IZR (sec_of t))) as (jv' & Jv').
    apply near_turn_md; [exact floor_mod_mod_spec|apply nem_mod_spec|exists (ja' - ja)%Z; rewrite Ja, Ja', minus_IZR; ring|exists (jv' - jv)%Z; rewrite Jv, Jv', minus_IZR; ring]. }
  assert (S2 := topo_dist _ _ _ _ _ _ _ _ _ _ _ _ _ _ (cos_lat_pos la Ba) T T' ltac:(lra) ltac:(lra) F1 Nh F3). rewrite Eh in S2.
  assert (S3 := dist_tri (sky z a) (hor (la * (PI / 180)) d1 h1) (sky z' a')). assert (P := nrel_point_b z).
  assert (S4 : dist (sky z a) (sky z' a') <= nrel_place_tol z) by (unfold nrel_place_tol; lra).
  assert (Bp : 0 <= nrel_place_tol z <= 0.0003) by (unfold nrel_place_tol; lra).
  destruct (close_directions z a z' a' (nrel_place_tol z) ltac:(lra) Bz ltac:(lra) S4) as [X Y].
  exists a, z', a'. cbv zeta. do 3 (split; [assumption|]). split; [exact X|]. lra.
Qed.

(** C04, C28, C29: two double precision evaluations of one instant and place, by any use cases, positions in any requests and
    any double precision arithmetics. *)
Theorem C72_same_direction : forall D D' uc uc' times times' lat lat' lon lon' refr refr' eng eng' sp sp' k k' j j' i i' t la lo z z',
  double_like D -> double_like D' -> is_True refr = false -> is_True refr' = false ->
  evaluated_cell64 D uc times lat lon "nrel" refr eng sp k j i t la lo ->
  evaluated_cell64 D' uc' times' lat' lon' "nrel" refr' eng' sp' k' j' i' t la lo ->
  value (sp_zenith sp) (idx uc k j i) z -> value (sp_zenith sp') (idx uc' k' j' i') z' ->
  exists d m x d' m' x' a a', let tau := 1.002 * (nrel_place_tol z + nrel_place_tol z') in
    value (sp_declination sp) [k] d /\ value (sp_eot sp) [k] m /\ value (sp_ecf sp) [k] x /\
    value (sp_declination sp') [k'] d' /\ value (sp_eot sp') [k'] m' /\ value (sp_ecf sp') [k'] x' /\
    Rabs (d - d') <= 2 / 1000000000 /\ Rabs (m - m') <= 800 / 1000000000 /\ Rabs (x - x') <= 2 / 1000000000 /\
    value (sp_azimuth sp) (idx uc k j i) a /\ value (sp_azimuth sp') (idx uc' k' j' i') a' /\
    separation_le z a z' a' tau /\ Rabs (z - z') <= tau + 5 / 1000000000.
Proof.
  intros D D' uc uc' times times' lat lat' lon lon' refr refr' eng eng' sp sp' k k' j j' i i' t la lo z z' HD HD' R R' C C' Hz Hz'.
  destruct (call_bounds64 _ _ _ _ _ _ _ _ _ _ _ _ _ _ _ HD C) as [Ba Bo].
  destruct (call_nrel64_dist _ _ _ _ _ _ _ _ _ _ _ _ _ _ _ HD R C Hz) as (d & eot & ecf & h & d1 & h1 & a & V1 & V2 & V3 & B1 & B3 & N & T & N' & A1 & Bz & S1).
  destruct (call_nrel64_dist _ _ _ _ _ _ _ _ _ _ _ _ _ _ _ HD' R' C' Hz') as (d' & eot' & ecf' & h' & d1' & h1' & a' & V1' & V2' & V3' & B1' & B3' & _ & T' & N2 & A1' & Bz' & S1').
  destruct (call_nrel64_time _ _ _ _ _ _ _ _ _ _ HD (proj1 C)) as (p1 & p2 & p3 & P1 & P2 & P3 & _ & Bm & _).
  destruct (call_nrel64_time _ _ _ _ _ _ _ _ _ _ HD' (proj1 C')) as (p1' & p2' & p3' & P1' & P2' & P3' & _ & Bm' & _).
  destruct (C72_ranges _ _ _ _ _ _ _ _ _ _ HD (proj1 C)) as (q1 & q2 & q3 & Q1 & Q2 & Q3 & _ & _ & Q6).
  destruct (C72_ranges _ _ _ _ _ _ _ _ _ _ HD' (proj1 C')) as (q1' & q2' & q3' & Q1' & Q2' & Q3' & _ & _ & Q6').
  unfold value in *. rewrite V2 in P2. rewrite V2' in P2'. injection P2 as <-. injection P2' as <-. rewrite V3 in Q3. rewrite V3' in Q3'. injection Q3 as <-. injection Q3' as <-.
  rewrite Rabs_minus_sym in B1', B3', Bm'. assert (F1 := tri3 _ _ _ _ _ B1 B1'). assert (F2 := tri3 _ _ _ _ _ Bm Bm'). assert (F3 := tri3 _ _ _ _ _ B3 B3').
  assert (Nh : near_turn h h' (1 / 100000000 + 1 / 100000000)).
  { eapply near_turn_trans; [exact N'|]. destruct N2 as (q & Hq). exists (- q)%Z. rewrite opp_IZR. rewrite <- Rabs_Ropp. eapply Rle_trans; [|exact Hq]. right. f_equal. ring. }
  assert (S2 := topo_dist _ _ _ _ _ _ _ _ _ _ _ _ _ _ (cos_lat_pos la Ba) T T' ltac:(lra) ltac:(lra) F1 Nh F3).
  assert (S3 := dist_tri (sky z a) (hor (la * (PI / 180)) d1 h1) (sky z' a')). assert (S4 := dist_tri (hor (la * (PI / 180)) d1 h1) (hor (la * (PI / 180)) d1' h1') (sky z' a')).
  rewrite (dist_sym (hor (la * (PI / 180)) d1' h1')) in S4. assert (P := nrel_point_b z). assert (P' := nrel_point_b z'). unfold tol9 in *.
  assert (S5 : dist (sky z a) (sky z' a') <= nrel_place_tol z + nrel_place_tol z') by (unfold nrel_place_tol; lra).
  assert (Bp : 0 <= nrel_place_tol z <= 0.0003 /\ 0 <= nrel_place_tol z' <= 0.0003) by (unfold nrel_place_tol; lra).
  destruct (close_directions z a z' a' (nrel_place_tol z + nrel_place_tol z') ltac:(lra) Bz Bz' S5) as [X Y].
  exists d, eot, ecf, d', eot', ecf', a, a'. cbv zeta. do 6 (split; [assumption|]). do 3 (split; [lra|]). do 2 (split; [assumption|]). split; [exact X|]. lra.
Qed.

(** ** C55: nrel in double precision against every other evaluation *)
Lemma topo_geo_dist phi d h ecf d' h' : 0.95 <= ecf <= 1.05 -> topocentric phi d h ecf d' h' -> dist (hor phi d' h') (hor phi d h) <= 0.0000501.
Proof.
  intros Be (u & rho & H). cbv zeta in H. destruct H as (U1 & U2 & U3 & R1 & R2 & K1 & K2 & K3). assert (S := sx_range ecf Be).
  set (sx := sin (8.794 / 3600 * sqrt ecf * (PI / 180))) in *. assert (Q := topo_rho d h sx u rho d' h' S R1 K1 K2 K3).
  eapply Rle_trans; [apply (unit_close rho 1 (hor phi d' h') (hor phi d h) sx (hor_unit _ _ _) (hor_unit _ _ _) Q ltac:(lra) ltac:(lra))|lra]. cbn.
  set (e1 := cos phi * cos u + sin phi * (0.99664719 * sin u)). set (e2 := sin phi * cos u - cos phi * (0.99664719 * sin u)).
  assert (EN : e1 * e1 + e2 * e2 <= 1).
  { unfold e1, e2. pose proof (sc1 phi) as Sp. pose proof (sc1 u). 
    apply Rle_trans with ((sin phi * sin phi + cos phi * cos phi) * (cos u * cos u + 0.99664719 * 0.99664719 * (sin u * sin u))); [right; ring|]. rewrite Sp. nra. }
  assert (ES : rho * sun_S phi d' h' - 1 * sun_S phi d h = - (sx * e2)).
  { unfold sun_S, e2. replace (rho * (sin phi * cos d' * cos h' - cos phi * sin d')) with (sin phi * (rho * (cos d' * cos h')) - cos phi * (rho * sin d')) by ring. rewrite K1, K3. ring. }
  assert (EW : rho * sun_W phi d' h' - 1 * sun_W phi d h = 0) by (unfold sun_W; rewrite K2; ring).
  assert (EU : rho * sun_U phi d' h' - 1 * sun_U phi d h = - (sx * e1)).
  { unfold sun_U, e1. replace (rho * (sin phi * sin d' + cos phi * cos d' * cos h')) with (sin phi * (rho * sin d') + cos phi * (rho * (cos d' * cos h'))) by ring. rewrite K1, K3. ring. }
  rewrite ES, EW, EU. replace (- (sx * e2) * - (sx * e2) + 0 * 0 + - (sx * e1) * - (sx * e1)) with (sx * sx * (e1 * e1 + e2 * e2)) by ring. assert (0 <= sx * sx) by nra. nra.
Qed.
Theorem C72_agree : forall D E' uc uc' times times' lat lat' lon lon' alg' refr refr' eng eng' sp sp' k k' t,
  double_like D ->
  evaluated_time64 D uc times lat lon "nrel" refr eng sp k t ->
  evaluated_time E' uc' times' lat' lon' alg' refr' eng' sp' k' t ->
  exists d m x d' m' x', let T := centuries t in
    value (sp_declination sp) [k] d /\ value (sp_eot sp) [k] m /\ value (sp_ecf sp) [k] x /\
    value (sp_declination sp') [k'] d' /\ value (sp_eot sp') [k'] m' /\ value (sp_ecf sp') [k'] x' /\
    Rabs (d - d') <= dec_tol "nrel" T + dec_tol alg' T + / 1000000000 /\ Rabs (m - m') <= eot_tol "nrel" T + eot_tol alg' T + 400 / 1000000000 /\
    Rabs (x - x') <= ecf_tol "nrel" + ecf_tol alg' + / 1000000000.
Proof.
  intros D E' uc uc' times times' lat lat' lon lon' alg' refr refr' eng eng' sp sp' k k' t HD C C'.
  destruct (one_cell (single D) Sites t 0 0 "nrel" RFalse "numexpr" ne_nrel nrel_in (proj2 (proj2 C)) ltac:(lra) ltac:(lra)) as (sp1 & [C1 _]).
  destruct (C72_nrel_time _ _ _ _ _ _ _ _ _ _ _ _ _ _ _ _ _ _ _ HD C C1) as (d1 & m1 & x1 & d2 & m2 & x2 & V1 & V2 & V3 & V4 & V5 & V6 & B1 & B2 & B3).
  destruct (C55_agree _ _ _ _ _ _ _ _ _ _ _ _ _ _ _ _ _ _ _ _ _ C1 C') as (d3 & m3 & x3 & d' & m' & x' & W1 & W2 & W3 & W4 & W5 & W6 & F1 & F2 & F3).
  unfold value in *. rewrite V4 in W1. rewrite V5 in W2. rewrite V6 in W3. injection W1 as <-. injection W2 as <-. injection W3 as <-.
  exists d1, m1, x1, d', m', x'. cbv zeta. do 6 (split; [assumption|]).
  assert (Y1 := tri3 _ _ _ _ _ B1 F1). assert (Y2 := tri3 _ _ _ _ _ B2 F2). assert (Y3 := tri3 _ _ _ _ _ B3 F3). repeat split; lra.
Qed.

(** The geocentric direction of the returned declination and hour angle is at most a solar parallax away. *)
Definition nrel_geo_tol (z T : R) : R :=
  dec_tol "nrel" T + eot_tol "nrel" T * (PI / 720) + nrel_hour_tol + 0.0000501 + 5 / 1000000000 + point_tol64 nrel_tol z.
Lemma call_nrel64_geo D uc times lat lon refr eng sp k j i t la lo z : double_like D -> is_True refr = false ->
  evaluated_cell64 D uc times lat lon "nrel" refr eng sp k j i t la lo -> value (sp_zenith sp) (idx uc k j i) z ->
  exists d eot h a, value (sp_declination sp) [k] d /\ value (sp_eot sp) [k] eot /\ value (sp_azimuth sp) (idx uc k j i) a /\
    - / 1000000000 <= z <= PI + / 1000000000 /\ near_turn h (solar_hour_angle t lo eot) nrel_hour_tol /\
    dist (sky z a) (hor (la * (PI / 180)) d h) <= point_tol64 nrel_tol z + / 1000000000 + 0.0000501.
Proof.
  intros HD R C Hz.
  destruct (call_nrel64_dist _ _ _ _ _ _ _ _ _ _ _ _ _ _ _ HD R C Hz) as (d & eot & ecf & h & d1 & h1 & a & V1 & V2 & V3 & B1 & B3 & N & T & N' & A1 & Bz & S1).
  destruct (C72_ranges _ _ _ _ _ _ _ _ _ _ HD (proj1 C)) as (q1 & q2 & q3 & Q1 & Q2 & Q3 & _ & _ & Q6). unfold value in *. rewrite V3 in Q3. injection Q3 as <-.
  exists d, eot, h, a. do 5 (split; [assumption|]).
  assert (S2 := topo_geo_dist (la * (PI / 180)) d h ecf d1 h1 ltac:(lra) T). assert (S3 := dist_tri (sky z a) (hor (la * (PI / 180)) d1 h1) (hor (la * (PI / 180)) d h)). lra.
Qed.
Lemma nrel_geo_b z T : -3.223 <= T <= 2.623 -> 0 <= nrel_geo_tol z T <= 0.03.
Proof.
  intros B. assert (BA : 0 <= Rabs T <= 3.3) by (split; [apply Rabs_pos|apply Rabs_le; lra]). assert (C : 0.00436 <= PI / 720 <= 0.00437) by (split; interval).
  assert (P := nrel_point_b z). revert BA C P. unfold nrel_geo_tol, dec_tol, eot_tol, nrel_hour_tol. cbn [String.eqb Ascii.eqb Bool.eqb andb].
  generalize (Rabs T) (PI / 720) (point_tol64 nrel_tol z). intros q c p BA C P. assert (QC : 0 <= q * c <= 0.01443) by (split; nra). split; lra.
Qed.
Lemma hour_pair t lo m m' h h' p p' e : near_turn h (solar_hour_angle t lo m) p -> near_turn h' (solar_hour_angle t lo m') p' -> Rabs (m - m') <= e ->
  near_turn h h' (p + p' + e * (PI / 720)).
Proof.
  intros (q & Hq) (q' & Hq') He. exists (q - q')%Z. rewrite minus_IZR.
  assert (E1 : solar_hour_angle t lo m - solar_hour_angle t lo m' = (m - m') * (PI / 720)) by (unfold solar_hour_angle; field).
  assert (Dm : Rabs ((m - m') * (PI / 720)) <= e * (PI / 720)) by (pose proof PI_RGT_0; rewrite Rabs_mult, (Rabs_pos_eq (PI / 720)) by lra; apply Rmult_le_compat_r; lra).
  rewrite <- E1 in Dm. apply Rabs_le_inv in Hq, Hq', Dm. apply Rabs_le. lra.
Qed.
(** ... in the exact or single precision model, whatever the algorithm ... *)
Theorem C72_positions : forall D E' uc uc' times times' lat lat' lon lon' alg' refr refr' eng eng' sp sp' k k' j j' i i' t la lo z z',
  double_like D -> float32_like E' -> is_True refr = false -> is_True refr' = false ->
  evaluated_cell64 D uc times lat lon "nrel" refr eng sp k j i t la lo ->
  evaluated_cell E' uc' times' lat' lon' alg' refr' eng' sp' k' j' i' t la lo ->
  value (sp_zenith sp) (idx uc k j i) z -> value (sp_zenith sp') (idx uc' k' j' i') z' ->
  exists a a', let tau := 1.002 * (nrel_geo_tol z (centuries t) + single_place_tol alg' eng' la z' (centuries t)) in
    value (sp_azimuth sp) (idx uc k j i) a /\ value (sp_azimuth sp') (idx uc' k' j' i') a' /\
    separation_le z a z' a' tau /\ Rabs (z - z') <= tau + 5 / 1000000000.
Proof.
  intros D E' uc uc' times times' lat lat' lon lon' alg' refr refr' eng eng' sp sp' k k' j j' i i' t la lo z z' I I' R R' H H' Vz Vz'.
  destruct (C72_agree _ _ _ _ _ _ _ _ _ _ _ _ _ _ _ _ _ _ _ _ I (proj1 H) (proj1 H')) as (d & m & x & d' & m' & x' & V1 & V2 & V3 & V1' & V2' & V3' & D1 & D2 & _).
  destruct (call_nrel64_geo _ _ _ _ _ _ _ _ _ _ _ _ _ _ _ I R H Vz) as (d0 & m0 & h & a & W1 & W2 & W3 & W4 & W5 & S1).
  destruct (call_dist _ _ _ _ _ _ _ _ _ _ _ _ _ _ _ _ I' R' H' Vz') as (d0' & m0' & h' & a' & W1' & W2' & W3' & W4' & W5' & S2).
  assert (L' := alg_listed _ _ _ _ _ _ _ _ (proj1 (proj1 H'))).
  assert (Ht : representable t) by apply H. assert (BT := centuries_b t Ht). cbv zeta in D1, D2. set (T := centuries t) in *.
  unfold value in *. rewrite V1 in W1. rewrite V2 in W2. rewrite V1' in W1'. rewrite V2' in W2'.
  injection W1 as <-. injection W2 as <-. injection W1' as <-. injection W2' as <-. set (phi := la * (PI / 180)) in *.
  assert (P : 0 < PI / 720 < 0.0044) by (split; interval).
  assert (Hh := hour_pair _ _ _ _ _ _ _ _ _ W5 W5' D2). assert (S3 := dist_hor phi d h d' h' _ Hh).
  set (c := nrel_geo_tol z T + single_place_tol alg' eng' la z' T).
  assert (S4 : dist (sky z a) (sky z' a') <= c).
  { assert (X1 := dist_tri (sky z a) (hor phi d h) (sky z' a')). assert (X2 := dist_tri (hor phi d h) (hor phi d' h') (sky z' a')).
    rewrite (dist_sym (hor phi d' h')) in X2. unfold c, nrel_geo_tol, single_place_tol. lra. }
  assert (B1 := nrel_geo_b z T BT). assert (B2 := single_place_b alg' eng' la z' T L' BT).
  destruct (close_directions z a z' a' c ltac:(unfold c; lra) W4 ltac:(lra) S4) as [X Y].
  exists a, a'. cbv zeta. do 2 (split; [assumption|]). split; [exact X|]. fold c. lra.
Qed.
(** ... and the other algorithms in double precision. *)
Theorem C72_double_double : forall D D' uc uc' times times' lat lat' lon lon' alg' refr refr' eng eng' sp sp' k k' j j' i i' t la lo z z',
  double_like D -> double_like D' -> alg' <> "nrel"%string -> is_True refr = false -> is_True refr' = false ->
  evaluated_cell64 D uc times lat lon "nrel" refr eng sp k j i t la lo ->
  evaluated_cell64 D' uc' times' lat' lon' alg' refr' eng' sp' k' j' i' t la lo ->
  value (sp_zenith sp) (idx uc k j i) z -> value (sp_zenith sp') (idx uc' k' j' i') z' ->
  exists a a', let tau := 1.002 * (nrel_geo_tol z (centuries t) + double_place_tol alg' eng' la z' (centuries t)) in
    value (sp_azimuth sp) (idx uc k j i) a /\ value (sp_azimuth sp') (idx uc' k' j' i') a' /\
    separation_le z a z' a' tau /\ Rabs (z - z') <= tau + 5 / 1000000000.
Proof.
  intros D D' uc uc' times times' lat lat' lon lon' alg' refr refr' eng eng' sp sp' k k' j j' i i' t la lo z z' I I' Hn' R R' H H' Vz Vz'.
  destruct (one_cell (single D) Sites t 0 0 "nrel" RFalse "numexpr" ne_nrel nrel_in (proj2 (proj2 (proj1 H))) ltac:(lra) ltac:(lra)) as (sp1 & [C1 _]).
  destruct (C72_nrel_time _ _ _ _ _ _ _ _ _ _ _ _ _ _ _ _ _ _ _ I (proj1 H) C1) as (d & m & x & d2 & m2 & x2 & V1 & V2 & V3 & V4 & V5 & V6 & Y1 & Y2 & Y3).
  destruct (C69_agree _ _ _ _ _ _ _ _ _ _ _ _ _ _ _ _ _ _ _ _ _ I' Hn' (proj1 H') C1) as (d' & m' & x' & d3 & m3 & x3 & V1' & V2' & V3' & G1 & G2 & G3 & D1 & D2 & _).
  destruct (call_nrel64_geo _ _ _ _ _ _ _ _ _ _ _ _ _ _ _ I R H Vz) as (d0 & m0 & h & a & W1 & W2 & W3 & W4 & W5 & S1).
  destruct (call_dist64 _ _ _ _ _ _ _ _ _ _ _ _ _ _ _ _ I' Hn' R' H' Vz') as (d0' & m0' & h' & a' & W1' & W2' & W3' & W4' & W5' & S2).
  assert (L' := alg_listed _ _ _ _ _ _ _ _ (proj1 (proj1 H'))).
  assert (Ht : representable t) by apply H. assert (BT := centuries_b t Ht). cbv zeta in D1, D2. set (T := centuries t) in *.
  unfold value in *. rewrite V4 in G1. rewrite V5 in G2. injection G1 as <-. injection G2 as <-. rewrite V1 in W1. rewrite V2 in W2. rewrite V1' in W1'. rewrite V2' in W2'.
  injection W1 as <-. injection W2 as <-. injection W1' as <-. injection W2' as <-. set (phi := la * (PI / 180)) in *.
  assert (P : 0 < PI / 720 < 0.0044) by (split; interval). rewrite Rabs_minus_sym in D1, D2. assert (F1 := tri3 _ _ _ _ _ Y1 D1). assert (F2 := tri3 _ _ _ _ _ Y2 D2).
  assert (Hh := hour_pair _ _ _ _ _ _ _ _ _ W5 W5' F2). assert (S3 := dist_hor phi d h d' h' _ Hh).
  set (c := nrel_geo_tol z T + double_place_tol alg' eng' la z' T).
  assert (S4 : dist (sky z a) (sky z' a') <= c).
  { assert (X1 := dist_tri (sky z a) (hor phi d h) (sky z' a')). assert (X2 := dist_tri (hor phi d h) (hor phi d' h') (sky z' a')).
    rewrite (dist_sym (hor phi d' h')) in X2. unfold c, nrel_geo_tol, double_place_tol. lra. }
  assert (B1 := nrel_geo_b z T BT). assert (B2 := double_place_b alg' eng' la z' T L' Hn' BT).
  destruct (close_directions z a z' a' c ltac:(unfold c; lra) W4 W4' S4) as [X Y].
  exists a, a'. cbv zeta. do 2 (split; [assumption|]). split; [exact X|]. fold c. lra.
Qed.

(** ** C23: east before noon, west after noon *)
Definition noon_margin_nrel : R := nrel_hour_tol + 2 / 100000000.
Theorem C72_noon : forall D uc times lat lon refr eng sp k j i t la lo eot n,
  double_like D ->
  evaluated_cell64 D uc times lat lon "nrel" refr eng sp k j i t la lo ->
  value (sp_eot sp) [k] eot ->
  let H := solar_hour_angle t lo eot - 2 * PI * IZR n in
  exists a, value (sp_azimuth sp) (idx uc k j i) a /\
    (noon_margin_nrel <= H <= PI - noon_margin_nrel -> 0 < sin a) /\
    (- PI + noon_margin_nrel <= H <= - noon_margin_nrel -> sin a < 0).
Proof.
  intros D uc times lat lon refr eng sp k j i t la lo eot n HD C Heot H.
  destruct (C72_nrel_position _ _ _ _ _ _ _ _ _ _ _ _ _ _ HD C) as (d & eot' & ecf & h & d' & h' & V1 & V2 & V3 & N & (u & rh & T) & (a & A1 & A2 & (rho & R0 & _ & RW)) & _).
  unfold value in V2, Heot. rewrite Heot in V2. injection V2 as <-. exists a. split; [exact A1|].
  destruct (C72_ranges _ _ _ _ _ _ _ _ _ _ HD (proj1 C)) as (d0 & m0 & x0 & G1 & _ & G3 & B1 & _ & Bx).
  unfold value in V1, G1, V3, G3. rewrite V1 in G1. rewrite V3 in G3. injection G1 as <-. injection G3 as <-.
  assert (Cd : 0.9 <= cos d).
  { apply Rabs_le_inv in B1. assert (B : -0.412 <= d <= 0.412).
    { replace d with (d * (180 / PI) * (PI / 180)) by (field; apply PI_neq0). generalize dependent (d * (180 / PI)). intros q Hq. clear - Hq. split; interval. }
    clear - B. interval. }
  cbv zeta in T. destruct T as (U1 & U2 & U3 & Pr & Pc & K1 & K2 & K3). assert (S := sx_range ecf ltac:(lra)).
  set (sx := sin (8.794 / 3600 * sqrt ecf * (PI / 180))) in *.
  (* rho' <= 2 *)
  assert (Up : rh <= 1.01).
  { assert (Nn : rh * rh = (rh * (cos d' * cos h')) ^ 2 + (rh * (cos d' * sin h')) ^ 2 + (rh * sin d') ^ 2).
    { pose proof (sc1 d') as X. pose proof (sc1 h') as Y. transitivity (rh * rh * (sin d' * sin d' + cos d' * cos d' * (sin h' * sin h' + cos h' * cos h'))); [rewrite Y, Rmult_1_r, X; ring|ring]. }
    rewrite K1, K2, K3 in Nn. pose proof (sc1 d) as X. pose proof (sc1 h) as Y. assert (M : (cos d * cos h) ^ 2 + (cos d * sin h) ^ 2 + (sin d) ^ 2 = 1).
    { transitivity (sin d * sin d + cos d * cos d * (sin h * sin h + cos h * cos h)); [ring|rewrite Y, Rmult_1_r; exact X]. }
    pose proof (SIN_bound u) as Su. pose proof (COS_bound u) as Cu.
    set (x := cos d * cos h) in *. set (y := cos d * sin h) in *. set (z := sin d) in *. 
    assert (E1 : -0.0001 <= sx * cos u <= 0.0001) by (split; nra). assert (E2 : -0.0001 <= sx * (0.99664719 * sin u) <= 0.0001) by (split; nra).
    set (p := sx * cos u) in *. set (q := sx * (0.99664719 * sin u)) in *. assert (-1 <= x <= 1) by (split; nra). assert (-1 <= z <= 1) by (split; nra). nra. }
  destruct N as (q & Hq). apply Rabs_le_inv in Hq. unfold sun_W in RW. apply Rabs_le_inv in RW.
  set (x := h - 2 * PI * IZR (q + n)). assert (Es : sin h = sin x) by (unfold x; now rewrite sin_2kpi).
  assert (Hx : Rabs (x - H) <= nrel_hour_tol) by (apply Rabs_le; unfold x, H; rewrite plus_IZR; lra). apply Rabs_le_inv in Hx.
  unfold noon_margin_nrel. rewrite Es in K2. unfold nrel_tol in RW.
  split; intros B.
  - assert (Sm := sin_margin x (1.9 / 100000000) ltac:(lra) ltac:(lra)). apply Rnot_le_lt. intros L. assert (rho * sin a <= 0) by nra.
    assert (cos d' * sin h' <= 1.1 / 100000000) by lra. nra.
  - assert (Sm := sin_margin (- x) (1.9 / 100000000) ltac:(lra) ltac:(lra)). rewrite sin_neg in Sm. apply Rnot_le_lt. intros L. assert (0 <= rho * sin a) by nra.
    assert (- (1.1 / 100000000) <= cos d' * sin h') by lra. nra.
Qed.

(** ** The hypotheses, in IEEE binary64/binary32: 21 June 2024, 10:00 UTC, 40 N 3 W; and the zenith angle is there: the sun is
    not next to the vertical. *)
Example C72_example : double_like float64_env /\ forall uc refr,
  exists sp, evaluated_cell64 float64_env uc (at_times [Some w_t]) (Scalar (Fin 40)) (Scalar (Fin (-3))) "nrel" refr "numexpr" sp 0 0 0 w_t 40 (-3).
Proof. split; [exact float64_like|]. intros uc refr. exact (proj2 C69_example uc refr _ _ _ nrel_in). Qed.
Lemma high_lat_low_sun phi d' h' : 0 <= cos d' <= 1 -> 80 * (PI / 180) <= phi <= PI / 2 -> sin d' <= 0.5 -> -0.5 <= sin d' -> Rabs (sun_U phi d' h') <= 0.75.
Proof.
  intros Hc Hp H1 H2. unfold sun_U. assert (C : 0 <= cos phi <= 0.18) by (split; [apply cos_ge_0; pose proof PI_RGT_0; lra|]; assert (1.396 <= 80 * (PI / 180)) by interval; assert (PI / 2 <= 1.571) by interval; assert (1.396 <= phi <= 1.571) by lra; interval).
  pose proof (SIN_bound phi). pose proof (COS_bound h'). assert (-0.5 <= sin phi * sin d' <= 0.5) by (split; nra). assert (-0.18 <= cos phi * cos d' <= 0.18) by (split; nra).
  assert (-0.18 <= cos phi * cos d' * cos h' <= 0.18) by (split; nra). apply Rabs_le. lra.
Qed.
Example C72_zenith_example uc : exists sp z,
  evaluated_cell64 float64_env uc (at_times [Some w_t]) (Scalar (Fin 85)) (Scalar (Fin (-3))) "nrel" RFalse "numexpr" sp 0 0 0 w_t 85 (-3) /\
  value (sp_zenith sp) (idx uc 0 0 0) z.
Proof.
  destruct (one_cell64 float64_env uc w_t 85 (-3) "nrel" RFalse "numexpr" ne_nrel float64_like nrel_in w_t_representable ltac:(lra) ltac:(lra)) as (sp & H). exists sp.
  destruct (call_nrel64 _ _ _ _ _ _ _ _ _ _ _ _ _ _ float64_like H) as (d & eot & ecf & h & d' & h' & a & V1 & V2 & V3 & B1 & B2 & B3 & N & T & Cd & N' & A1 & A2 & A3 & Z).
  destruct Z as [(z0 & Z1 & Z2 & Z3)|(_ & Z)]; [destruct (Z3 eq_refl) as (z & V & _); exists z; now split|exfalso].
  assert (S := sc1 d'). assert (-0.5 <= sin d' <= 0.5) by (split; nra). assert (P := PI_RGT_0).
  assert (X := high_lat_low_sun (85 * (PI / 180)) d' h' ltac:(pose proof (COS_bound d'); lra) ltac:(lra) ltac:(lra) ltac:(lra)). unfold nrel_tol in Z. lra.
Qed.
