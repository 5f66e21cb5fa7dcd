(** * PropDoublePos: what C69 means for the returned angles (C04, C18, C20, C23-C26, C28, C29, C55 in IEEE double precision) *)

From Coq Require Import ZArith QArith Reals Bool List String Lra Lia.
From Flocq Require Import Core.Raux.
From Interval Require Import Tactic.
From Verif Require Import Num Arrays Libspa Time Core Usecases Spec GenericLemmas GenericLemmas2 Ext ExtLemmas
  Sky SkyClose AstroTac AstroSpec SingleSpec SingleLemmas Astro AstroCell AstroCall AstroRefute Float32 Float32L
  PropAstro PropSingle Almanac AlmanacPos PropAlmanac PropSinglePos
  Double DoubleTac DoubleSpec DoubleLemmas DoubleCore DoubleCell PsaD DoublePos PropDouble Float64.
Import ListNotations.
Open Scope R_scope.

(** ** Ranges *)
Theorem C69_ranges : forall D uc times lat lon alg refr eng sp k t,
  double_like D -> alg <> "nrel"%string ->
  evaluated_time64 D uc times lat lon alg refr eng sp k t ->
  exists d m x, value (sp_declination sp) [k] d /\ value (sp_eot sp) [k] m /\ value (sp_ecf sp) [k] x /\
    Rabs (d * (180 / PI)) <= 23.6 /\ Rabs m <= 20 /\ 0.9599 <= x <= 1.0401.
Proof.
  intros D uc times lat lon alg refr eng sp k t HD Hn C.
  destruct (call_double_time _ _ _ _ _ _ _ _ _ _ _ HD Hn C) as (q & d0 & eot0 & ecf0 & d & eot & ecf & Hin & E1 & E2 & E3 & V1 & V2 & V3 & B1 & B2 & B3).
  destruct C as (_ & _ & Ht). destruct (time_value _ _ _ _ _ Hin (sec_range t Ht)) as (d1 & eot1 & ecf1 & F1 & F2 & F3 & G1 & G2 & G3).
  rewrite E1 in F1. rewrite E2 in F2. rewrite E3 in F3. injection F1 as <-. injection F2 as <-. injection F3 as <-.
  exists d, eot, ecf. do 3 (split; [assumption|]). unfold tol9 in *. apply Rabs_le_inv in B1, B2, B3, G2.
  split; [|split; [apply Rabs_le; lra|lra]]. assert (B : -0.41101 <= d <= 0.41101) by lra. clear - B. interval.
Qed.

(** The zenith angle is within [0, pi] but for 1e-9, or NaN with the sun next to the vertical; the azimuth is within the floats
    nearest to -pi and pi. *)
Theorem C69_position_ranges : forall D uc times lat lon alg refr eng sp k j i t la lo,
  double_like D -> alg <> "nrel"%string ->
  evaluated_cell64 D uc times lat lon alg refr eng sp k j i t la lo ->
  (exists a, value (sp_azimuth sp) (idx uc k j i) a /\ - r64 D PI <= a <= r64 D PI) /\
  (is_True refr = false ->
     (exists z, value (sp_zenith sp) (idx uc k j i) z /\ - / 1000000000 <= z <= PI + / 1000000000)
     \/ (get (sp_zenith sp) (idx uc k j i) = Some NaN /\ zenith_always64 alg eng = false /\
         exists d eot h, value (sp_declination sp) [k] d /\ value (sp_eot sp) [k] eot /\
           near_turn h (solar_hour_angle t lo eot) (hour_tol alg + / 1000000000) /\
           1 - double_tol alg eng la < Rabs (sun_U (la * (PI / 180)) d h))).
Proof.
  intros D uc times lat lon alg refr eng sp k j i t la lo HD Hn C.
  destruct (call_double _ _ _ _ _ _ _ _ _ _ _ _ _ _ _ HD Hn C) as (d & eot & h & a & H1 & H2 & H3 & _ & H4 & H5 & H6 & H7).
  split; [exists a; split; [exact H4|now apply Rabs_le_inv in H5]|]. intros Hr.
  destruct H7 as [(z0 & Z1 & Z2 & Z3)|(Z1 & Z2 & Z3)].
  - left. destruct (Z3 Hr) as (z & V & B). exists z. split; [exact V|]. unfold tol9 in B. apply Rabs_le_inv in B.
    assert (P := parallax_coef_b alg). set (c := parallax_coef alg) in *. assert (0 <= sin z0) by (apply sin_ge_0; lra).
    assert (S : sin z0 <= PI - z0).
    { rewrite <- (sin_PI_x z0). assert (L := sin_lip (PI - z0) 0). rewrite sin_0, !Rminus_0_r in L. rewrite !Rabs_pos_eq in L by (try lra; apply sin_ge_0; lra). exact L. }
    split; nra.
  - right. split; [exact Z3|]. split; [exact Z1|]. exists d, eot, h. auto.
Qed.

(** ** C04, C28, C29: engines, use cases, requests and arithmetics *)
Lemma hour_engines64 D D' alg eng eng' m t lo : In (alg, eng, m) (supported (O := ExtOps (single D))) -> alg <> "nrel"%string -> representable t ->
  near_turn (hour_angle_of alg eng' (nem (single D')) t lo) (hour_angle_of alg eng (nem (single D)) t lo) 0.
Proof.
  intros Hin Hn Ht. destruct (hour_engines alg eng' eng (single D') (single D) t lo Ht) as [N|[N|N]]; [exact N|contradiction|].
  exfalso. cbn [supported In] in Hin, N. destruct Hin as [H|[H|[H|[H|[H|[H|[H|[]]]]]]]]; injection H as <- _ _; tauto.
Qed.
(** Two evaluations of the same instant and place - by any engines, use cases, positions in any requests, and any double
    precision arithmetics - describe one direction. *)
Theorem C69_same_direction : forall D D' uc uc' times times' lat lat' lon lon' alg refr refr' eng eng' sp sp' k k' j j' i i' t la lo,
  double_like D -> double_like D' -> alg <> "nrel"%string ->
  evaluated_cell64 D uc times lat lon alg refr eng sp k j i t la lo ->
  evaluated_cell64 D' uc' times' lat' lon' alg refr' eng' sp' k' j' i' t la lo ->
  exists d d' h,
    value (sp_declination sp) [k] d /\ value (sp_declination sp') [k'] d' /\ Rabs (d - d') <= 2 / 1000000000 /\
    azimuth_within64 D (double_tol alg eng la) sp (idx uc k j i) (la * (PI / 180)) d h /\
    azimuth_within64 D' (double_tol alg eng' la + 1 / 100000000) sp' (idx uc' k' j' i') (la * (PI / 180)) d h /\
    (is_True refr = false -> zenith_within64 (double_tol alg eng la) (parallax_coef alg) sp (idx uc k j i) (la * (PI / 180)) d h) /\
    (is_True refr' = false -> zenith_within64 (double_tol alg eng' la + 1 / 100000000) (parallax_coef alg) sp' (idx uc' k' j' i') (la * (PI / 180)) d h).
Proof.
  intros D D' uc uc' times times' lat lat' lon lon' alg refr refr' eng eng' sp sp' k k' j j' i i' t la lo HD HD' Hn C C'.
  destruct (call_double _ _ _ _ _ _ _ _ _ _ _ _ _ _ _ HD Hn C) as (d & eot & h & a & H1 & H2 & _ & Eh & H4 & H5 & H6 & H7).
  destruct (call_double _ _ _ _ _ _ _ _ _ _ _ _ _ _ _ HD' Hn C') as (d' & eot' & h' & a' & H1' & H2' & _ & Eh' & H4' & H5' & H6' & H7').
  destruct (call_double_time _ _ _ _ _ _ _ _ _ _ _ HD Hn (proj1 C)) as (q & d0 & e0 & x0 & d1 & e1 & x1 & Hin & E1 & _ & _ & V1 & _ & _ & B1 & _).
  destruct (call_double_time _ _ _ _ _ _ _ _ _ _ _ HD' Hn (proj1 C')) as (q' & d0' & e0' & x0' & d1' & e1' & x1' & Hin' & E1' & _ & _ & V1' & _ & _ & B1' & _).
  assert (Ht : representable t) by apply C.
  destruct (time_same _ _ _ _ _ _ _ _ Hin Hin' (sec_range t Ht) Hn) as [T _]. rewrite E1, E1' in T. injection T as <-.
  assert (U := H1). assert (U' := H1'). unfold value in U, U', V1, V1'. rewrite V1 in U. rewrite V1' in U'. injection U as ->. injection U' as ->. clear V1 V1'.
  assert (Dd : Rabs (d - d') <= 2 / 1000000000) by (rewrite Rabs_minus_sym in B1'; assert (X := tri3 _ _ _ _ _ B1 B1'); unfold tol9 in X; lra).
  assert (N := hour_engines64 D D' alg eng eng' q t lo Hin Hn Ht). rewrite <- Eh, <- Eh' in N.
  set (phi := la * (PI / 180)) in *.
  exists d, d', h. split; [exact H1|]. split; [exact H1'|]. split; [exact Dd|]. rewrite Rabs_minus_sym in Dd. split; [|split; [|split]].
  - exists a. split; [exact H4|]. apply Rabs_le_inv in H5. split; [exact H5|exact H6].
  - exists a'. split; [exact H4'|]. apply Rabs_le_inv in H5'. split; [exact H5'|].
    assert (X := near_azimuth_turn _ _ _ _ _ _ _ N (near_azimuth_dec _ _ _ _ _ _ _ Dd H6')).
    destruct X as (rho & R0 & R1 & R2). exists rho. split; [exact R0|]. split; lra.
  - intros Hr. destruct H7 as [(z0 & Z1 & Z2 & Z3)|(Z1 & Z2 & Z3)]; [left|right; auto].
    destruct (Z3 Hr) as (z & V & B). exists z. split; [exact V|]. exists z0. auto.
  - intros Hr. assert (X := tri3 _ _ _ _ _ (dec_U phi d' d h') (near_turn_U phi d h' h 0 N)).
    destruct H7' as [(z0 & Z1 & Z2 & Z3)|(Z1 & Z2 & Z3)]; [left|right].
    + destruct (Z3 Hr) as (z & V & B). exists z. split; [exact V|]. exists z0. split; [exact Z1|]. split; [|exact B].
      assert (Y := tri3 _ _ _ _ _ Z2 X). lra.
    + split; [exact Z3|]. assert (Y := tri_abs _ _ _ _ Z2 X). lra.
Qed.

Lemma double_tol_b alg eng la : 0.000003 <= double_tol alg eng la <= 0.0007.
Proof. unfold double_tol. destruct (String.eqb alg "soltrack" && String.eqb eng "numpy")%bool; [destruct (Rle_dec (Rabs la) 80)|]; lra. Qed.

Definition agree64 (alg eng eng' : string) (la : R) : R := double_tol alg eng la + double_tol alg eng' la + 1 / 100000000.
Theorem C69_agreement : forall D D' uc uc' times times' lat lat' lon lon' alg refr refr' eng eng' sp sp' k k' j j' i i' t la lo,
  double_like D -> double_like D' -> alg <> "nrel"%string ->
  evaluated_cell64 D uc times lat lon alg refr eng sp k j i t la lo ->
  evaluated_cell64 D' uc' times' lat' lon' alg refr' eng' sp' k' j' i' t la lo ->
  exists d h a a',
    value (sp_declination sp) [k] d /\
    value (sp_azimuth sp) (idx uc k j i) a /\ value (sp_azimuth sp') (idx uc' k' j' i') a' /\
    horizontal (la * (PI / 180)) d h * Rabs (sin (a - a')) <= 2 * agree64 alg eng eng' la /\
    (4 * agree64 alg eng eng' la < horizontal (la * (PI / 180)) d h -> 0 < cos (a - a')) /\
    (forall z z', is_True refr = false -> is_True refr' = false ->
       value (sp_zenith sp) (idx uc k j i) z -> value (sp_zenith sp') (idx uc' k' j' i') z' ->
       Rabs (cos z - cos z') <= 1.001 * agree64 alg eng eng' la + 2 / 1000000000) /\
    (is_True refr = false -> get (sp_zenith sp) (idx uc k j i) = Some NaN ->
       zenith_always64 alg eng = false /\ horizontal (la * (PI / 180)) d h <= 4 / 100).
Proof.
  intros D D' uc uc' times times' lat lat' lon lon' alg refr refr' eng eng' sp sp' k k' j j' i i' t la lo HD HD' Hn C C'.
  assert (Hal : zenith_always64 alg eng = true -> is_True refr = false -> get (sp_zenith sp) (idx uc k j i) <> Some NaN).
  { intros Z Hr. destruct (C69_double_position _ _ _ _ _ _ _ _ _ _ _ _ _ _ _ HD Hn C) as (? & ? & ? & _ & _ & _ & _ & H). now apply H. }
  destruct (C69_same_direction D D' uc uc' times times' lat lat' lon lon' alg refr refr' eng eng' sp sp' k k' j j' i i' t la lo HD HD' Hn C C')
    as (d & d' & h & H1 & _ & _ & (a & A1 & A2 & A3) & (a' & A1' & A2' & A3') & Z & Z').
  exists d, h, a, a'. split; [exact H1|]. split; [exact A1|]. split; [exact A1'|].
  destruct (C68_azimuth_difference _ _ _ _ _ _ _ A3 A3') as [D1 D2]. unfold agree64.
  split; [lra|]. split; [intros Hh; apply D2; lra|]. split.
  - intros z z' Hr Hr' Vz Vz'. specialize (Z Hr). specialize (Z' Hr'). unfold zenith_within64, value in *.
    destruct Z as [(y & Y1 & (y0 & Y2 & Y3 & Y4))|[Y1 _]]; [|rewrite Y1 in Vz; discriminate Vz].
    destruct Z' as [(y' & Y1' & (y0' & Y2' & Y3' & Y4'))|[Y1' _]]; [|rewrite Y1' in Vz'; discriminate Vz'].
    rewrite Y1 in Vz. rewrite Y1' in Vz'. injection Vz as ->. injection Vz' as ->.
    assert (P := parallax_coef_b alg). set (c := parallax_coef alg) in *.
    assert (X : Rabs (cos (y0 + c * sin y0) - cos (y0' + c * sin y0')) <= 1.001 * (double_tol alg eng la + (double_tol alg eng' la + 1 / 100000000))).
    { apply (C68_zenith_difference (la * (PI / 180)) d h c); [lra|exists y0; auto|exists y0'; auto]. }
    assert (L := Rle_trans _ _ _ (cos_lip z (y0 + c * sin y0)) Y4).
    assert (L' := Rle_trans _ _ _ (cos_lip z' (y0' + c * sin y0')) Y4'). rewrite Rabs_minus_sym in L'.
    assert (W := tri3 _ _ _ _ _ L (tri3 _ _ _ _ _ X L')). lra.
  - intros Hr Vn. split.
    { destruct (zenith_always64 alg eng) eqn:Ez; [|reflexivity]. now contradiction (Hal eq_refl Hr). }
    destruct (Z Hr) as [(y & Y1 & _)|[_ Y2]]; [unfold value in Y1; rewrite Y1 in Vn; discriminate Vn|].
    assert (T := double_tol_b alg eng la).
    assert (U := sun_unit (la * (PI / 180)) d h). assert (Hu : 1 - 14 / 10000 <= sun_U (la * (PI / 180)) d h ^ 2).
    { replace (sun_U (la * (PI / 180)) d h ^ 2) with (Rabs (sun_U (la * (PI / 180)) d h) ^ 2) by (rewrite pow2_abs; reflexivity).
      assert (1 - 7 / 10000 <= Rabs (sun_U (la * (PI / 180)) d h)) by lra. nra. }
    unfold horizontal. rewrite <- (sqrt_pow2 (4 / 100)) by lra. apply sqrt_le_1_alt. lra.
Qed.

(** ** C55: positions of the four algorithms *)
(** What an error [tol] of the unit vector does to the direction of zenith angle [z] (compare point_tol). *)
Definition point_tol64 (tol z : R) : R := 4.002 * tol + 2.002 * tol / Rmax (sin z) (sqrt (2 * tol)).
Definition double_place_tol (alg eng : string) (la z T : R) : R :=
  dec_tol alg T + eot_tol alg T * (PI / 720) + hour_tol alg + 5 / 1000000000 + parallax_coef alg + point_tol64 (double_tol alg eng la) z.

Lemma near_dist64 tol k z a phi d h : 0.000003 <= tol <= 0.001 -> 0 <= k <= 0.0001 -> near_zenith64 tol k z phi d h -> near_azimuth tol a phi d h ->
  dist (sky z a) (hor phi d h) <= k + point_tol64 tol z.
Proof.
  intros Ht Hk (z0 & B0 & H0 & Hz) Ha. set (y := z0 + k * sin z0) in *.
  assert (D1 := near_dist tol k y a phi d h ltac:(lra) Hk (ex_intro _ z0 (conj B0 (conj H0 eq_refl))) Ha).
  assert (D2 := dist_zen z y a). assert (T := dist_tri (sky z a) (sky y a) (hor phi d h)).
  assert (S := Rle_trans _ _ _ (sin_lip z y) Hz). apply Rabs_le_inv in S.
  assert (Q := sqrt_sqrt (2 * tol) ltac:(lra)). unfold point_tol in D1. unfold point_tol64. set (g := sqrt (2 * tol)) in *. assert (Pg : 0 < g) by (apply sqrt_lt_R0; lra).
  assert (Pg' : 0.002 <= g) by nra.
  assert (M : 0.9999 * Rmax (sin z) g <= Rmax (sin y) g).
  { destruct (Rle_dec (sin z) g) as [L|L].
    - rewrite (Rmax_right (sin z) g) by exact L. eapply Rle_trans; [|apply Rmax_r]. lra.
    - rewrite (Rmax_left (sin z) g) by lra. eapply Rle_trans; [|apply Rmax_l]. lra. }
  set (mz := Rmax (sin z) g) in *. set (my := Rmax (sin y) g) in *. assert (Pz : g <= mz) by apply Rmax_r.
  assert (I : / my <= / (0.9999 * mz)) by (apply Rinv_le_contravar; [lra|exact M]). rewrite Rinv_mult in I.
  assert (J : 0 < / mz) by (apply Rinv_0_lt_compat; lra). unfold Rdiv in *.
  assert (2.001 * tol * / my <= 2.002 * tol * / mz) by nra. lra.
Qed.

(** One call: the direction is close to that of the sun at the exact values of the algorithm. *)
Lemma call_dist64 D uc times lat lon alg refr eng sp k j i t la lo z :
  double_like D -> alg <> "nrel"%string -> is_True refr = false -> evaluated_cell64 D uc times lat lon alg refr eng sp k j i t la lo ->
  value (sp_zenith sp) (idx uc k j i) z ->
  exists d eot h a, value (sp_declination sp) [k] d /\ value (sp_eot sp) [k] eot /\ value (sp_azimuth sp) (idx uc k j i) a /\
    - / 1000000000 <= z <= PI + / 1000000000 /\
    near_turn h (solar_hour_angle t lo eot) (hour_tol alg + / 1000000000) /\
    dist (sky z a) (hor (la * (PI / 180)) d h) <= parallax_coef alg + point_tol64 (double_tol alg eng la) z.
Proof.
  intros HD Hn Hr C Hz.
  destruct (C69_double_position _ _ _ _ _ _ _ _ _ _ _ _ _ _ _ HD Hn C) as (d & eot & h & H1 & H2 & H3 & (a & A1 & A2 & A3) & Z). destruct (Z Hr) as [Z1 _].
  destruct (C69_position_ranges _ _ _ _ _ _ _ _ _ _ _ _ _ _ _ HD Hn C) as [_ R]. unfold zenith_within64, value in *.
  destruct (R Hr) as [(z' & R1 & R2)|[R1 _]]; rewrite Hz in R1; [injection R1 as <-|discriminate R1].
  destruct Z1 as [(z' & Q1 & Q2)|[Q1 _]]; rewrite Hz in Q1; [injection Q1 as <-|discriminate Q1].
  exists d, eot, h, a. do 3 (split; [assumption|]). split; [exact R2|]. split; [exact H3|].
  assert (S := double_tol_b alg eng la). assert (P := parallax_coef_b alg). apply near_dist64; [lra|lra|exact Q2|exact A3].
Qed.

(** Declination and equation of time against the other algorithms (exact or single precision model). *)
Theorem C69_agree : forall D E' uc uc' times times' lat lat' lon lon' alg alg' refr refr' eng eng' sp sp' k k' t,
  double_like D -> alg <> "nrel"%string ->
  evaluated_time64 D uc times lat lon alg refr eng sp k t ->
  evaluated_time E' uc' times' lat' lon' alg' refr' eng' sp' k' t ->
  exists d m x d' m' x', let T := centuries t in
    value (sp_declination sp) [k] d /\ value (sp_eot sp) [k] m /\ value (sp_ecf sp) [k] x /\
    value (sp_declination sp') [k'] d' /\ value (sp_eot sp') [k'] m' /\ value (sp_ecf sp') [k'] x' /\
    Rabs (d - d') <= dec_tol alg T + dec_tol alg' T + / 1000000000 /\ Rabs (m - m') <= eot_tol alg T + eot_tol alg' T + 70 / 1000000000 /\
    Rabs (x - x') <= ecf_tol alg + ecf_tol alg' + / 1000000000.
Proof.
  intros D E' uc uc' times times' lat lat' lon lon' alg alg' refr refr' eng eng' sp sp' k k' t HD Hn C C'.
  destruct (call_double_time _ _ _ _ _ _ _ _ _ _ _ HD Hn C) as (q & d0 & e0 & x0 & d & e & x & Hin & _).
  destruct (one_cell (single D) Sites t 0 0 alg RFalse eng q Hin (proj2 (proj2 C)) ltac:(lra) ltac:(lra)) as (sp1 & [C1 _]).
  destruct (C69_double_time _ _ _ _ _ _ _ _ _ _ _ _ _ _ _ _ _ _ _ _ HD Hn C C1) as (d1 & m1 & x1 & d2 & m2 & x2 & V1 & V2 & V3 & V4 & V5 & V6 & B1 & B2 & B3).
  destruct (C55_agree _ _ _ _ _ _ _ _ _ _ _ _ _ _ _ _ _ _ _ _ _ C1 C') as (d3 & m3 & x3 & d' & m' & x' & W1 & W2 & W3 & W4 & W5 & W6 & F1 & F2 & F3).
  unfold value in *. rewrite V4 in W1. rewrite V5 in W2. rewrite V6 in W3. injection W1 as <-. injection W2 as <-. injection W3 as <-.
  exists d1, m1, x1, d', m', x'. cbv zeta. do 6 (split; [assumption|]).
  assert (Y1 := tri3 _ _ _ _ _ B1 F1). assert (Y2 := tri3 _ _ _ _ _ B2 F2). assert (Y3 := tri3 _ _ _ _ _ B3 F3). repeat split; lra.
Qed.

Lemma point_tol64_b tol z : 0.000003 <= tol <= 0.0007 -> 0 <= point_tol64 tol z <= 0.0404 /\ (tol = 3 / 1000000 -> point_tol64 tol z <= 0.0025).
Proof.
  intros Ht. unfold point_tol64. assert (Sq := sqrt_sqrt (2 * tol) ltac:(lra)). set (g := sqrt (2 * tol)) in *. assert (Pg : 0 < g) by (apply sqrt_lt_R0; lra).
  assert (Px : g <= Rmax (sin z) g) by apply Rmax_r.
  assert (0 <= 2.002 * tol / Rmax (sin z) g) by (apply Rle_mult_inv_pos; lra).
  assert (2.002 * tol / Rmax (sin z) g <= 1.001 * g).
  { apply (Rmult_le_reg_r (Rmax (sin z) g)); [lra|]. unfold Rdiv. rewrite Rmult_assoc, Rinv_l, Rmult_1_r by lra. nra. }
  assert (g <= 0.03742) by nra. split; [split; lra|]. intros Et. assert (g <= 0.00245) by nra. lra.
Qed.
Lemma double_place_b alg eng la z T : In alg ["psa"; "soltrack"; "iqbal"; "nrel"]%string -> alg <> "nrel"%string -> -3.223 <= T <= 2.623 -> 0 <= double_place_tol alg eng la z T <= 0.041.
Proof.
  intros Hin Hn B. assert (BA : 0 <= Rabs T <= 3.3) by (split; [apply Rabs_pos|apply Rabs_le; lra]). assert (C : 0.00436 <= PI / 720 <= 0.00437) by (split; interval).
  destruct (point_tol64_b _ z (double_tol_b alg eng la)) as [P P'].
  assert (P'' : alg <> "soltrack"%string -> point_tol64 (double_tol alg eng la) z <= 0.0025).
  { intros Hs. apply P'. unfold double_tol. destruct (String.eqb_spec alg "soltrack"); [contradiction|]. reflexivity. }
  clear P'. revert BA C P P''. unfold double_place_tol, dec_tol, eot_tol, hour_tol, parallax_coef. 
  generalize (Rabs T) (PI / 720) (point_tol64 (double_tol alg eng la) z). intros q c p BA C P P''. assert (QC : 0 <= q * c <= 0.01443) by (split; nra).
  destruct Hin as [<-|[<-|[<-|[<-|[]]]]]; cbn [String.eqb Ascii.eqb Bool.eqb andb]; [specialize (P'' ltac:(discriminate)); split; lra|split; lra|specialize (P'' ltac:(discriminate)); split; lra|contradiction].
Qed.

Lemma alg_listed {F} {O : Ops F} uc times lat lon alg refr eng sp : call true uc times lat lon alg refr eng = Ok sp -> In alg ["psa"; "soltrack"; "iqbal"; "nrel"]%string.
Proof.
  intros H. destruct (call_supported _ _ _ _ _ _ _ _ _ H) as (q & Hq). cbn [supported In] in Hq.
  destruct Hq as [X|[X|[X|[X|[X|[X|[X|[]]]]]]]]; injection X as <- _ _; cbn; tauto.
Qed.
Lemma clamp z : - / 1000000000 <= z <= PI + / 1000000000 -> exists y, 0 <= y <= PI /\ Rabs (z - y) <= / 1000000000.
Proof.
  intros H. destruct (Rle_dec 0 z) as [P|P]; [destruct (Rle_dec z PI) as [Q|Q]|].
  - exists z. split; [lra|]. apply Rabs_le. lra.
  - exists PI. split; [pose proof PI_RGT_0; lra|]. apply Rabs_le. lra.
  - exists 0. split; [pose proof PI_RGT_0; lra|]. apply Rabs_le. lra.
Qed.
(** Directions within [c] of each other. *)
Lemma close_directions z a z' a' c : 0 <= c <= 0.09 -> - / 1000000000 <= z <= PI + / 1000000000 -> - / 1000000000 <= z' <= PI + / 1000000000 ->
  dist (sky z a) (sky z' a') <= c -> separation_le z a z' a' (1.002 * c) /\ Rabs (z - z') <= 1.002 * (c + 4 / 1000000000).
Proof.
  intros Hc Hz Hz' H. split; [apply dist_angle; [lra|exact H]|].
  destruct (clamp z Hz) as (y & Y1 & Y2). destruct (clamp z' Hz') as (y' & Y1' & Y2').
  assert (D : dist (sky y a) (sky y' a') <= c + 2 / 1000000000).
  { assert (T1 := dist_tri (sky y a) (sky z a) (sky y' a')). assert (T2 := dist_tri (sky z a) (sky z' a') (sky y' a')).
    assert (Q1 := dist_zen y z a). assert (Q2 := dist_zen z' y' a'). rewrite Rabs_minus_sym in Q1. lra. }
  assert (P := separation_zenith y a y' a' (1.002 * (c + 2 / 1000000000)) Y1 Y1' ltac:(assert (3 < PI) by interval; lra) ltac:(apply dist_angle; [lra|exact D])).
  rewrite Rabs_minus_sym in Y2'. assert (W := tri3 _ _ _ _ _ Y2 (tri3 _ _ _ _ _ P Y2')). lra.
Qed.

(** Any double precision evaluation against any evaluation in the exact/single precision model (which includes nrel) ... *)
Theorem C55_double_positions : forall D E' uc uc' times times' lat lat' lon lon' alg alg' refr refr' eng eng' sp sp' k k' j j' i i' t la lo z z',
  double_like D -> alg <> "nrel"%string -> float32_like E' -> is_True refr = false -> is_True refr' = false ->
  evaluated_cell64 D uc times lat lon alg refr eng sp k j i t la lo ->
  evaluated_cell E' uc' times' lat' lon' alg' refr' eng' sp' k' j' i' t la lo ->
  value (sp_zenith sp) (idx uc k j i) z -> value (sp_zenith sp') (idx uc' k' j' i') z' ->
  exists a a', let tau := 1.002 * (double_place_tol alg eng la z (centuries t) + single_place_tol alg' eng' la z' (centuries t)) in
    value (sp_azimuth sp) (idx uc k j i) a /\ value (sp_azimuth sp') (idx uc' k' j' i') a' /\
    separation_le z a z' a' tau /\ Rabs (z - z') <= tau.
Proof.
  intros D E' uc uc' times times' lat lat' lon lon' alg alg' refr refr' eng eng' sp sp' k k' j j' i i' t la lo z z' I Hn I' R R' H H' Vz Vz'.
  destruct (C69_agree _ _ _ _ _ _ _ _ _ _ _ _ _ _ _ _ _ _ _ _ _ I Hn (proj1 H) (proj1 H')) as (d & m & x & d' & m' & x' & V1 & V2 & V3 & V1' & V2' & V3' & D1 & D2 & _).
  destruct (call_dist64 _ _ _ _ _ _ _ _ _ _ _ _ _ _ _ _ I Hn R H Vz) as (d0 & m0 & h & a & W1 & W2 & W3 & W4 & W5 & S1).
  destruct (call_dist _ _ _ _ _ _ _ _ _ _ _ _ _ _ _ _ I' R' H' Vz') as (d0' & m0' & h' & a' & W1' & W2' & W3' & W4' & W5' & S2).
  assert (L := alg_listed _ _ _ _ _ _ _ _ (proj1 (proj1 H))). assert (L' := alg_listed _ _ _ _ _ _ _ _ (proj1 (proj1 H'))).
  assert (Ht : representable t) by apply H. assert (BT := centuries_b t Ht). set (T := centuries t) in *.
  unfold value in *. rewrite V1 in W1. rewrite V2 in W2. rewrite V1' in W1'. rewrite V2' in W2'.
  injection W1 as <-. injection W2 as <-. injection W1' as <-. injection W2' as <-. set (phi := la * (PI / 180)) in *.
  assert (P : 0 < PI / 720 < 0.0044) by (split; interval).
  assert (Hh : near_turn h h' (hour_tol alg + / 1000000000 + (hour_tol alg' + 4 / 10000000) + (eot_tol alg T + eot_tol alg' T) * (PI / 720) + 0.4 / 1000000000)).
  { destruct W5 as (q & Hq), W5' as (q' & Hq'). exists (q - q')%Z. rewrite minus_IZR.
    assert (E1 : solar_hour_angle t lo m - solar_hour_angle t lo m' = (m - m') * (PI / 720)) by (unfold solar_hour_angle; field).
    assert (Dm : Rabs ((m - m') * (PI / 720)) <= (eot_tol alg T + eot_tol alg' T + 70 / 1000000000) * (PI / 720)) by (rewrite Rabs_mult, (Rabs_pos_eq (PI / 720)) by lra; apply Rmult_le_compat_r; lra).
    rewrite <- E1 in Dm. apply Rabs_le_inv in Hq, Hq', Dm. apply Rabs_le. lra. }
  assert (S3 := dist_hor phi d h d' h' _ Hh).
  set (c := double_place_tol alg eng la z T + single_place_tol alg' eng' la z' T).
  assert (S4 : dist (sky z a) (sky z' a') <= c - 2 / 1000000000).
  { eapply Rle_trans; [apply (dist_tri _ (hor phi d h))|]. assert (dist (hor phi d h) (sky z' a') <= dist (hor phi d h) (hor phi d' h') + dist (hor phi d' h') (sky z' a')) by apply dist_tri.
    rewrite (dist_sym (hor phi d' h')) in *. unfold c, double_place_tol, single_place_tol. lra. }
  assert (B1 := double_place_b alg eng la z T L Hn BT). assert (B2 := single_place_b alg' eng' la z' T L' BT). fold c.
  assert (Z : separation_le z a z' a' (1.002 * c)) by (apply dist_angle; [unfold c; lra|lra]).
  exists a, a'. cbv zeta. do 2 (split; [assumption|]). split; [exact Z|].
  destruct (clamp z W4) as (y & Y1 & Y2).
  assert (Dy : dist (sky y a) (sky z' a') <= c - / 1000000000).
  { assert (T1 := dist_tri (sky y a) (sky z a) (sky z' a')). assert (Q1 := dist_zen y z a). rewrite Rabs_minus_sym in Q1. lra. }
  assert (Cp : 0 <= c - / 1000000000) by (eapply Rle_trans; [apply norm_pos|exact Dy]).
  assert (Py := separation_zenith y a z' a' (1.002 * (c - / 1000000000)) Y1 W4' ltac:(assert (3 < PI) by interval; unfold c in *; lra) ltac:(apply dist_angle; [unfold c in *; lra|exact Dy])).
  assert (W := tri3 _ _ _ _ _ Y2 Py). lra.
Qed.

(** ... and any two double precision evaluations, of whatever algorithms, engines, use cases, requests and arithmetics. *)
Theorem C69_agree64 : forall D D' uc uc' times times' lat lat' lon lon' alg alg' refr refr' eng eng' sp sp' k k' t,
  double_like D -> double_like D' -> alg <> "nrel"%string -> alg' <> "nrel"%string ->
  evaluated_time64 D uc times lat lon alg refr eng sp k t ->
  evaluated_time64 D' uc' times' lat' lon' alg' refr' eng' sp' k' t ->
  exists d m x d' m' x', let T := centuries t in
    value (sp_declination sp) [k] d /\ value (sp_eot sp) [k] m /\ value (sp_ecf sp) [k] x /\
    value (sp_declination sp') [k'] d' /\ value (sp_eot sp') [k'] m' /\ value (sp_ecf sp') [k'] x' /\
    Rabs (d - d') <= dec_tol alg T + dec_tol alg' T + 2 / 1000000000 /\ Rabs (m - m') <= eot_tol alg T + eot_tol alg' T + 140 / 1000000000 /\
    Rabs (x - x') <= ecf_tol alg + ecf_tol alg' + 2 / 1000000000.
Proof.
  intros D D' uc uc' times times' lat lat' lon lon' alg alg' refr refr' eng eng' sp sp' k k' t HD HD' Hn Hn' C C'.
  destruct (call_double_time _ _ _ _ _ _ _ _ _ _ _ HD' Hn' C') as (q & d0 & e0 & x0 & d & e & x & Hin & _).
  destruct (one_cell (single D') Sites t 0 0 alg' RFalse eng' q Hin (proj2 (proj2 C)) ltac:(lra) ltac:(lra)) as (sp1 & [C1 _]).
  destruct (C69_double_time _ _ _ _ _ _ _ _ _ _ _ _ _ _ _ _ _ _ _ _ HD' Hn' C' C1) as (d1 & m1 & x1 & d2 & m2 & x2 & V1 & V2 & V3 & V4 & V5 & V6 & B1 & B2 & B3).
  destruct (C69_agree _ _ _ _ _ _ _ _ _ _ _ _ _ _ _ _ _ _ _ _ _ HD Hn C C1) as (d3 & m3 & x3 & d' & m' & x' & W1 & W2 & W3 & W4 & W5 & W6 & F1 & F2 & F3).
  unfold value in *. rewrite V4 in W4. rewrite V5 in W5. rewrite V6 in W6. injection W4 as <-. injection W5 as <-. injection W6 as <-.
  exists d3, m3, x3, d1, m1, x1. cbv zeta. do 6 (split; [assumption|]). rewrite Rabs_minus_sym in B1, B2, B3.
  assert (Y1 := tri3 _ _ _ _ _ F1 B1). assert (Y2 := tri3 _ _ _ _ _ F2 B2). assert (Y3 := tri3 _ _ _ _ _ F3 B3). repeat split; lra.
Qed.
Theorem C55_double_double : forall D D' uc uc' times times' lat lat' lon lon' alg alg' refr refr' eng eng' sp sp' k k' j j' i i' t la lo z z',
  double_like D -> double_like D' -> alg <> "nrel"%string -> alg' <> "nrel"%string -> is_True refr = false -> is_True refr' = false ->
  evaluated_cell64 D uc times lat lon alg refr eng sp k j i t la lo ->
  evaluated_cell64 D' uc' times' lat' lon' alg' refr' eng' sp' k' j' i' t la lo ->
  value (sp_zenith sp) (idx uc k j i) z -> value (sp_zenith sp') (idx uc' k' j' i') z' ->
  exists a a', let tau := 1.002 * (double_place_tol alg eng la z (centuries t) + double_place_tol alg' eng' la z' (centuries t)) in
    value (sp_azimuth sp) (idx uc k j i) a /\ value (sp_azimuth sp') (idx uc' k' j' i') a' /\
    separation_le z a z' a' tau /\ Rabs (z - z') <= tau.
Proof.
  intros D D' uc uc' times times' lat lat' lon lon' alg alg' refr refr' eng eng' sp sp' k k' j j' i i' t la lo z z' I I' Hn Hn' R R' H H' Vz Vz'.
  destruct (C69_agree64 _ _ _ _ _ _ _ _ _ _ _ _ _ _ _ _ _ _ _ _ _ I I' Hn Hn' (proj1 H) (proj1 H')) as (d & m & x & d' & m' & x' & V1 & V2 & V3 & V1' & V2' & V3' & D1 & D2 & _).
  destruct (call_dist64 _ _ _ _ _ _ _ _ _ _ _ _ _ _ _ _ I Hn R H Vz) as (d0 & m0 & h & a & W1 & W2 & W3 & W4 & W5 & S1).
  destruct (call_dist64 _ _ _ _ _ _ _ _ _ _ _ _ _ _ _ _ I' Hn' R' H' Vz') as (d0' & m0' & h' & a' & W1' & W2' & W3' & W4' & W5' & S2).
  assert (L := alg_listed _ _ _ _ _ _ _ _ (proj1 (proj1 H))). assert (L' := alg_listed _ _ _ _ _ _ _ _ (proj1 (proj1 H'))).
  assert (Ht : representable t) by apply H. assert (BT := centuries_b t Ht). set (T := centuries t) in *.
  unfold value in *. rewrite V1 in W1. rewrite V2 in W2. rewrite V1' in W1'. rewrite V2' in W2'.
  injection W1 as <-. injection W2 as <-. injection W1' as <-. injection W2' as <-. set (phi := la * (PI / 180)) in *.
  assert (P : 0 < PI / 720 < 0.0044) by (split; interval).
  assert (Hh : near_turn h h' (hour_tol alg + / 1000000000 + (hour_tol alg' + / 1000000000) + (eot_tol alg T + eot_tol alg' T) * (PI / 720) + 0.8 / 1000000000)).
  { destruct W5 as (q & Hq), W5' as (q' & Hq'). exists (q - q')%Z. rewrite minus_IZR.
    assert (E1 : solar_hour_angle t lo m - solar_hour_angle t lo m' = (m - m') * (PI / 720)) by (unfold solar_hour_angle; field).
    assert (Dm : Rabs ((m - m') * (PI / 720)) <= (eot_tol alg T + eot_tol alg' T + 140 / 1000000000) * (PI / 720)) by (rewrite Rabs_mult, (Rabs_pos_eq (PI / 720)) by lra; apply Rmult_le_compat_r; lra).
    rewrite <- E1 in Dm. apply Rabs_le_inv in Hq, Hq', Dm. apply Rabs_le. lra. }
  assert (S3 := dist_hor phi d h d' h' _ Hh).
  set (c := double_place_tol alg eng la z T + double_place_tol alg' eng' la z' T).
  assert (S4 : dist (sky z a) (sky z' a') <= c - 4 / 1000000000).
  { eapply Rle_trans; [apply (dist_tri _ (hor phi d h))|]. assert (dist (hor phi d h) (sky z' a') <= dist (hor phi d h) (hor phi d' h') + dist (hor phi d' h') (sky z' a')) by apply dist_tri.
    rewrite (dist_sym (hor phi d' h')) in *. unfold c, double_place_tol. lra. }
  assert (B1 := double_place_b alg eng la z T L Hn BT). assert (B2 := double_place_b alg' eng' la z' T L' Hn' BT). fold c.
  assert (Cp : 0 <= c - 4 / 1000000000) by (eapply Rle_trans; [apply norm_pos|exact S4]).
  assert (Z : separation_le z a z' a' (1.002 * c)) by (apply dist_angle; [unfold c in *; lra|lra]).
  exists a, a'. cbv zeta. do 2 (split; [assumption|]). split; [exact Z|].
  destruct (close_directions z a z' a' (c - 4 / 1000000000)) as [_ Q]; [unfold c in *; lra|exact W4|exact W4'|exact S4|]. lra.
Qed.

(** ** C23: east before noon, west after noon *)
Definition noon_margin64 (alg eng : string) (la : R) : R := hour_tol alg + / 1000000000 + 1.2 * double_tol alg eng la.
Theorem C23_double_precision : forall D uc times lat lon alg refr eng sp k j i t la lo eot n,
  double_like D -> alg <> "nrel"%string ->
  evaluated_cell64 D uc times lat lon alg refr eng sp k j i t la lo ->
  value (sp_eot sp) [k] eot ->
  let H := solar_hour_angle t lo eot - 2 * PI * IZR n in
  exists a, value (sp_azimuth sp) (idx uc k j i) a /\
    (noon_margin64 alg eng la <= H <= PI - noon_margin64 alg eng la -> 0 < sin a) /\
    (- PI + noon_margin64 alg eng la <= H <= - noon_margin64 alg eng la -> sin a < 0).
Proof.
  intros D uc times lat lon alg refr eng sp k j i t la lo eot n HD Hn C Heot H.
  destruct (C69_double_position _ _ _ _ _ _ _ _ _ _ _ _ _ _ _ HD Hn C) as (d & eot' & h & V1 & V2 & N & (a & A1 & A2 & (rho & R0 & _ & RW)) & _).
  unfold value in V2, Heot. rewrite Heot in V2. injection V2 as <-. exists a. split; [exact A1|].
  destruct (C69_ranges _ _ _ _ _ _ _ _ _ _ _ HD Hn (proj1 C)) as (d0 & _ & _ & G1 & _ & _ & B1 & _).
  unfold value in V1, G1. rewrite V1 in G1. injection G1 as <-.
  assert (Cd : 0.9 <= cos d).
  { apply Rabs_le_inv in B1. assert (B : -0.412 <= d <= 0.412).
    { replace d with (d * (180 / PI) * (PI / 180)) by (field; apply PI_neq0). generalize dependent (d * (180 / PI)). intros q Hq. clear - Hq. split; interval. }
    clear - B. interval. }
  destruct N as (q & Hq). apply Rabs_le_inv in Hq. unfold sun_W in RW. apply Rabs_le_inv in RW.
  set (x := h - 2 * PI * IZR (q + n)). assert (Es : sin h = sin x) by (unfold x; now rewrite sin_2kpi).
  assert (Hx : Rabs (x - H) <= hour_tol alg + / 1000000000) by (apply Rabs_le; unfold x, H; rewrite plus_IZR; lra). apply Rabs_le_inv in Hx.
  assert (T := double_tol_b alg eng la). set (tol := double_tol alg eng la) in *. unfold noon_margin64. fold tol. rewrite Es in RW.
  split; intros B.
  - assert (S := sin_margin x (1.2 * tol) ltac:(lra) ltac:(lra)). apply Rnot_le_lt. intros L. assert (rho * sin a <= 0) by nra. nra.
  - assert (S := sin_margin (- x) (1.2 * tol) ltac:(lra) ltac:(lra)). rewrite sin_neg in S. apply Rnot_le_lt. intros L. assert (0 <= rho * sin a) by nra. nra.
Qed.

(** ** The hypotheses, for every supported pair, in IEEE binary64/binary32: 21 June 2024, 10:00 UTC, 40 N 3 W. *)
Lemma coords_ok_fin64 D la lo : double_like D -> -90 <= la <= 90 -> -180 <= lo < 180 -> coords_ok (O := DoubleOps D) [Fin la] [Fin lo].
Proof.
  intros HD Ha Ho.
  assert (Q : forall z, (Z.abs z <= 1000)%Z -> r64 D (Q2R (Qmake z 1)) = IZR z).
  { intros z Hz. replace (Q2R (Qmake z 1)) with (IZR z) by (unfold Q2R; cbn; field). apply (dl_int D HD). lia. }
  split; intros x [<-|[]]; right; cbn -[Q2R Rleb Rltb]; rewrite ?(Q (-90)%Z), ?(Q 90%Z), ?(Q (-180)%Z), ?(Q 180%Z) by lia; split;
    match goal with
    | |- context[Rleb ?a ?b] => destruct (Rleb_spec a b) as [H|H]
    | |- context[Rltb ?a ?b] => destruct (Rltb_spec a b) as [H|H]
    end; try reflexivity; exfalso; lra.
Qed.
Lemma one_cell64 D uc t la lo alg refr eng m : double_like D ->
  In (alg, eng, m) (supported (O := DoubleOps D)) -> representable t -> -90 <= la <= 90 -> -180 <= lo < 180 ->
  exists sp, evaluated_cell64 D uc (at_times [Some t]) (Scalar (Fin la)) (Scalar (Fin lo)) alg refr eng sp 0 0 0 t la lo.
Proof.
  intros HD Hin Ht Ha Ho.
  destruct (accept_lemma (O := DoubleOps D) true uc [Some t] (Scalar (Fin la)) (Scalar (Fin lo)) alg refr eng m eq_refl Hin) as (sp & H).
  - right. exists (Fin la). split; reflexivity.
  - right. exists (Fin lo). split; reflexivity.
  - destruct uc; cbn; auto.
  - now apply coords_ok_fin64.
  - exists sp. split; [split; [exact H|split; [reflexivity|exact Ht]]|]. destruct uc; split; reflexivity.
Qed.
Example C69_example : double_like float64_env /\ forall uc refr alg eng m, In (alg, eng, m) (supported (O := DoubleOps float64_env)) ->
  exists sp, evaluated_cell64 float64_env uc (at_times [Some w_t]) (Scalar (Fin 40)) (Scalar (Fin (-3))) alg refr eng sp 0 0 0 w_t 40 (-3).
Proof.
  split; [exact float64_like|]. intros uc refr alg eng m H.
  apply (one_cell64 float64_env uc w_t 40 (-3) alg refr eng m float64_like H w_t_representable); lra.
Qed.
(** ... and a zenith angle is there, for psa/numpy. *)
Example C69_zenith_example uc : exists sp z,
  evaluated_cell64 float64_env uc (at_times [Some w_t]) (Scalar (Fin 40)) (Scalar (Fin (-3))) "psa" RFalse "numpy" sp 0 0 0 w_t 40 (-3) /\
  value (sp_zenith sp) (idx uc 0 0 0) z.
Proof.
  destruct (proj2 C69_example uc RFalse "psa"%string "numpy"%string _ (or_introl eq_refl)) as (sp & H). exists sp.
  destruct (C69_position_ranges _ _ _ _ _ _ _ _ _ _ _ _ _ _ _ float64_like (fun X : "psa"%string = "nrel"%string => ltac:(discriminate X)) H) as [_ [(z & Z & _)|(_ & Z & _)]]; [reflexivity|exists z; now split|discriminate Z].
Qed.
