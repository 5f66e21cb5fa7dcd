(** * PropRefrOrder: refraction does not change the order of heights (C90) *)
From Coq Require Import ZArith QArith Reals Bool List String Lra Lia.
From Flocq Require Import Core.Raux.
From Coquelicot Require Import Coquelicot.
From Interval Require Import Tactic.
From Verif Require Import Num Arrays Libspa Time Core Usecases Spec GenericLemmas GenericLemmas2 Ext ExtLemmas
  Witness PropAstro PropSingle Sky SkyClose AstroTac AstroSpec SingleSpec Astro AstroCell AstroCall AstroRefute Float32 Sunpos SunposSpec SunposLemmas SunposR AirmassR
  Double DoubleTac DoubleSpec DoubleLemmas DoubleCore DoubleCell PsaD DoublePos PropDouble Float64 PropDoublePos
  NrelD NrelPos PropNrelD RefrSpec RefrD PropRefrD SunposD PropSunposD PropAirmass.
Import ListNotations.
Open Scope R_scope.

(** ** The apparent elevation grows with the elevation *)
Definition saem' (c k e : R) : R := let x := e + 0.0031376 / (e + k) in 1 - c / (sin x * sin x) * (1 - 0.0031376 / ((e + k) * (e + k))).
Lemma saem_arg k e : 0.0891 <= k <= 0.0892 -> -0.07 <= e <= 1.6 -> 0.0228 <= sin (e + 0.0031376 / (e + k)).
Proof.
  intros Hk He. set (u := e + k). assert (U : 0.019 <= u) by (unfold u; lra). assert (V : u * / u = 1) by (apply Rinv_r; lra). set (v := / u) in *.
  assert (Hv : 0 < v <= 52.7) by (assert (0 < v) by (apply Rinv_0_lt_compat; lra); split; [lra|nra]).
  assert (L : 0.112028 <= u + 0.0031376 * v) by (assert (Q := Rle_0_sqr (u - 0.056014)); unfold Rsqr in Q; assert (Q2 := Rmult_le_pos _ v Q (Rlt_le _ _ (proj1 Hv))); replace ((u - 0.056014) * (u - 0.056014) * v) with ((u * v) * u - 0.112028 * (u * v) + 0.056014 * 0.056014 * v) in Q2 by lra; rewrite V in Q2; lra).
  assert (T : 0.0031376 * v <= 0.166) by lra.
  assert (X : 0.02282 <= e + 0.0031376 / u <= 1.77) by (assert (Eu : u = e + k) by reflexivity; unfold Rdiv; fold v; clearbody v u; lra).
  set (x := e + 0.0031376 / u) in *. clearbody x. clear - X. interval with (i_bisect x).
Qed.
Lemma saem_d c k e : 0 < e + k -> sin (e + 0.0031376 / (e + k)) <> 0 -> derivable_pt_lim (fun e => e + saemundsson c k e) e (saem' c k e).
Proof.
  assert (G : forall w c k e, 0 < e + k -> sin (e + w / (e + k)) <> 0 ->
    derivable_pt_lim (fun e => e + c * (cos (e + w / (e + k)) / sin (e + w / (e + k)))) e (1 - c / (sin (e + w / (e + k)) * sin (e + w / (e + k))) * (1 - w / ((e + k) * (e + k))))).
  { clear. intros w c k e H1 H2. apply is_derive_Reals. auto_derive; [repeat split; try lra; exact H2|]. change (w * / (e + k)) with (w / (e + k)).
    assert (S := sin2_cos2 (e + w / (e + k))). unfold Rsqr in S. set (s := sin (e + w / (e + k))) in *. set (t := cos (e + w / (e + k))) in *.
    assert (T : t * t = 1 - s * s) by lra. field_simplify_eq; [|lra]. replace (t ^ 2) with (1 - s * s) by (rewrite <- T; ring). ring. }
  intros H1 H2. exact (G 0.0031376 c k e H1 H2).
Qed.
Lemma saem_grows c k x y : 0 <= c <= 0.0002968 -> 0.0891 <= k <= 0.0892 -> -0.07 <= x -> x <= y -> y <= 1.6 ->
  0.4 * (y - x) <= (y + saemundsson c k y) - (x + saemundsson c k x).
Proof.
  intros Hc Hk Hx Hxy Hy. apply (falls (fun e => e + saemundsson c k e) (saem' c k) (-0.07) 1.6 0.4 6); [| |assumption..].
  - intros e He. apply saem_d; [lra|]. assert (S := saem_arg k e Hk He). lra.
  - intros e He. assert (S := saem_arg k e Hk He). unfold saem'. set (s := sin _) in *. set (u := e + k). assert (U : 0.019 <= u) by (unfold u; lra).
    assert (S2 : 0.0005198 <= s * s) by nra. assert (I : 0 < / (s * s) <= 1924).
    { assert (V : s * s * / (s * s) = 1) by (apply Rinv_r; lra). set (v := / (s * s)) in *. assert (0 < v) by (apply Rinv_0_lt_compat; lra). split; [lra|nra]. }
    assert (J : 0 < 0.0031376 / (u * u) <= 8.7).
    { unfold Rdiv. assert (V : u * u * / (u * u) = 1) by (apply Rinv_r; nra). set (v := / (u * u)) in *. assert (0 < v) by (apply Rinv_0_lt_compat; nra). assert (0.000361 <= u * u) by nra. split; [lra|nra]. }
    assert (K : 0 <= c / (s * s) <= 0.572) by (unfold Rdiv; split; [apply Rmult_le_pos; lra|nra]). set (q := c / (s * s)) in *. set (w := 0.0031376 / (u * u)) in *. split; nra.
Qed.
Lemma rig_grows x y : -1.6 <= x -> x <= y -> y <= 1.6 -> 0.1 * (y - x) <= (y + rigollier y) - (x + rigollier x).
Proof.
  assert (Dp : forall e, 0.2 <= 1 + 28.9344 * e + 277.3971 * (e * e)) by (intros e; assert (Q := Rle_0_sqr (e + 0.0521534)); unfold Rsqr in Q; nra).
  assert (G : forall a0 a1 a2 b d1 d2 e, 0 < 1 + d1 * e + d2 * (e * e) -> derivable_pt_lim (fun e => e + b * (a0 + a1 * e + a2 * (e * e)) / (1 + d1 * e + d2 * (e * e))) e
    (1 + b * ((a1 - a0 * d1) + 2 * (a2 - a0 * d2) * e + (a2 * d1 - a1 * d2) * (e * e)) / ((1 + d1 * e + d2 * (e * e)) * (1 + d1 * e + d2 * (e * e))))).
  { intros a0 a1 a2 b d1 d2 e H. apply is_derive_Reals. auto_derive; [lra|]. field. lra. }
  intros Hx Hxy Hy. apply (falls (fun e => e + rigollier e) (fun e => 1 + 0.061359 * ((1.123 - 0.1594 * 28.9344) + 2 * (0.065656 - 0.1594 * 277.3971) * e + (0.065656 * 28.9344 - 1.123 * 277.3971) * (e * e)) / ((1 + 28.9344 * e + 277.3971 * (e * e)) * (1 + 28.9344 * e + 277.3971 * (e * e)))) (-1.6) 1.6 0.1 200); [| |assumption..].
  - intros e He. apply (G 0.1594 1.123 0.065656 0.061359 28.9344 277.3971 e). specialize (Dp e). lra.
  - intros e He. specialize (Dp e). set (d := 1 + 28.9344 * e + 277.3971 * (e * e)) in *. set (n := _ + _ + _ * (e * e)).
    assert (D2 : 0.04 <= d * d) by nra. assert (V : d * d * / (d * d) = 1) by (apply Rinv_r; lra). set (v := / (d * d)) in *. assert (V0 : 0 < v) by (apply Rinv_0_lt_compat; lra). unfold Rdiv. fold v.
    assert (N : - (0.9 / 0.061359) * (d * d) <= n <= 100).
    { unfold n, d. split; [|nra]. clear - He. apply Rminus_le. interval with (i_bisect e, i_taylor e, i_prec 40). }
    split; nra.
Qed.

(** ** The order, over the reals *)
Lemma coef_cases alg : In alg ["psa"; "nrel"; "soltrack"]%string -> exists c k, 0.00029 <= c <= 0.0002968 /\ 0.0891 <= k <= 0.0892 /\ forall e, correction alg e = saemundsson c k e.
Proof. intros [<-|[<-|[<-|[]]]]; do 2 eexists; (split; [|split; [|intros e; reflexivity]]); lra. Qed.
Lemma saem_low c k : 0.00029 <= c <= 0.0002968 -> 0.0891 <= k <= 0.0892 -> 0.005 <= saemundsson c k (-0.0145451).
Proof. intros Hc Hk. unfold saemundsson. cbv zeta. interval with (i_prec 40). Qed.
Lemma saem_size c k e : 0 <= c <= 0.0002968 -> 0.0891 <= k <= 0.0892 -> -0.07 <= e <= 1.6 -> Rabs (saemundsson c k e) <= 0.02.
Proof.
  intros Hc Hk He. unfold saemundsson. cbv zeta. assert (S := saem_arg k e Hk He). set (x := e + _) in *. assert (C := COS_bound x). set (s := sin x) in *. set (t := cos x) in *.
  assert (V : s * / s = 1) by (apply Rinv_r; lra). set (v := / s) in *. assert (0 < v) by (apply Rinv_0_lt_compat; lra). assert (v <= 43.9) by nra.
  unfold Rdiv. fold v. assert (-43.9 <= t * v <= 43.9) by nra. apply Rabs_le. nra.
Qed.
Definition in_scope (alg : string) (z : R) : Prop := alg = "soltrack"%string -> z <= PI / 2 + 0.0699.
Lemma corrected_order alg za zb za' zb' : In alg ["psa"; "nrel"; "soltrack"; "iqbal"]%string -> in_scope alg zb -> -0.001 <= za -> zb <= PI + 0.001 -> za + 0.000000001 <= zb ->
  corrected alg za za' -> corrected alg zb zb' -> za' + 0.00000000005 <= zb'.
Proof.
  intros Hin Hs Ba Bb Hab Ha Hb. assert (P : 3.14159 <= PI <= 3.1416) by (split; interval). unfold corrected in Ha, Hb. unfold in_scope in Hs. assert (T : / 10 ^ 11 <= 0.00000000001) by lra. assert (T2 : / 10 ^ 14 <= 0.00000000000001) by lra.
  destruct (string_dec alg "iqbal") as [->|Hq].
  { cbn [String.eqb Ascii.eqb Bool.eqb orb correction] in Ha, Hb. change (correction "iqbal") with rigollier in *. apply Rabs_le_inv in Ha, Hb. assert (G := rig_grows (PI / 2 - zb) (PI / 2 - za) ltac:(lra) ltac:(lra) ltac:(lra)). lra. }
  assert (Hi : In alg ["psa"; "nrel"; "soltrack"]%string) by (cbn in *; intuition congruence). destruct (coef_cases alg Hi) as (c & k & Hc & Hk & E). rewrite !E in Ha, Hb.
  destruct (String.eqb alg "psa" || String.eqb alg "nrel")%bool eqn:Eb.
  - destruct Ha as [[A1 A2]|[A1 A2]], Hb as [[B1 B2]|[B1 B2]]; apply Rabs_le_inv in A2, B2.
    + assert (G := saem_grows c k (PI / 2 - zb) (PI / 2 - za) ltac:(lra) Hk ltac:(lra) ltac:(lra) ltac:(lra)). lra.
    + assert (G := saem_grows c k (-0.0145451) (PI / 2 - za) ltac:(lra) Hk ltac:(lra) ltac:(lra) ltac:(lra)). assert (L := saem_low c k Hc Hk). lra.
    + lra.
    + lra.
  - assert (alg = "soltrack"%string) as Es by (cbn in Hi; destruct Hi as [<-|[<-|[<-|[]]]]; [discriminate Eb|discriminate Eb|reflexivity]). specialize (Hs Es). apply Rabs_le_inv in Ha, Hb.
    assert (G := saem_grows c k (PI / 2 - zb) (PI / 2 - za) ltac:(lra) Hk ltac:(lra) ltac:(lra) ltac:(lra)). lra.
Qed.
Lemma corrected_size alg z z' : In alg ["psa"; "nrel"; "soltrack"; "iqbal"]%string -> in_scope alg z -> -0.0001 <= z <= PI + 0.0001 -> corrected alg z z' -> Rabs z' <= 4.
Proof.
  intros Hin Hs B H. assert (P : 3.14159 <= PI <= 3.1416) by (split; interval). unfold corrected in H. unfold in_scope in Hs.
  destruct (string_dec alg "iqbal") as [->|Hq].
  { cbn [String.eqb Ascii.eqb Bool.eqb orb correction] in H. change (correction "iqbal") with rigollier in *. apply Rabs_le_inv in H. assert (T := rig_b (PI / 2 - z) ltac:(lra)). apply Rabs_le. lra. }
  assert (Hi : In alg ["psa"; "nrel"; "soltrack"]%string) by (cbn in *; intuition congruence). destruct (coef_cases alg Hi) as (c & k & Hc & Hk & E). rewrite !E in H.
  destruct (String.eqb alg "psa" || String.eqb alg "nrel")%bool eqn:Eb.
  - destruct H as [[A1 A2]|[A1 A2]]; apply Rabs_le_inv in A2; [|apply Rabs_le; lra]. assert (T := saem_size c k (PI / 2 - z) ltac:(lra) Hk ltac:(lra)). apply Rabs_le_inv in T. apply Rabs_le. lra.
  - assert (alg = "soltrack"%string) as Es by (cbn in Hi; destruct Hi as [<-|[<-|[<-|[]]]]; [discriminate Eb|discriminate Eb|reflexivity]). specialize (Hs Es). apply Rabs_le_inv in H.
    assert (T := saem_size c k (PI / 2 - z) ltac:(lra) Hk ltac:(lra)). apply Rabs_le_inv in T. apply Rabs_le. lra.
Qed.

(** ** C90 *)
Lemma refr_read D uc times lat lon alg refr refr' eng sp sp' k j i t la lo zd zr : double_like D -> is_True refr = false -> is_True refr' = true ->
  evaluated_cell64 D uc times lat lon alg refr eng sp k j i t la lo -> evaluated_cell64 D uc times lat lon alg refr' eng sp' k j i t la lo ->
  reads (zenith (O := DoubleOps D) sp) k j i (Fin zd) -> reads (zenith (O := DoubleOps D) sp') k j i (Fin zr) -> (alg = "soltrack"%string -> zd <= 94) ->
  exists z z', in_scope alg z /\ -0.0001 <= z <= PI + 0.0001 /\ corrected alg z z' /\ Rabs (zd - z * (180 / PI)) <= 2 / 10 ^ 13 /\ Rabs (zr - z' * (180 / PI)) <= 2 / 10 ^ 13.
Proof.
  intros HD Hr Hr' C C' Hz Hz' Hs. assert (P : 3.14159 <= PI <= 3.1416) by (split; interval). assert (Hc := proj1 (proj1 C)). assert (Hc' := proj1 (proj1 C')).
  destruct (zenith_inv D sp k j i zd Hz) as (z & Z & ->). destruct (zenith_inv D sp' k j i zr Hz') as (z' & Z' & ->).
  apply (zenith_raw64 _ _ _ _ _ _ _ _ _ _ _ _ _ Hc) in Z. apply (zenith_raw64 _ _ _ _ _ _ _ _ _ _ _ _ _ Hc') in Z'.
  assert (B := plain_range D _ _ _ _ _ _ _ _ _ _ _ _ _ _ z HD Hr C Z). assert (Ez := deg_close64 D z HD ltac:(apply Rabs_le; lra)).
  assert (Sc : in_scope alg z).
  { intros E. specialize (Hs E). apply Rabs_le_inv in Ez. assert (z * (180 / PI) <= 94.000001) by lra. assert (z = z * (180 / PI) * (PI / 180)) by (field; lra).
    assert (z <= 94.000001 * (PI / 180)) by (rewrite H0; apply Rmult_le_compat_r; [clear; interval|exact H]). assert (94.000001 * (PI / 180) <= PI / 2 + 0.0699) by (clear; interval). lra. }
  destruct (C73_refraction _ _ _ _ _ _ _ _ _ _ _ _ _ _ _ _ _ HD Hr Hr' C C') as [H _]. destruct (H z Z ltac:(intros E; left; specialize (Sc E); lra)) as (w & W & K).
  unfold value in *. rewrite Z' in W. injection W as <-. destruct (call_supported _ _ _ _ _ _ _ _ _ Hc) as (m & Hin). assert (Ha := alg_cases _ _ _ Hin).
  assert (Hi : In alg ["psa"; "nrel"; "soltrack"; "iqbal"]%string) by (cbn; intuition).
  assert (S := corrected_size alg z z' Hi Sc ltac:(lra) K).
  exists z, z'. split; [exact Sc|]. split; [lra|]. split; [exact K|]. split; [exact Ez|]. apply deg_close64; [exact HD|lra].
Qed.
Theorem C90_refraction_order : forall D uc uc2 times times2 lat lat2 lon lon2 alg refr refr' refr2 refr2' eng eng2 sp sp' sp2 sp2' k k2 j j2 i i2 t t2 la la2 lo lo2 zd zr zd2 zr2,
  double_like D -> is_True refr = false -> is_True refr' = true -> is_True refr2 = false -> is_True refr2' = true ->
  evaluated_cell64 D uc times lat lon alg refr eng sp k j i t la lo -> evaluated_cell64 D uc times lat lon alg refr' eng sp' k j i t la lo ->
  evaluated_cell64 D uc2 times2 lat2 lon2 alg refr2 eng2 sp2 k2 j2 i2 t2 la2 lo2 -> evaluated_cell64 D uc2 times2 lat2 lon2 alg refr2' eng2 sp2' k2 j2 i2 t2 la2 lo2 ->
  reads (zenith (O := DoubleOps D) sp) k j i (Fin zd) -> reads (zenith (O := DoubleOps D) sp') k j i (Fin zr) ->
  reads (zenith (O := DoubleOps D) sp2) k2 j2 i2 (Fin zd2) -> reads (zenith (O := DoubleOps D) sp2') k2 j2 i2 (Fin zr2) ->
  (alg = "soltrack"%string -> zd2 <= 94) -> zd + 0.0000001 <= zd2 -> zr < zr2.
Proof.
  intros D uc uc2 times times2 lat lat2 lon lon2 alg refr refr' refr2 refr2' eng eng2 sp sp' sp2 sp2' k k2 j j2 i i2 t t2 la la2 lo lo2 zd zr zd2 zr2 HD R1 R2 R3 R4 C1 C2 C3 C4 H1 H2 H3 H4 Hs Hl.
  destruct (refr_read D _ _ _ _ _ _ _ _ _ _ _ _ _ _ _ _ _ _ HD R1 R2 C1 C2 H1 H2 ltac:(intros E; specialize (Hs E); lra)) as (z & w & _ & B & K & E1 & E2).
  destruct (refr_read D _ _ _ _ _ _ _ _ _ _ _ _ _ _ _ _ _ _ HD R3 R4 C3 C4 H3 H4 Hs) as (z2 & w2 & S2 & B2 & K2 & E3 & E4).
  destruct (call_supported _ _ _ _ _ _ _ _ _ (proj1 (proj1 C1))) as (m & Hin). assert (Ha := alg_cases _ _ _ Hin). assert (Hi : In alg ["psa"; "nrel"; "soltrack"; "iqbal"]%string) by (cbn; intuition).
  assert (Q : 57.29 <= 180 / PI <= 57.3) by (split; interval). set (q := 180 / PI) in *. clearbody q. apply Rabs_le_inv in E1, E2, E3, E4.
  assert (z + 0.000000001 <= z2) by nra. assert (G := corrected_order alg z z2 w w2 Hi S2 ltac:(lra) ltac:(lra) H K K2). nra.
Qed.

(** ** The hypotheses are met: 10:00 UTC on the equator, at 3 and at 43 degrees west *)
Example C90_example : forall uc, double_like float64_env /\ exists sp sp' sp2 sp2' zd zr zd2 zr2,
  evaluated_cell64 float64_env uc (at_times [Some w_t]) (Scalar (Fin 0)) (Scalar (Fin (-3))) "psa" RFalse "numpy" sp 0 0 0 w_t 0 (-3) /\
  evaluated_cell64 float64_env uc (at_times [Some w_t]) (Scalar (Fin 0)) (Scalar (Fin (-3))) "psa" RTrue "numpy" sp' 0 0 0 w_t 0 (-3) /\
  evaluated_cell64 float64_env uc (at_times [Some w_t]) (Scalar (Fin 0)) (Scalar (Fin (-43))) "psa" RFalse "numpy" sp2 0 0 0 w_t 0 (-43) /\
  evaluated_cell64 float64_env uc (at_times [Some w_t]) (Scalar (Fin 0)) (Scalar (Fin (-43))) "psa" RTrue "numpy" sp2' 0 0 0 w_t 0 (-43) /\
  reads (zenith (O := DoubleOps float64_env) sp) 0 0 0 (Fin zd) /\ reads (zenith (O := DoubleOps float64_env) sp') 0 0 0 (Fin zr) /\
  reads (zenith (O := DoubleOps float64_env) sp2) 0 0 0 (Fin zd2) /\ reads (zenith (O := DoubleOps float64_env) sp2') 0 0 0 (Fin zr2) /\
  zd + 0.0000001 <= zd2 /\ zr < zr2.
Proof.
  intros uc. assert (HD := float64_like). split; [exact HD|]. destruct (two_cells uc) as (sp & sp2 & zd & zd2 & f & C & C2 & Hz & Hz2 & B & B2 & _).
  assert (G : forall sp lo zd, -180 <= lo < 180 -> evaluated_cell64 float64_env uc (at_times [Some w_t]) (Scalar (Fin 0)) (Scalar (Fin lo)) "psa" RFalse "numpy" sp 0 0 0 w_t 0 lo ->
    reads (zenith (O := DoubleOps float64_env) sp) 0 0 0 (Fin zd) -> exists sp' zr,
    evaluated_cell64 float64_env uc (at_times [Some w_t]) (Scalar (Fin 0)) (Scalar (Fin lo)) "psa" RTrue "numpy" sp' 0 0 0 w_t 0 lo /\ reads (zenith (O := DoubleOps float64_env) sp') 0 0 0 (Fin zr)).
  { clear. intros sp lo zd Hlo C Hz. assert (HD := float64_like). destruct (one_cell64 float64_env uc w_t 0 lo "psa" RTrue "numpy" _ HD (or_introl eq_refl) w_t_representable ltac:(lra) Hlo) as (sp' & C').
    exists sp'. destruct (zenith_inv float64_env sp 0 0 0 zd Hz) as (z & Z & _). apply (zenith_raw64 _ _ _ _ _ _ _ _ _ _ _ _ _ (proj1 (proj1 C))) in Z.
    assert (Bz := plain_range float64_env _ _ _ _ _ _ _ _ _ _ _ _ _ _ z HD (eq_refl : is_True RFalse = false) C Z).
    destruct (C73_refraction _ _ _ _ _ _ _ _ _ _ _ _ _ _ _ _ _ HD (eq_refl : is_True RFalse = false) (eq_refl : is_True RTrue = true) C C') as [H _]. destruct (H z Z ltac:(discriminate)) as (w & W & K).
    assert (S := corrected_size "psa" z w (or_introl eq_refl) ltac:(discriminate) ltac:(lra) K). apply (zenith_raw64 _ _ _ _ _ _ _ _ _ _ _ _ _ (proj1 (proj1 C'))) in W.
    eexists. split; [exact C'|]. apply (zenith_of _ HD); [eapply Rle_trans; [exact S|lra]|exact W]. }
  destruct (G sp (-3) zd ltac:(lra) C Hz) as (sp' & zr & C' & Hr). destruct (G sp2 (-43) zd2 ltac:(lra) C2 Hz2) as (sp2' & zr2 & C2' & Hr2).
  exists sp, sp', sp2, sp2', zd, zr, zd2, zr2. do 8 (split; [assumption|]). assert (L : zd + 0.0000001 <= zd2) by lra. split; [exact L|].
  exact (C90_refraction_order float64_env _ _ _ _ _ _ _ _ _ RFalse RTrue RFalse RTrue _ _ _ _ _ _ _ _ _ _ _ _ _ _ _ _ _ _ _ _ _ _ HD eq_refl eq_refl eq_refl eq_refl C C' C2 C2' Hz Hr Hz2 Hr2 ltac:(discriminate) L).
Qed.
