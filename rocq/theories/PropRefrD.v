(** * PropRefrD: the refraction correction in IEEE double precision (C73; C18, C53 in floating point) *)

From Coq Require Import ZArith QArith Reals Bool List String Lra Lia.
From Flocq Require Import Core.Raux.
From Interval Require Import Tactic.
From Verif Require Import Num Arrays Libspa Time Core Usecases Spec GenericLemmas GenericLemmas2 Ext ExtLemmas
  Witness PropAstro PropSingle Sky SkyClose AstroTac AstroSpec SingleSpec Astro AstroCell AstroCall AstroRefute Float32
  Double DoubleTac DoubleSpec DoubleLemmas DoubleCore DoubleCell PsaD DoublePos PropDouble Float64 PropDoublePos
  NrelD NrelPos PropNrelD RefrSpec RefrD.
Import ListNotations.
Open Scope R_scope.

(** The range of the unrefracted zenith angle, any algorithm. *)
Lemma plain_range D uc times lat lon alg refr eng sp k j i t la lo z :
  double_like D -> is_True refr = false -> evaluated_cell64 D uc times lat lon alg refr eng sp k j i t la lo ->
  value (sp_zenith sp) (idx uc k j i) z -> - / 1000000000 <= z <= PI + / 1000000000.
Proof.
  intros HD Hr C Hz. destruct (string_dec alg "nrel") as [->|Hn].
  - destruct (C72_position_ranges _ _ _ _ _ _ _ _ _ _ _ _ _ _ HD C) as [_ R]. unfold value in *.
    destruct (R Hr) as [(y & Y & B)|[Y _]]; rewrite Hz in Y; [injection Y as <-; exact B|discriminate Y].
  - destruct (C69_position_ranges _ _ _ _ _ _ _ _ _ _ _ _ _ _ _ HD Hn C) as [_ R]. unfold value in *.
    destruct (R Hr) as [(y & Y & B)|[Y _]]; rewrite Hz in Y; [injection Y as <-; exact B|discriminate Y].
Qed.
Lemma alg_cases {F} {O : Ops F} alg eng m : In (alg, eng, m) supported -> alg = "psa"%string \/ alg = "iqbal"%string \/ alg = "nrel"%string \/ alg = "soltrack"%string.
Proof. cbn [supported In]. intros [X|[X|[X|[X|[X|[X|[X|[]]]]]]]]; injection X as <- <- <-; tauto. Qed.

(** ** C73: what refraction=True changes *)
Theorem C73_refraction : forall D uc times lat lon alg refr refr' eng sp sp' k j i t la lo,
  double_like D -> is_True refr = false -> is_True refr' = true ->
  evaluated_cell64 D uc times lat lon alg refr eng sp k j i t la lo ->
  evaluated_cell64 D uc times lat lon alg refr' eng sp' k j i t la lo ->
  (forall z, value (sp_zenith sp) (idx uc k j i) z -> (alg = "soltrack"%string -> -0.07 <= PI / 2 - z \/ PI / 2 - z <= -0.11) ->
     exists z', value (sp_zenith sp') (idx uc k j i) z' /\ corrected alg z z') /\
  (get (sp_zenith sp) (idx uc k j i) = Some NaN -> get (sp_zenith sp') (idx uc k j i) = Some NaN).
Proof.
  intros D uc times lat lon alg refr refr' eng sp sp' k j i t la lo HD Hr Hr' C C'.
  assert (R := fun z => plain_range D uc times lat lon alg refr eng sp k j i t la lo z HD Hr C).
  destruct C as [(Hc & Hk & Ht) Hi]. destruct C' as [(Hc' & _ & _) _]. destruct (call_supported _ _ _ _ _ _ _ _ _ Hc) as (m & Hin).
  destruct (dispatch_lemma (O := DoubleOps D) true uc times lat lon alg refr eng sp m k t (Fin la) (Fin lo) Hc Hin Hk) as (_ & _ & _ & Hcell).
  destruct (dispatch_lemma (O := DoubleOps D) true uc times lat lon alg refr' eng sp' m k t (Fin la) (Fin lo) Hc' Hin Hk) as (_ & _ & _ & Hcell').
  destruct (Hcell j i Hi) as [Hz _]. destruct (Hcell' j i Hi) as [Hz' _]. clear Hcell Hcell'. rewrite Hr in Hz. rewrite Hr' in Hz'.
  destruct (refr_cells alg eng m uc (lib_time m (t / 1000000000)) (lib_cast m (Fin lo)) (lib_cast m (Fin la)) Hin) as (x & X & X'). rewrite X in Hz. rewrite X' in Hz'. clear X X'.
  unfold value in *. rewrite Hz, Hz' in *. clear Hz Hz'.
  assert (Hp : plain (O := DoubleOps D) alg x = NaN -> x = NaN).
  { unfold plain. destruct (_ || _)%bool; [tauto|]. destruct (ap_HALFPI D HD) as (h & -> & _). destruct x as [| | |x]; try (intros X; discriminate X); [tauto|]. intros X. now apply fin64_nan in X. }
  split.
  - intros z E Hs. injection E as E. specialize (R z (f_equal Some E)). assert (B : -1 / 10 ^ 8 <= z <= PI + 1 / 10 ^ 8) by lra.
    destruct (alg_cases alg eng m Hin) as [-> |[-> |[-> | ->]]]; unfold plain in E; cbn [String.eqb Ascii.eqb Bool.eqb orb] in E.
    + subst x. destruct (psa_refr_D D HD z B) as (z' & Z1 & Z2). exists z'. split; [|exact Z2]. f_equal. exact Z1.
    + subst x. destruct (iq_refr_D D HD z B) as (z' & Z1 & Z2). exists z'. split; [|exact Z2]. f_equal. exact Z1.
    + destruct (nr_refr_D D HD x z E B) as (z' & Z1 & Z2). exists z'. split; [|exact Z2]. f_equal. exact Z1.
    + destruct (st_refr_D D HD x z E B (Hs eq_refl)) as (z' & Z1 & Z2). exists z'. split; [|exact Z2]. f_equal. exact Z1.
  - intros E. injection E as E. rewrite (Hp E). f_equal. apply bent_nan.
Qed.

(** ** C53 in double precision: size and sign of the correction *)
Lemma saem_b c k e : 0 <= c <= 0.0002968 -> 0.089186 <= k <= 0.0892 -> -0.0146 <= e <= PI / 2 + / 100000000 -> -0.000001 <= saemundsson c k e <= 0.01082.
Proof.
  intros Hc Hk He. assert (PI / 2 <= 1.5708) by interval. assert (Be : -0.0146 <= e <= 1.57081) by lra. clear He H. unfold saemundsson. cbv zeta.
  assert (Q : -0.0033 <= cos (e + 0.0031376 / (e + k)) / sin (e + 0.0031376 / (e + k)) <= 36.43) by (split; interval with (i_bisect e, i_prec 60, i_depth 20)).
  set (q := cos _ / sin _) in *. clearbody q. split; nra.
Qed.
Lemma saem_top c k z : 0 <= c <= 0.0002968 -> 0.089186 <= k <= 0.0892 -> - / 1000000000 <= z <= PI / 2 + 0.0146 -> - / 1000000000 <= z - saemundsson c k (PI / 2 - z).
Proof.
  intros Hc Hk Hz. destruct (Rle_or_lt 0.011 z) as [L|L]; [assert (B := saem_b c k (PI / 2 - z) Hc Hk ltac:(lra)); lra|].
  unfold saemundsson. cbv zeta. set (x := PI / 2 - z + _).
  assert (Bz : -0.000001 <= z <= 0.011) by lra.
  destruct (Rle_or_lt z 0.0015) as [S|S].
  - assert (Q : cos x / sin x <= 0). { unfold x. assert (Bs : -0.000001 <= z <= 0.0015) by lra. clear - Bs Hk. interval with (i_bisect z, i_prec 60). } nra.
  - assert (Q : cos x / sin x <= 0.1). { unfold x. clear - Bz Hk. interval with (i_bisect z, i_prec 60). } nra.
Qed.
Lemma rig_b e : -1.571 <= e <= 1.571 -> -0.0012 <= rigollier e <= 0.0265.
Proof.
  intros H. unfold rigollier. set (den := 1 + 28.9344 * e + 277.3971 * (e * e)).
  assert (D : 0.2 < den) by (unfold den; pose proof (Rle_0_sqr (e + 0.052154)) as X; unfold Rsqr in X; nra).
  assert (N : -0.0012 * den <= 0.061359 * (0.1594 + 1.123 * e + 0.065656 * (e * e)) <= 0.0265 * den).
  { unfold den. pose proof (Rle_0_sqr (e + 0.15379)) as H1. pose proof (Rle_0_sqr (e + 0.04749)) as H2. unfold Rsqr in H1, H2. split; nra. }
  split; apply Rmult_le_reg_r with den; try lra; unfold Rdiv; rewrite Rmult_assoc, Rinv_l, Rmult_1_r by lra; lra.
Qed.
Theorem C73_refraction_size : forall D uc times lat lon alg refr refr' eng sp sp' k j i t la lo z,
  double_like D -> is_True refr = false -> is_True refr' = true ->
  evaluated_cell64 D uc times lat lon alg refr eng sp k j i t la lo ->
  evaluated_cell64 D uc times lat lon alg refr' eng sp' k j i t la lo ->
  value (sp_zenith sp) (idx uc k j i) z ->
  (alg = "psa"%string \/ alg = "nrel"%string -> exists z', value (sp_zenith sp') (idx uc k j i) z' /\
     z' <= z + 0.0000011 /\ z - 0.62 * (PI / 180) <= z' /\ (PI / 2 + 0.8334 * (PI / 180) < z -> Rabs (z' - z) <= / 10 ^ 14) /\
     - / 100000000 <= z' <= PI + / 100000000) /\
  (alg = "iqbal"%string -> exists z', value (sp_zenith sp') (idx uc k j i) z' /\
     z' <= z + 0.07 * (PI / 180) /\ z - 1.52 * (PI / 180) <= z') /\
  (alg = "soltrack"%string -> z <= PI / 2 + 0.83 * (PI / 180) -> exists z', value (sp_zenith sp') (idx uc k j i) z' /\
     z' <= z + 0.0000011 /\ z - 0.62 * (PI / 180) <= z' /\ - / 100000000 <= z').
Proof.
  intros D uc times lat lon alg refr refr' eng sp sp' k j i t la lo z HD Hr Hr' C C' Hz.
  assert (B := plain_range D uc times lat lon alg refr eng sp k j i t la lo z HD Hr C Hz).
  destruct (C73_refraction _ _ _ _ _ _ _ _ _ _ _ _ _ _ _ _ _ HD Hr Hr' C C') as [H _]. specialize (H z Hz).
  assert (P1 : 0.0108201 <= 0.62 * (PI / 180)) by interval. assert (P2 : 0.0145451 <= 0.8334 * (PI / 180)) by interval.
  assert (P3 : 0.83 * (PI / 180) <= 0.0145) by interval. assert (P4 : 0.00121 <= 0.07 * (PI / 180)) by interval. assert (P5 : 0.02651 <= 1.52 * (PI / 180)) by interval.
  assert (P6 : 3.1415 <= PI <= 3.1416) by (split; interval).
  split; [|split].
  - intros Ha. destruct H as (z' & Z & K); [intros ->; destruct Ha; discriminate|]. exists z'. split; [exact Z|]. unfold corrected in K.
    assert (E : (String.eqb alg "psa" || String.eqb alg "nrel")%bool = true) by (destruct Ha as [-> | ->]; reflexivity). rewrite E in K. clear E.
    assert (S : exists c, 0 <= c <= 0.0002968 /\ correction alg (PI / 2 - z) = saemundsson c 0.089186 (PI / 2 - z)).
    { destruct Ha as [-> | ->]; (eexists; split; [|reflexivity]; lra). }
    destruct S as (c & Hc & S). rewrite S in K.
    destruct K as [[K1 K2]|[K1 K2]]; apply Rabs_le_inv in K2.
    + assert (T := saem_b c 0.089186 (PI / 2 - z) Hc ltac:(lra) ltac:(lra)). assert (T' := saem_top c 0.089186 z Hc ltac:(lra) ltac:(lra)).
      split; [lra|]. split; [lra|]. split; [intros; exfalso; lra|lra].
    + split; [lra|]. split; [lra|]. split; [intros _; apply Rabs_le; lra|lra].
  - intros ->. destruct H as (z' & Z & K); [discriminate|]. exists z'. split; [exact Z|]. unfold corrected in K. cbn [String.eqb Ascii.eqb Bool.eqb orb correction] in K.
    apply Rabs_le_inv in K. assert (T := rig_b (PI / 2 - z) ltac:(lra)). split; lra.
  - intros -> Hl. destruct H as (z' & Z & K); [intros _; left; lra|]. exists z'. split; [exact Z|]. unfold corrected in K. cbn [String.eqb Ascii.eqb Bool.eqb orb correction] in K.
    apply Rabs_le_inv in K. assert (T := saem_b 0.0002967 0.0892 (PI / 2 - z) ltac:(lra) ltac:(lra) ltac:(lra)). assert (T' := saem_top 0.0002967 0.0892 z ltac:(lra) ltac:(lra) ltac:(lra)). split; [lra|]. split; lra.
Qed.

(** Both calls exist, in IEEE binary64, for every supported pair; psa on 21 June 2024, 10:00 UTC, 40 N 3 W has a zenith angle. *)
Example C73_example uc : exists sp sp' z, double_like float64_env /\
  evaluated_cell64 float64_env uc (at_times [Some w_t]) (Scalar (Fin 40)) (Scalar (Fin (-3))) "psa" RFalse "numpy" sp 0 0 0 w_t 40 (-3) /\
  evaluated_cell64 float64_env uc (at_times [Some w_t]) (Scalar (Fin 40)) (Scalar (Fin (-3))) "psa" RTrue "numpy" sp' 0 0 0 w_t 40 (-3) /\
  value (sp_zenith sp) (idx uc 0 0 0) z.
Proof.
  destruct (C69_zenith_example uc) as (sp & z & H & Z). destruct (proj2 C69_example uc RTrue "psa"%string "numpy"%string _ (or_introl eq_refl)) as (sp' & H').
  exists sp, sp', z. split; [exact float64_like|]. auto.
Qed.
(** The correction itself: 0.46 to 0.49 degrees at the true horizon (iqbal 0.55 to 0.57), a minute of arc at 45 degrees. *)
Example C73_horizon_example : forall alg, In alg ["psa"%string; "nrel"%string; "soltrack"%string] ->
  0.46 * (PI / 180) <= correction alg 0 <= 0.49 * (PI / 180) /\ 0.016 * (PI / 180) <= correction alg (PI / 4) <= 0.017 * (PI / 180).
Proof.
  intros alg [<-|[<-|[<-|[]]]]; unfold correction, saemundsson; cbn [String.eqb Ascii.eqb Bool.eqb orb]; cbv zeta; repeat split; interval with (i_prec 60).
Qed.
Example C73_horizon_iqbal : 0.55 * (PI / 180) <= correction "iqbal" 0 <= 0.57 * (PI / 180).
Proof. unfold correction, rigollier. cbn [String.eqb Ascii.eqb Bool.eqb orb]. split; interval. Qed.
