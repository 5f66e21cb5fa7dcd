(** * PropAstro: properties of the returned values, over the (extended) reals

    [E : Env] says how float32 values are rounded ([rnd]) and which modulo the numexpr engine has
    ([nem], any operator meeting [nem_spec]); float64 arithmetic is taken as exact real arithmetic with
    NaN and infinities (Ext.v).  Raw zenith, azimuth and declination are radians (the Sunpos accessors
    convert them to degrees), eot minutes. *)

From Coq Require Import ZArith QArith Reals Bool List String Lra Lia.
From Flocq Require Import Core.Raux.
From Interval Require Import Tactic.
From Verif Require Import Num Arrays Libspa Time Core Usecases Spec GenericLemmas GenericLemmas2 Ext ExtLemmas Witness
  Sky AstroTac AstroSpec Astro AstroCell AstroCall AstroRefr AstroRefute Float32 PsaCell SoltrackCell IqbalR NrelCell.
Import ListNotations.
Open Scope R_scope.

(** ** Non-vacuity: evaluated cells exist for every use case, algorithm, engine and flag, with exact and
    with IEEE float32 rounding *)
Definition w_t : Z := 1718964000123456789%Z.
Lemma w_t_representable : representable w_t. Proof. unfold representable, w_t. lia. Qed.
Lemma w_cell E uc alg eng m refr : In (alg, eng, m) (supported (O := ExtOps E)) ->
  exists sp, evaluated_cell E uc (at_times [Some w_t]) (Scalar (Fin 40)) (Scalar (Fin (-3))) alg refr eng sp 0 0 0 w_t 40 (-3).
Proof. intros H. apply (one_cell E uc w_t 40 (-3) alg refr eng m H w_t_representable); lra. Qed.
Lemma ideal_ideal : ideal ideal_env. Proof. intros x. reflexivity. Qed.
Example w_cell_ideal : forall uc refr,
  (exists sp, evaluated_cell ideal_env uc (at_times [Some w_t]) (Scalar (Fin 40)) (Scalar (Fin (-3))) "iqbal" refr "numexpr" sp 0 0 0 w_t 40 (-3))
  /\ exact_for ideal_env "iqbal" "numexpr" /\ range_ok_for float32_env "psa" "numpy" /\ exact_for float32_env "soltrack" "numexpr".
Proof.
  intros uc refr. split; [|split; [left; exact ideal_ideal|split; [right; repeat split; exact r32_accurate|right; right; split; [|right]; reflexivity]]].
  eapply w_cell. do 5 right. left. reflexivity.
Qed.

(** ** C18: the unrefracted zenith is defined and in [0, 180] degrees.
    Partial: soltrack/numpy and iqbal are covered for exact float32 operations only. *)
Theorem C18_zenith_range_partial : forall E uc times lat lon alg refr eng sp k j i t la lo,
  range_ok_for E alg eng -> is_True refr = false ->
  evaluated_cell E uc times lat lon alg refr eng sp k j i t la lo ->
  exists z, value (sp_zenith sp) (idx uc k j i) z /\ 0 <= z <= PI.
Proof.
  intros E uc times lat lon alg refr eng sp k j i t la lo HE Hr [(Hc & Hk & Ht) Hi].
  destruct (call_range E true uc times lat lon alg refr eng sp k t Hc Hk Ht j i la lo Hi HE) as (z & a & H1 & H2 & H3 & H4).
  rewrite Hr in H1. exists z. now split.
Qed.

(** ** C19: with refraction. *)
Theorem C19_refracted_range_partial : forall E uc times lat lon alg refr eng sp k j i t la lo,
  alg = "psa"%string \/ alg = "nrel"%string -> range_ok_for E alg eng -> is_True refr = true ->
  evaluated_cell E uc times lat lon alg refr eng sp k j i t la lo ->
  exists z, value (sp_zenith sp) (idx uc k j i) z /\ 0 <= z <= PI.
Proof.
  intros E uc times lat lon alg refr eng sp k j i t la lo Ha HE Hr [(Hc & Hk & Ht) Hi].
  destruct (call_range E true uc times lat lon alg refr eng sp k t Hc Hk Ht j i la lo Hi HE) as (z & a & H1 & H2 & H3 & H4).
  rewrite Hr in H1. destruct Ha as [-> | ->].
  - exists (saem #1 z). split; [exact H1|]. apply (saem_spec #1 z coef_psa H3).
  - exists (saem n_ATM z). split; [exact H1|]. apply (saem_spec n_ATM z coef_nrel H3).
Qed.

(** The same call with another refraction flag. *)
Lemma with_flag E uc times lat lon alg refr eng sp k j i t la lo refr' :
  evaluated_cell E uc times lat lon alg refr eng sp k j i t la lo ->
  exists sp', evaluated_cell E uc times lat lon alg refr' eng sp' k j i t la lo.
Proof.
  intros [(Hc & Hk & Ht) Hi]. destruct (refraction_lemma (O := ExtOps E) true uc times lat lon alg eng refr refr' sp Hc) as (sp' & H & _).
  exists sp'. repeat split; assumption || apply Ht.
Qed.
Lemma two_flags E uc times lat lon alg eng sp sp' k j i t la lo z : range_ok_for E alg eng ->
  evaluated_cell E uc times lat lon alg RFalse eng sp k j i t la lo ->
  evaluated_cell E uc times lat lon alg RTrue eng sp' k j i t la lo ->
  value (sp_zenith sp) (idx uc k j i) z ->
  0 <= z <= PI /\ get (sp_zenith sp') (idx uc k j i) = Some (refracted E alg z).
Proof.
  intros HE [(Hc & Hk & Ht) Hi] [(Hc' & _ & _) _] Hz.
  destruct HE as [HE|HE].
  - destruct (call_supported _ _ _ _ _ _ _ _ _ Hc) as (m & Hin).
    destruct (call_bounds E true uc times lat lon alg RFalse eng sp k Hc j i la lo Hi) as [Ba Bo].
    destruct (time_value E alg eng m _ Hin (sec_range t Ht)) as (d & eot & ecf & V1 & V2 & V3 & V).
    destruct (cell_value E t la lo Ht Ba ltac:(lra) alg eng m d eot ecf Hin HE V1 V2 V3) as (h & z1 & a & _ & W1 & W2 & W3 & W4 & W5).
    assert (Hq : alg = "iqbal"%string -> eng = "numexpr"%string -> ideal E).
    { intros -> ->. destruct HE as [HE|[HE|[_ [HE|HE]]]]; [exact HE|discriminate HE..]. }
    destruct (cell_get E uc times lat lon alg RFalse eng sp k j i t la lo m) as [G _]; [repeat split; assumption || apply Ht|assumption..|].
    destruct (cell_get E uc times lat lon alg RTrue eng sp' k j i t la lo m) as [G' _]; [repeat split; assumption || apply Ht|assumption..|].
    rewrite W5 in G, G'. cbn [is_True fst] in G, G'. unfold value in Hz. rewrite Hz in G. injection G as ->. now split.
  - destruct HE as (-> & -> & HE).
    destruct (range_pypsa E t la lo Ht HE) as (z1 & a & R1 & R2 & R3).
    assert (Hin : In ("psa"%string, "numpy"%string, py_psa (O := ExtOps E)) (supported (O := ExtOps E))) by (left; reflexivity).
    destruct (cell_get E uc times lat lon "psa" RFalse "numpy" sp k j i t la lo (py_psa (O := ExtOps E))) as [G _]; [repeat split; assumption || apply Ht|exact Hin|discriminate|].
    destruct (cell_get E uc times lat lon "psa" RTrue "numpy" sp' k j i t la lo (py_psa (O := ExtOps E))) as [G' _]; [repeat split; assumption || apply Ht|exact Hin|discriminate|].
    change (lib_cast (py_psa (O := ExtOps E)) (Fin lo)) with (Fin (rnd E lo)) in G, G'.
    change (lib_cast (py_psa (O := ExtOps E)) (Fin la)) with (Fin (rnd E la)) in G, G'.
    rewrite R3 in G, G'. cbn [is_True fst] in G, G'. unfold value in Hz. rewrite Hz in G. injection G as ->. now split.
Qed.

(** soltrack and iqbal: in range where the sun is not too far below the horizon / not overhead. *)
Theorem C19_soltrack_iqbal_partial : forall E uc times lat lon alg eng sp sp' k j i t la lo z,
  range_ok_for E alg eng ->
  evaluated_cell E uc times lat lon alg RFalse eng sp k j i t la lo ->
  evaluated_cell E uc times lat lon alg RTrue eng sp' k j i t la lo ->
  value (sp_zenith sp) (idx uc k j i) z ->
  (alg = "soltrack"%string /\ z <= PI / 2 + 0.0145 \/ alg = "iqbal"%string /\ 0.0002 <= z <= PI - 0.0013) ->
  exists z', value (sp_zenith sp') (idx uc k j i) z' /\ 0 <= z' <= PI.
Proof.
  intros E uc times lat lon alg eng sp sp' k j i t la lo z HE H H' Hz Hd.
  destruct (two_flags E uc times lat lon alg eng sp sp' k j i t la lo z HE H H' Hz) as [Hb Hg].
  destruct Hd as [[-> Hd]|[-> Hd]].
  - destruct (sol_range E z ltac:(lra)) as (z' & Hz' & Hr & _). exists z'. split; [|exact Hr].
    unfold value. rewrite Hg. change (refracted E "soltrack" z) with (st_refracted E (PI / 2 - z)). now rewrite Hz'.
  - exists (z - iq_corr (PI / 2 - z)). split; [|now apply iq_range].
    unfold value. rewrite Hg. change (refracted E "iqbal" z) with (i_refr z). now rewrite i_refr_R.
Qed.

(** The claim is false of soltrack: at any instant there are places (near midnight, with the sun about
    5.1 degrees below the horizon) where the refracted zenith is below -B, for every B. *)
Theorem C19_soltrack_refuted : forall E uc eng m t B, ideal E ->
  In ("soltrack"%string, eng, m) (supported (O := ExtOps E)) -> representable t -> 0 < B ->
  exists la lo sp z, evaluated_cell E uc (at_times [Some t]) (Scalar (Fin la)) (Scalar (Fin lo)) "soltrack" RTrue eng sp 0 0 0 t la lo /\
    value (sp_zenith sp) (idx uc 0 0 0) z /\ z < - B.
Proof. intros E uc eng m t B. apply soltrack_unbounded. Qed.

(** ... and of iqbal: with the sun overhead the refracted zenith is negative. *)
Theorem C19_iqbal_refuted : forall E uc eng m t, ideal E ->
  In ("iqbal"%string, eng, m) (supported (O := ExtOps E)) -> representable t ->
  exists la lo sp z, evaluated_cell E uc (at_times [Some t]) (Scalar (Fin la)) (Scalar (Fin lo)) "iqbal" RTrue eng sp 0 0 0 t la lo /\
    value (sp_zenith sp) (idx uc 0 0 0) z /\ z < -0.00017.
Proof. intros E uc eng m t. apply iqbal_overhead. Qed.

(** ** C53: size and sign of the correction *)
Theorem C53_refraction_size : forall E uc times lat lon alg eng sp sp' k j i t la lo z,
  range_ok_for E alg eng ->
  evaluated_cell E uc times lat lon alg RFalse eng sp k j i t la lo ->
  evaluated_cell E uc times lat lon alg RTrue eng sp' k j i t la lo ->
  value (sp_zenith sp) (idx uc k j i) z ->
  (alg = "psa"%string \/ alg = "nrel"%string) ->
  exists z', value (sp_zenith sp') (idx uc k j i) z' /\
    z' <= z + 0.000001 /\ z - 0.62 * (PI / 180) <= z' /\ (PI / 2 + 0.8334 * (PI / 180) < z -> z' = z).
Proof.
  intros E uc times lat lon alg eng sp sp' k j i t la lo z HE H H' Hz Hd.
  destruct (two_flags E uc times lat lon alg eng sp sp' k j i t la lo z HE H H' Hz) as [Hb Hg].
  assert (H1 : 0.01082 <= 0.62 * (PI / 180)) by interval. assert (H2 : 0.014545 <= 0.8334 * (PI / 180)) by interval.
  destruct Hd as [-> | ->].
  - exists (saem #1 z). split; [exact Hg|]. destruct (saem_spec #1 z coef_psa Hb) as [_ S]. repeat split; try lra.
    intros Hz'. apply saem_off. lra.
  - exists (saem n_ATM z). split; [exact Hg|]. destruct (saem_spec n_ATM z coef_nrel Hb) as [_ S]. repeat split; try lra.
    intros Hz'. apply saem_off. lra.
Qed.

(** iqbal: at most 1.52 degrees up, 0.07 degrees down; soltrack above -0.83 degrees: as psa. *)
Theorem C53_refraction_size_others : forall E uc times lat lon alg eng sp sp' k j i t la lo z,
  range_ok_for E alg eng ->
  evaluated_cell E uc times lat lon alg RFalse eng sp k j i t la lo ->
  evaluated_cell E uc times lat lon alg RTrue eng sp' k j i t la lo ->
  value (sp_zenith sp) (idx uc k j i) z ->
  (alg = "iqbal"%string -> exists z', value (sp_zenith sp') (idx uc k j i) z' /\
    z' <= z + 0.07 * (PI / 180) /\ z - 1.52 * (PI / 180) <= z') /\
  (alg = "soltrack"%string -> z <= PI / 2 + 0.83 * (PI / 180) -> exists z', value (sp_zenith sp') (idx uc k j i) z' /\
    z' <= z + 0.000001 /\ z - 0.62 * (PI / 180) <= z').
Proof.
  intros E uc times lat lon alg eng sp sp' k j i t la lo z HE H H' Hz.
  destruct (two_flags E uc times lat lon alg eng sp sp' k j i t la lo z HE H H' Hz) as [Hb Hg].
  split.
  - intros ->. exists (z - iq_corr (PI / 2 - z)). split.
    + unfold value. rewrite Hg. change (refracted E "iqbal" z) with (i_refr z). now rewrite i_refr_R.
    + destruct (iq_corr_b (PI / 2 - z) ltac:(lra)). assert (0.0012 <= 0.07 * (PI / 180)) by interval.
      assert (0.0265 <= 1.52 * (PI / 180)) by interval. split; lra.
  - intros -> Hz'. assert (0.83 * (PI / 180) <= 0.0145) by interval.
    destruct (sol_range E z ltac:(lra)) as (z' & Hz'' & _ & Hr). exists z'. split.
    + unfold value. rewrite Hg. change (refracted E "soltrack" z) with (st_refracted E (PI / 2 - z)). now rewrite Hz''.
    + assert (H1 : 0.01082 <= 0.62 * (PI / 180)) by interval. split; lra.
Qed.

Example C53_example : forall uc alg eng m, In (alg, eng, m) (supported (O := ExtOps ideal_env)) ->
  exists sp sp' z, range_ok_for ideal_env alg eng /\
    evaluated_cell ideal_env uc (at_times [Some w_t]) (Scalar (Fin 40)) (Scalar (Fin (-3))) alg RFalse eng sp 0 0 0 w_t 40 (-3) /\
    evaluated_cell ideal_env uc (at_times [Some w_t]) (Scalar (Fin 40)) (Scalar (Fin (-3))) alg RTrue eng sp' 0 0 0 w_t 40 (-3) /\
    value (sp_zenith sp) (idx uc 0 0 0) z.
Proof.
  intros uc alg eng m H. destruct (w_cell ideal_env uc alg eng m RFalse H) as (sp & Hsp). destruct (w_cell ideal_env uc alg eng m RTrue H) as (sp' & Hsp').
  destruct (C18_zenith_range_partial ideal_env uc _ _ _ alg RFalse eng sp 0 0 0 w_t 40 (-3) (or_introl (or_introl ideal_ideal)) eq_refl Hsp) as (z & Hz & _).
  exists sp, sp', z. repeat (split; [assumption || left; left; exact ideal_ideal|]). exact Hz.
Qed.

(** ** C20: azimuth range: psa and iqbal in [-180, 180), soltrack and nrel in (-180, 180] degrees. *)
Theorem C20_azimuth_range_partial : forall E uc times lat lon alg refr eng sp k j i t la lo,
  range_ok_for E alg eng ->
  evaluated_cell E uc times lat lon alg refr eng sp k j i t la lo ->
  exists a, value (sp_azimuth sp) (idx uc k j i) a /\
    (alg = "psa"%string \/ alg = "iqbal"%string -> - PI <= a < PI) /\
    (alg = "soltrack"%string \/ alg = "nrel"%string -> - PI < a <= PI).
Proof.
  intros E uc times lat lon alg refr eng sp k j i t la lo HE [(Hc & Hk & Ht) Hi].
  destruct (call_range E true uc times lat lon alg refr eng sp k t Hc Hk Ht j i la lo Hi HE) as (z & a & H1 & H2 & H3 & H4).
  exists a. split; [exact H2|]. split; intros [-> | ->]; exact H4.
Qed.

(** ** C21, C22, C54: the unrefracted position is the direction with the returned declination and the hour
    angle that the returned equation of time gives, seen from the horizon at that latitude *)
Theorem C21_position_geometric : forall E uc times lat lon alg refr eng sp k j i t la lo,
  exact_for E alg eng -> is_True refr = false ->
  evaluated_cell E uc times lat lon alg refr eng sp k j i t la lo ->
  exists d eot ecf h z a,
    value (sp_declination sp) [k] d /\ value (sp_eot sp) [k] eot /\ value (sp_ecf sp) [k] ecf /\
    value (sp_zenith sp) (idx uc k j i) z /\ value (sp_azimuth sp) (idx uc k j i) a /\
    near_turn h (solar_hour_angle t (used E alg lo) eot) (hour_tol alg) /\
    sky_position alg eng (used E alg la * (PI / 180)) d h ecf z a.
Proof.
  intros E uc times lat lon alg refr eng sp k j i t la lo HE Hr [(Hc & Hk & Ht) Hi].
  destruct (call_value E true uc times lat lon alg refr eng sp k t Hc Hk Ht j i la lo Hi HE) as (d & eot & ecf & h & z & a & H1 & H2 & H3 & H4 & H5 & H6 & H7 & _).
  rewrite Hr in H4. exists d, eot, ecf, h, z, a. auto 10.
Qed.

(** The azimuth is the same with refraction, and it is determined by the geometry as soon as the sun has a horizontal
    component. *)
Lemma azimuth_eq alg a a' phi d h :
  is_azimuth a phi d h -> is_azimuth a' phi d h -> azimuth_in_turn alg a -> azimuth_in_turn alg a' ->
  (sun_S phi d h <> 0 \/ sun_W phi d h <> 0) -> a = a'.
Proof.
  intros Ha Ha' Ra Ra' Hn.
  set (z := acos (sun_U phi d h)).
  assert (Hz : is_zenith z phi d h) by (split; [apply acos_bound|apply cos_acos, sun_U_bound]).
  assert (Hsz : sin z <> 0).
  { intros E0. destruct (azimuth_rho _ _ _ _ _ Ha Hz) as [E1 E2]. rewrite E0 in E1, E2. destruct Hn as [Hn|Hn]; apply Hn; [rewrite E1|rewrite E2]; ring. }
  destruct (azimuth_unique _ _ _ _ _ _ Ha Ha' Hz Hsz) as [Ec Es].
  assert (Hc : cos (a - a') = 1) by (rewrite cos_minus, Ec, Es; pose proof (sc1 a'); lra).
  assert (Hs : sin (a - a') = 0) by (rewrite sin_minus, Ec, Es; ring).
  assert (Hr : - (2 * PI) < a - a' < 2 * PI).
  { unfold azimuth_in_turn in *. pose proof PI_RGT_0. destruct (String.eqb alg "psa" || String.eqb alg "iqbal")%bool; lra. }
  assert (Hh : sin ((a - a') / 2) = 0).
  { assert (Hd : cos (a - a') = 1 - 2 * sin ((a - a') / 2) * sin ((a - a') / 2)).
    { replace (a - a') with (2 * ((a - a') / 2)) at 1 by field. apply cos_2a_sin. }
    nra. }
  destruct (Rtotal_order ((a - a') / 2) 0) as [Hl|[Hl|Hl]]; [|lra|].
  - assert (0 < sin (- ((a - a') / 2))) by (apply sin_gt_0; lra). rewrite sin_neg in H. lra.
  - assert (0 < sin ((a - a') / 2)) by (apply sin_gt_0; lra). lra.
Qed.
Theorem C22_azimuth_geometric : forall E uc times lat lon alg refr eng sp k j i t la lo,
  exact_for E alg eng ->
  evaluated_cell E uc times lat lon alg refr eng sp k j i t la lo ->
  exists d eot h d' h' a, let phi := used E alg la * (PI / 180) in
    value (sp_declination sp) [k] d /\ value (sp_eot sp) [k] eot /\
    value (sp_azimuth sp) (idx uc k j i) a /\
    near_turn h (solar_hour_angle t (used E alg lo) eot) (hour_tol alg) /\
    (alg <> "nrel"%string -> d' = d /\ h' = h) /\
    (exists rho, 0 < rho /\ rho * (cos d' * sin h') = cos d * sin h /\
       Rabs (rho * (cos d' * cos h') - cos d * cos h) <= 0.00005 /\ Rabs (rho * sin d' - sin d) <= 0.00005) /\
    is_azimuth a phi d' h' /\
    (forall a', is_azimuth a' phi d' h' -> azimuth_in_turn alg a' -> sun_S phi d' h' <> 0 \/ sun_W phi d' h' <> 0 -> a' = a).
Proof.
  intros E uc times lat lon alg refr eng sp k j i t la lo HE [(Hc & Hk & Ht) Hi].
  destruct (call_time E true uc times lat lon alg refr eng sp k t Hc Hk Ht) as (d0 & eot0 & ecf0 & _ & _ & G3 & _ & _ & B3).
  destruct (call_value E true uc times lat lon alg refr eng sp k t Hc Hk Ht j i la lo Hi HE) as (d & eot & ecf & h & z & a & H1 & H2 & H3 & H4 & H5 & H6 & H7 & H8 & H9 & _).
  rewrite H3 in G3. injection G3 as <-.
  cbv zeta. unfold sky_position in H7. destruct (String.eqb_spec alg "nrel") as [En|En].
  - destruct H7 as (u & rho & d' & h' & H7). cbv zeta in H7. destruct H7 as (U1 & U2 & U3 & R1 & R2 & K1 & K2 & K3 & Z & A).
    assert (Hsx : 0 <= sin (8.794 / 3600 * sqrt ecf * (PI / 180)) <= 0.00005).
    { assert (0.97 <= sqrt ecf <= 1.02).
      { split; [apply Rsqr_incr_0_var; [|apply sqrt_pos]|apply Rsqr_incr_0_var; [|lra]]; rewrite Rsqr_sqrt by lra; unfold Rsqr; lra. }
      generalize dependent (sqrt ecf). intros q Hq. split; interval. }
    set (sx := sin (8.794 / 3600 * sqrt ecf * (PI / 180))) in *. pose proof (COS_bound u). pose proof (SIN_bound u).
    exists d, eot, h, d', h', a. repeat (split; [assumption|]). split; [contradiction|]. split; [|split; [exact A|]].
    + exists rho. split; [exact R1|]. split; [exact K2|]. rewrite K1, K3.
      assert (Hm : forall y, -1 <= y <= 1 -> -0.00005 <= sx * y <= 0.00005).
      { intros y Hy. clear - Hsx Hy. assert (- sx <= sx * y <= sx) by (split; nra). lra. }
      assert (B1 := Hm (cos u) ltac:(lra)). assert (B2 := Hm (0.99664719 * sin u) ltac:(lra)).
      split; apply Rabs_le; lra.
    + intros a' Ha' Hr' Hn. symmetry. eapply azimuth_eq; eassumption.
  - destruct H7 as (z0 & Z1 & Z2 & Z3 & A).
    exists d, eot, h, d, h, a. repeat (split; [assumption|]). split; [now split|]. split; [|split; [exact A|]].
    + exists 1. replace (1 * (cos d * cos h) - cos d * cos h) with 0 by ring. replace (1 * sin d - sin d) with 0 by ring. rewrite Rabs_R0.
      repeat split; lra.
    + intros a' Ha' Hr' Hn. symmetry. eapply azimuth_eq; eassumption.
Qed.

(** ** C23: west in the afternoon, east in the morning (the hour angle being that of the true solar time) *)
Theorem C23_morning_afternoon : forall E uc times lat lon alg refr eng sp k j i t la lo eot n,
  exact_for E alg eng ->
  evaluated_cell E uc times lat lon alg refr eng sp k j i t la lo ->
  value (sp_eot sp) [k] eot ->
  let H := solar_hour_angle t (used E alg lo) eot - 2 * PI * IZR n in
  exists a, value (sp_azimuth sp) (idx uc k j i) a /\
    (hour_tol alg < H < PI - hour_tol alg -> 0 < a < PI) /\
    (- PI + hour_tol alg < H < - hour_tol alg -> - PI < a < 0).
Proof.
  intros E uc times lat lon alg refr eng sp k j i t la lo eot n HE Hcell Heot H.
  assert (Htol : 0 <= hour_tol alg).
  { unfold hour_tol. destruct (String.eqb alg "psa"); [lra|]. destruct (String.eqb alg "iqbal"); lra. }
  assert (Hal : alg = "psa"%string \/ alg = "iqbal"%string \/ alg = "soltrack"%string \/ alg = "nrel"%string).
  { destruct Hcell as [[Hc _] _]. destruct (call_supported _ _ _ _ _ _ _ _ _ Hc) as (m & Hin). cbn [supported In] in Hin.
    destruct Hin as [I|[I|[I|[I|[I|[I|[I|[]]]]]]]]; injection I as <- _ _; auto. }
  destruct (C22_azimuth_geometric E uc times lat lon alg refr eng sp k j i t la lo HE Hcell)
    as (d & eot' & h & d' & h' & a & D1 & D2 & A1 & N & S & R & A & _).
  destruct (C20_azimuth_range_partial E uc times lat lon alg refr eng sp k j i t la lo (or_introl HE) Hcell) as (a2 & A2 & R1 & R2).
  unfold value in *. rewrite A1 in A2. injection A2 as <-. rewrite Heot in D2. injection D2 as <-.
  assert (Ra : - PI <= a <= PI).
  { destruct Hal as [-> |[-> |[-> | ->]]]; [specialize (R1 (or_introl eq_refl))|specialize (R1 (or_intror eq_refl))|specialize (R2 (or_introl eq_refl))|specialize (R2 (or_intror eq_refl))]; lra. }
  exists a. split; [exact A1|].
  destruct Hcell as [(Hc & Hk & Ht) Hi].
  destruct (call_time E true uc times lat lon alg refr eng sp k t Hc Hk Ht) as (d0 & _ & _ & G1 & _ & _ & B1 & _).
  rewrite D1 in G1. injection G1 as <-. pose proof (cos_dec_b d B1) as Hcd.
  destruct R as (rho & Hrho & K & _ & _).
  destruct A as (q & Hq & _ & AW). unfold sun_W in AW.
  destruct N as (k1 & Hk1). apply Rabs_le_inv in Hk1.
  set (x := h - 2 * PI * IZR (k1 + n)). assert (Hx : Rabs (x - H) <= hour_tol alg).
  { apply Rabs_le. unfold x, H. rewrite plus_IZR. lra. }
  apply Rabs_le_inv in Hx.
  assert (Esin : sin h = sin x) by (unfold x; now rewrite sin_2kpi).
  assert (Hsa : 0 < sin a -> 0 < a < PI).
  { intros Hs. assert (~ a <= 0). { intros Hle. assert (0 <= sin (- a)) by (apply sin_ge_0; lra). rewrite sin_neg in H0. lra. }
    assert (a <> PI) by (intros ->; rewrite sin_PI in Hs; lra). lra. }
  assert (Hsb : sin a < 0 -> - PI < a < 0).
  { intros Hs. assert (~ 0 <= a). { intros Hle. assert (0 <= sin a) by (apply sin_ge_0; lra). lra. }
    assert (a <> - PI) by (intros ->; rewrite sin_neg, sin_PI in Hs; lra). lra. }
  split; intros HH.
  - apply Hsa. assert (0 < sin x) by (apply sin_gt_0; lra). rewrite <- Esin in H0.
    assert (0 < cos d * sin h) by nra. rewrite <- K in H1.
    assert (0 < q * sin a) by (rewrite <- AW; nra). nra.
  - apply Hsb. assert (0 < sin (- x)) by (apply sin_gt_0; lra). rewrite sin_neg, <- Esin in H0.
    assert (cos d * sin h < 0) by nra. rewrite <- K in H1.
    assert (q * sin a < 0) by (rewrite <- AW; nra). nra.
Qed.

(** At 10:00 UTC, 3 degrees west, the hour angle is in (-180, 0) degrees whatever the equation of time (C26). *)
Example C23_example : forall eot, Rabs eot <= 20 ->
  - PI + hour_tol "psa" < solar_hour_angle w_t (-3) eot - 2 * PI * IZR 0 < - hour_tol "psa".
Proof.
  intros eot He. apply Rabs_le_inv in He.
  assert (Ht : utc_hours w_t = 10) by (unfold utc_hours; change ((w_t / 1000000000) mod 86400)%Z with 36000%Z; lra).
  unfold solar_hour_angle, hour_tol. cbn [String.eqb Ascii.eqb Bool.eqb]. rewrite Ht. split; interval.
Qed.

(** ** C24, C25, C26: bounds of the location-independent outputs, for every float32 rounding *)
Theorem C24_declination_bound : forall E uc times lat lon alg refr eng sp k t,
  evaluated_time E uc times lat lon alg refr eng sp k t ->
  exists d, value (sp_declination sp) [k] d /\ Rabs (d * (180 / PI)) <= 23.6.
Proof.
  intros E uc times lat lon alg refr eng sp k t (Hc & Hk & Ht).
  destruct (call_time E true uc times lat lon alg refr eng sp k t Hc Hk Ht) as (d & eot & ecf & H1 & _ & _ & B & _).
  exists d. split; [exact H1|]. interval.
Qed.
Theorem C25_ecf_bound : forall E uc times lat lon alg refr eng sp k t,
  evaluated_time E uc times lat lon alg refr eng sp k t ->
  exists x, value (sp_ecf sp) [k] x /\ 0.96 <= x <= 1.04.
Proof.
  intros E uc times lat lon alg refr eng sp k t (Hc & Hk & Ht).
  destruct (call_time E true uc times lat lon alg refr eng sp k t Hc Hk Ht) as (d & eot & ecf & _ & _ & H1 & _ & _ & B).
  exists ecf. now split.
Qed.
Theorem C26_eot_bound : forall E uc times lat lon alg refr eng sp k t,
  evaluated_time E uc times lat lon alg refr eng sp k t ->
  exists x, value (sp_eot sp) [k] x /\ Rabs x <= 20.
Proof.
  intros E uc times lat lon alg refr eng sp k t (Hc & Hk & Ht).
  destruct (call_time E true uc times lat lon alg refr eng sp k t Hc Hk Ht) as (d & eot & ecf & _ & H1 & _ & _ & B & _).
  exists eot. split; [exact H1|lra].
Qed.

Example C24_example : forall uc alg eng m refr, In (alg, eng, m) (supported (O := ExtOps float32_env)) ->
  exists sp, evaluated_time float32_env uc (at_times [Some w_t]) (Scalar (Fin 40)) (Scalar (Fin (-3))) alg refr eng sp 0 w_t.
Proof. intros uc alg eng m refr H. destruct (w_cell float32_env uc alg eng m refr H) as (sp & Hsp & _). now exists sp. Qed.
