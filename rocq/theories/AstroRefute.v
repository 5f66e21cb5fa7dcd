(** * AstroRefute: calls constructed to make a claim fail *)

From Coq Require Import ZArith QArith Reals Bool List String Lra Lia.
From Flocq Require Import Core.Raux.
From Interval Require Import Tactic.
From Verif Require Import Num Arrays Libspa Time Core Usecases Spec GenericLemmas GenericLemmas2 Ext ExtLemmas
  Sky AstroTac Refraction AstroSpec Astro AstroCell AstroCall AstroRefr PsaR PsaCell Soltrack SoltrackR SoltrackCell Iqbal IqbalR.
Import ListNotations.
Open Scope R_scope.

(** A longitude at which a given angle [x] + longitude is [target], up to whole turns. *)
Lemma lon_for x target : exists lo (n : Z), -180 <= lo < 180 /\ x + lo * (PI / 180) = target + 2 * PI * IZR n.
Proof.
  set (w := (target - x) * (180 / PI)). set (f := Zfloor ((w + 180) / 360)).
  exists (w - 360 * IZR f), (- f)%Z. assert (H1 := Zfloor_lb ((w + 180) / 360)). assert (H2 := Zfloor_ub ((w + 180) / 360)). fold f in H1, H2.
  split; [lra|]. rewrite opp_IZR. unfold w. field. apply PI_neq0.
Qed.

(** A call at one place and time. *)
Lemma coords_ok_fin E la lo : -90 <= la <= 90 -> -180 <= lo < 180 -> coords_ok (O := ExtOps E) [Fin la] [Fin lo].
Proof.
  intros Ha Ho. split; intros x [<-|[]]; right; cbn -[Q2R Rleb Rltb]; split;
    match goal with
    | |- context[Rleb ?a ?b] => destruct (Rleb_spec a b) as [H|H]
    | |- context[Rltb ?a ?b] => destruct (Rltb_spec a b) as [H|H]
    end; try reflexivity; exfalso; q2; lra.
Qed.
Lemma one_cell E uc t la lo alg refr eng m :
  In (alg, eng, m) (supported (O := ExtOps E)) -> representable t -> -90 <= la <= 90 -> -180 <= lo < 180 ->
  exists sp, evaluated_cell E uc (at_times [Some t]) (Scalar (Fin la)) (Scalar (Fin lo)) alg refr eng sp 0 0 0 t la lo.
Proof.
  intros Hin Ht Ha Ho.
  destruct (accept_lemma (O := ExtOps E) true uc [Some t] (Scalar (Fin la)) (Scalar (Fin lo)) alg refr eng m eq_refl Hin) as (sp & H).
  - right. exists (Fin la). split; reflexivity.
  - right. exists (Fin lo). split; reflexivity.
  - destruct uc; cbn; auto.
  - now apply coords_ok_fin.
  - exists sp. split; [split; [exact H|split; [reflexivity|exact Ht]]|]. destruct uc; split; reflexivity.
Qed.

(** ** soltrack *)
Lemma sol_cells E eng m t : ideal E -> In ("soltrack"%string, eng, m) (supported (O := ExtOps E)) -> representable t ->
  exists H0 d, -0.411 <= d <= 0.411 /\
  forall la lo r, -90 <= la <= 90 -> -180 <= lo <= 180 ->
    lib_2d m r (lib_time m (sec_of t)) (lib_cast m (Fin lo)) (lib_cast m (Fin la))
    = (st_finish E r (acos (sun_U (la * (PI / 180)) d (H0 + lo * (PI / 180)))),
       Fin (st_az d (sin (la * (PI / 180))) (cos (la * (PI / 180))) (H0 + lo * (PI / 180)))).
Proof.
  intros HE Hin Ht. assert (Hs := sec_range t Ht). cbn [supported In] in Hin.
  destruct Hin as [H|[H|[H|[H|[H|[H|[H|[]]]]]]]]; try discriminate H; injection H as <- <-.
  - exists (t_agst (IZR (sec_of t)) - t_ra Rfloor_mod (IZR (sec_of t))), (t_dec Rfloor_mod (IZR (sec_of t))).
    pose proof (t_dec_b _ Hs Rfloor_mod). split; [lra|]. intros la lo r Ha Ho. cbn [py_soltrack lib_2d lib_time lib_cast].
    rewrite ofZ_fin, py_soltrack_time_R by exact Hs. ext_ops. rewrite !fin_fun, !HE. apply py_soltrack_cell_R; [exact HE| |exact Ha].
    pose proof (cos_dec_b (t_dec Rfloor_mod (IZR (sec_of t))) ltac:(lra)). lra.
  - exists (t_agst (IZR (sec_of t)) - t_ra (nem E) (IZR (sec_of t))), (t_dec (nem E) (IZR (sec_of t))).
    pose proof (t_dec_b _ Hs (nem E)). split; [lra|]. intros la lo r Ha Ho. cbn [ne_soltrack lib_2d lib_time lib_cast].
    rewrite ofZ_fin, ne_soltrack_time_R by exact Hs. ext_ops. rewrite !fin_fun, !HE. apply ne_soltrack_cell_R.
    pose proof (cos_dec_b (t_dec (nem E) (IZR (sec_of t))) ltac:(lra)). lra.
Qed.

Lemma cell_get E uc times lat lon alg refr eng sp k j i t la lo m :
  evaluated_cell E uc times lat lon alg refr eng sp k j i t la lo ->
  In (alg, eng, m) (supported (O := ExtOps E)) ->
  (alg = "iqbal"%string -> eng = "numexpr"%string -> ideal E) ->
  get (sp_zenith sp) (idx uc k j i) = Some (fst (lib_2d m (is_True refr) (lib_time m (sec_of t)) (lib_cast m (Fin lo)) (lib_cast m (Fin la)))) /\
  get (sp_azimuth sp) (idx uc k j i) = Some (snd (lib_2d m (is_True refr) (lib_time m (sec_of t)) (lib_cast m (Fin lo)) (lib_cast m (Fin la)))).
Proof.
  intros [(Hc & Hk & Ht) Hi] Hin Hq.
  destruct (dispatch_lemma (O := ExtOps E) true uc times lat lon alg refr eng sp m k t (Fin la) (Fin lo) Hc Hin Hk) as (_ & _ & _ & H).
  destruct (H j i Hi) as [H1 H2]. fold (sec_of t) in H1, H2.
  rewrite (dims E alg eng m uc (is_True refr) (sec_of t) (Fin lo) (Fin la) Hin (sec_range t Ht) Hq) in H1, H2. now split.
Qed.

(** At midnight the zenith angle can be placed anywhere near the horizon by the choice of latitude. *)
Lemma midnight d h z : cos h = -1 -> sin h = 0 -> -0.411 <= d <= 0.411 -> 1.58 <= z <= 2.5 ->
  exists la, -90 <= la <= 90 /\ acos (sun_U (la * (PI / 180)) d h) = z.
Proof.
  intros Hc Hs Hd Hz. assert (Hp : 3.14 < PI < 3.1416) by (split; interval).
  set (phi := if Rle_dec 0 d then PI - z - d else z - PI - d).
  exists (phi * (180 / PI)).
  assert (Hphi : - (PI / 2) <= phi <= PI / 2) by (unfold phi; destruct (Rle_dec 0 d); lra).
  split.
  - assert (H1 : 0 < 180 / PI) by (apply Rdiv_lt_0_compat; lra). 
    assert (H2 : 180 / PI * (PI / 2) = 90) by (field; lra). split; nra.
  - replace (phi * (180 / PI) * (PI / 180)) with phi by (field; lra). unfold sun_U. rewrite Hc.
    replace (sin phi * sin d + cos phi * cos d * -1) with (- cos (phi + d)) by (rewrite cos_plus; ring).
    rewrite <- Rtrigo_facts.cos_pi_minus. unfold phi. destruct (Rle_dec 0 d).
    + replace (PI - (PI - z - d + d)) with z by ring. apply acos_cos; lra.
    + replace (PI - (z - PI - d + d)) with (- z + 2 * PI) by ring.
      replace (cos (- z + 2 * PI)) with (cos z); [apply acos_cos; lra|].
      rewrite <- (cos_neg z), <- (cos_period (- z) 1). f_equal. cbn [INR]. lra.
Qed.

(** The parallax term is invertible. *)
Lemma st_parallax_inv Z : 1.6 <= Z <= 2 -> exists z, 1.59 <= z <= 2.5 /\ st_parallax z = Z.
Proof.
  intros H. destruct (IVT_cor (fun z => st_parallax z - Z) 1.59 2.5) as (z & Hz & Hz').
  - unfold st_parallax. intros x. reg.
  - lra.
  - assert (A : st_parallax 1.59 <= 1.6) by (unfold st_parallax; q2; interval).
    assert (B : 2 <= st_parallax 2.5) by (unfold st_parallax; q2; interval). nra.
  - exists z. split; [lra|]. lra.
Qed.

Lemma soltrack_unbounded E eng m uc t B : ideal E -> In ("soltrack"%string, eng, m) (supported (O := ExtOps E)) -> representable t -> 0 < B ->
  exists la lo sp z, evaluated_cell E uc (at_times [Some t]) (Scalar (Fin la)) (Scalar (Fin lo)) "soltrack" RTrue eng sp 0 0 0 t la lo /\
    value (sp_zenith sp) (idx uc 0 0 0) z /\ z < - B.
Proof.
  intros HE Hin Ht HB. destruct (sol_cells E eng m t HE Hin Ht) as (H0 & d & Hd & Hcell).
  destruct (lon_for H0 PI) as (lo & n & Ho & Hh).
  destruct (sol_blowup E B HB) as (alt & Halt & z' & Hz' & Hb).
  assert (Hp : 3.14 < PI < 3.1416) by (split; interval).
  destruct (st_parallax_inv (PI / 2 - alt) ltac:(lra)) as (z0 & Hz0 & Hpar).
  assert (Hch : cos (H0 + lo * (PI / 180)) = -1 /\ sin (H0 + lo * (PI / 180)) = 0).
  { rewrite Hh. replace (PI + 2 * PI * IZR n) with (PI - 2 * PI * IZR (- n)) by (rewrite opp_IZR; ring).
    rewrite cos_2kpi, sin_2kpi. split; [apply cos_PI|apply sin_PI]. }
  destruct (midnight d _ z0 (proj1 Hch) (proj2 Hch) Hd ltac:(lra)) as (la & Ha & Hac).
  destruct (one_cell E uc t la lo "soltrack" RTrue eng m Hin Ht Ha Ho) as (sp & Hsp).
  exists la, lo, sp, z'. split; [exact Hsp|]. split; [|exact Hb].
  destruct (cell_get _ _ _ _ _ _ _ _ _ _ _ _ _ _ _ m Hsp Hin) as [Hg _]; [discriminate|].
  unfold value. rewrite Hg. cbn [is_True]. rewrite (Hcell la lo true Ha ltac:(lra)). cbn [fst]. rewrite Hac. unfold st_finish.
  rewrite Hpar. replace (PI / 2 - (PI / 2 - alt)) with alt by ring. now rewrite Hz'.
Qed.

(** ** iqbal *)
Lemma iqbal_overhead E eng m uc t : ideal E -> In ("iqbal"%string, eng, m) (supported (O := ExtOps E)) -> representable t ->
  exists la lo sp z, evaluated_cell E uc (at_times [Some t]) (Scalar (Fin la)) (Scalar (Fin lo)) "iqbal" RTrue eng sp 0 0 0 t la lo /\
    value (sp_zenith sp) (idx uc 0 0 0) z /\ z < -0.00017.
Proof.
  intros HE Hin Ht. destruct (time_value E _ _ m _ Hin (sec_range t Ht)) as (d & eot & ecf & V1 & V2 & V3 & Hd & _).
  destruct (lon_for ((15 * (utc_hours t - 12) + eot / 4) * (PI / 180)) 0) as (lo & n & Ho & Hh).
  set (la := d * (180 / PI)). assert (Hp : 3.14 < PI < 3.1416) by (split; interval).
  assert (Ha : -90 <= la <= 90).
  { unfold la. assert (57 < 180 / PI < 58) by (split; interval). split; nra. }
  destruct (cell_value E t la lo Ht Ha ltac:(lra) "iqbal" eng m d eot ecf Hin (or_introl HE) V1 V2 V3) as (h & z & a & _ & W1 & W2 & W3 & W4 & W5).
  destruct (one_cell E uc t la lo "iqbal" RTrue eng m Hin Ht Ha Ho) as (sp & Hsp).
  destruct (cell_get _ _ _ _ _ _ _ _ _ _ _ _ _ _ _ m Hsp Hin) as [Hg _]; [intros _ _; exact HE|].
  rewrite W5 in Hg. cbn [is_True fst] in Hg.
  assert (Hc : cos h = 1).
  { destruct W1 as (k & Hk). unfold hour_tol in Hk. cbn [String.eqb Ascii.eqb Bool.eqb] in Hk.
    apply Rabs_le_inv in Hk. change (used E "iqbal" lo) with (rnd E lo) in Hk. rewrite HE in Hk. unfold solar_hour_angle in Hk.
    replace h with (0 - 2 * PI * IZR (- (n + k))) by (rewrite opp_IZR, plus_IZR; lra). rewrite cos_2kpi. apply cos_0. }
  assert (z = 0).
  { destruct W2 as (z0 & Z1 & Z2 & Z3 & _). change (used E "iqbal" la) with (rnd E la) in Z2. rewrite HE in Z2.
    assert (U : sun_U (la * (PI / 180)) d h = 1).
    { unfold la. replace (d * (180 / PI) * (PI / 180)) with d by (field; lra). unfold sun_U. rewrite Hc. pose proof (sc1 d). lra. }
    rewrite U in Z2. change (cos_tol "iqbal" eng) with 0 in Z2. change (parallax_coef "iqbal") with 0 in Z3. apply Rabs_le_inv in Z2.
    assert (cos z0 = 1) by lra. assert (z0 = 0); [|lra]. rewrite <- (acos_cos z0) by lra. rewrite H. apply acos_1. }
  subst z. change (refracted E "iqbal" 0) with (i_refr 0) in Hg. rewrite i_refr_R in Hg.
  exists la, lo, sp, (0 - iq_corr (PI / 2 - 0)). split; [exact Hsp|]. split; [exact Hg|].
  replace (PI / 2 - 0) with (PI / 2) by ring. pose proof iq_overhead. lra.
Qed.
