(** * PropSingle: positions under IEEE single precision (C68, and C04, C18, C20, C28, C29 without ideal rounding) *)

From Coq Require Import ZArith QArith Reals Bool List String Lra Lia.
From Flocq Require Import Core.Raux.
From Interval Require Import Tactic.
From Verif Require Import Num Arrays Libspa Time Core Usecases Spec GenericLemmas GenericLemmas2 Ext ExtLemmas
  Sky SkyClose AstroTac AstroSpec SingleSpec SingleLemmas SingleCell Astro AstroCell AstroCall AstroRefute EngineLemmas Float32 Float32L
  Psa PsaR PsaCell Soltrack SoltrackR SoltrackCell Iqbal IqbalR.
From Verif Require PropAstro.
Import ListNotations.
Open Scope R_scope.

(** ** Changing the hour angle *)
Lemma sun_W_turn phi d h h' e : near_turn h h' e -> Rabs (sun_W phi d h - sun_W phi d h') <= e.
Proof.
  intros (k & Hk). unfold sun_W. rewrite <- Rmult_minus_distr_l.
  replace (sin h') with (sin (h' + 2 * PI * IZR k)) by (replace (h' + 2 * PI * IZR k) with (h' - 2 * PI * IZR (- k)) by (rewrite opp_IZR; ring); apply sin_2kpi).
  rewrite Rmult_comm. apply mul1; [|apply COS_bound]. eapply Rle_trans; [apply sin_lip|]. eapply Rle_trans; [|exact Hk]. right. f_equal. ring.
Qed.
Lemma sun_S_turn phi d h h' e : near_turn h h' e -> Rabs (sun_S phi d h - sun_S phi d h') <= e.
Proof.
  intros (k & Hk). unfold sun_S. replace (_ - _) with ((cos h - cos h') * (sin phi * cos d)) by ring.
  replace (cos h') with (cos (h' + 2 * PI * IZR k)) by (replace (h' + 2 * PI * IZR k) with (h' - 2 * PI * IZR (- k)) by (rewrite opp_IZR; ring); apply cos_2kpi).
  apply mul1; [|pose proof (SIN_bound phi); pose proof (COS_bound d); split; nra].
  eapply Rle_trans; [apply cos_lip|]. eapply Rle_trans; [|exact Hk]. right. f_equal. ring.
Qed.
Lemma abs3 a b c e f : Rabs (a - b) <= e -> Rabs (b - c) <= f -> Rabs (a - c) <= e + f.
Proof. intros H1 H2. replace (a - c) with ((a - b) + (b - c)) by ring. eapply Rle_trans; [apply Rabs_triang|]. lra. Qed.
Lemma near_azimuth_turn t e a phi d h h' : near_turn h h' e -> near_azimuth t a phi d h -> near_azimuth (t + e) a phi d h'.
Proof.
  intros Hn (rho & H0 & H1 & H2). exists rho. split; [exact H0|].
  split; eapply abs3; [exact H1|now apply sun_S_turn|exact H2|now apply sun_W_turn].
Qed.
Lemma near_zenith_turn t e k z phi d h h' : near_turn h h' e -> near_zenith t k z phi d h -> near_zenith (t + e) k z phi d h'.
Proof.
  intros Hn (z0 & H0 & H1 & H2). exists z0. split; [exact H0|]. split; [|exact H2]. eapply abs3; [exact H1|now apply sun_U_turn].
Qed.
Lemma zenith_within_turn t e k sp ix phi d h h' : near_turn h h' e -> zenith_within t k sp ix phi d h -> zenith_within (t + e) k sp ix phi d h'.
Proof.
  intros Hn [(z & H1 & H2 & H3)|[H1 H2]].
  - left. exists z. split; [exact H1|]. split; [exact H2|]. eapply near_zenith_turn; eassumption.
  - right. split; [exact H1|]. assert (H := sun_U_turn phi d h h' e Hn). apply Rabs_le_inv in H. 
    unfold Rabs in *. destruct (Rcase_abs (sun_U phi d h)), (Rcase_abs (sun_U phi d h')); lra.
Qed.
Lemma azimuth_within_turn t e sp ix phi d h h' : near_turn h h' e -> azimuth_within t sp ix phi d h -> azimuth_within (t + e) sp ix phi d h'.
Proof. intros Hn (a & H1 & H2 & H3). exists a. split; [exact H1|]. split; [exact H2|]. eapply near_azimuth_turn; eassumption. Qed.

(** ** One call *)
Lemma call_single E uc times lat lon alg refr eng sp k j i t la lo :
  float32_like E -> alg <> "nrel"%string -> evaluated_cell E uc times lat lon alg refr eng sp k j i t la lo ->
  exists d eot h a, value (sp_declination sp) [k] d /\ value (sp_eot sp) [k] eot /\
    near_turn h (solar_hour_angle t lo eot) (hour_tol alg + 4 / 10000000) /\
    near_turn h (hour_angle_of alg eng (nem E) t lo) (4 / 10000000) /\
    value (sp_azimuth sp) (idx uc k j i) a /\ azimuth_in_turn alg a /\ near_azimuth (single_tol alg eng la) a (la * (PI / 180)) d h /\
    ((exists z, near_zenith (single_tol alg eng la) (parallax_coef alg) z (la * (PI / 180)) d h /\ 0 <= z <= PI /\
        get (sp_zenith sp) (idx uc k j i) = Some (if is_True refr then refracted E alg z else Fin z))
     \/ (zenith_always alg eng = false /\ 1 - single_tol alg eng la < Rabs (sun_U (la * (PI / 180)) d h) /\
         get (sp_zenith sp) (idx uc k j i) = Some NaN)).
Proof.
  intros HE Hn [(Hc & Hk & Ht) Hi].
  destruct (call_supported _ _ _ _ _ _ _ _ _ Hc) as (m & Hin). destruct (call_bounds E true uc times lat lon alg refr eng sp k Hc j i la lo Hi) as [Ba Bo].
  destruct (dispatch_lemma (O := ExtOps E) true uc times lat lon alg refr eng sp m k t (Fin la) (Fin lo) Hc Hin Hk) as (H1 & H2 & H3 & Hcell).
  destruct (Hcell j i Hi) as [Hz Ha]. clear Hcell. fold (sec_of t) in *.
  destruct (time_value E alg eng m _ Hin (sec_range t Ht)) as (d & eot & ecf & V1 & V2 & V3 & V).
  destruct (single_cell E HE t la lo Ht Ba ltac:(lra) alg eng m uc d eot ecf Hin Hn V1 V2 V3) as (h & a & W1 & W2 & W3 & W4 & W5).
  exists d, eot, h, a. rewrite V1 in H3. rewrite V2 in H2.
  split; [exact H3|]. split; [exact H2|]. split; [exact W1|]. split; [exact W2|].
  destruct W5 as [(z & Z1 & Z2 & Z3)|(Z1 & Z2 & Z3)]; rewrite Z3 in Hz, Ha; cbn [fst snd] in Hz, Ha.
  - split; [exact Ha|]. split; [exact W4|]. split; [exact W3|]. left. exists z. auto.
  - split; [exact Ha|]. split; [exact W4|]. split; [exact W3|]. right. split; [|auto].
    destruct Z1 as [-> |[-> ->]]; reflexivity.
Qed.
Lemma in_turn_wide alg a : azimuth_in_turn alg a -> - PI <= a <= PI.
Proof. unfold azimuth_in_turn. destruct (String.eqb alg "psa" || String.eqb alg "iqbal")%bool; lra. Qed.

(** ** C68: with IEEE float32 coordinates and latitude functions, the returned position is that of the sun at the returned
    declination and equation of time, seen from the given place, within single_tol *)
Theorem C68_single_precision : forall E uc times lat lon alg refr eng sp k j i t la lo,
  float32_like E -> alg <> "nrel"%string ->
  evaluated_cell E uc times lat lon alg refr eng sp k j i t la lo ->
  exists d eot h,
    value (sp_declination sp) [k] d /\ value (sp_eot sp) [k] eot /\
    near_turn h (solar_hour_angle t lo eot) (hour_tol alg + 4 / 10000000) /\
    azimuth_within (single_tol alg eng la) sp (idx uc k j i) (la * (PI / 180)) d h /\
    (is_True refr = false ->
       zenith_within (single_tol alg eng la) (parallax_coef alg) sp (idx uc k j i) (la * (PI / 180)) d h /\
       (zenith_always alg eng = true -> get (sp_zenith sp) (idx uc k j i) <> Some NaN)).
Proof.
  intros E uc times lat lon alg refr eng sp k j i t la lo HE Hn Hcell.
  destruct (call_single _ _ _ _ _ _ _ _ _ _ _ _ _ _ _ HE Hn Hcell) as (d & eot & h & a & H1 & H2 & H3 & _ & H4 & H5 & H6 & H7).
  exists d, eot, h. split; [exact H1|]. split; [exact H2|]. split; [exact H3|]. split.
  { exists a. split; [exact H4|]. split; [exact (in_turn_wide _ _ H5)|exact H6]. }
  intros Hr. rewrite Hr in H7. destruct H7 as [(z & Z1 & Z2 & Z3)|(Z1 & Z2 & Z3)].
  - split; [left; exists z; auto|]. intros _. rewrite Z3. discriminate.
  - split; [right; auto|]. rewrite Z1. discriminate.
Qed.

(** ** The direction does not depend on engine, use case, position in the request, nor on the rounding (an exact
    arithmetic is float32_like too) *)
Lemma hour_engines alg eng eng' E E' t lo : representable t -> near_turn (hour_angle_of alg eng (nem E) t lo) (hour_angle_of alg eng' (nem E') t lo) 0 \/ alg = "nrel"%string \/ ~ In alg ["psa"; "soltrack"; "iqbal"]%string.
Proof.
  intros Ht. assert (Hs := sec_range t Ht).
  assert (M : forall e F, mod_spec (if String.eqb e "numpy" then Rfloor_mod else nem F)) by (intros e F; destruct (String.eqb e "numpy"); [apply floor_mod_mod_spec|apply nem_mod_spec]).
  unfold hour_angle_of. set (mo := if String.eqb eng "numpy" then _ else _). set (mo' := if String.eqb eng' "numpy" then _ else _).
  assert (M1 : mod_spec mo) by apply M. assert (M2 : mod_spec mo') by apply M.
  destruct (String.eqb alg "psa") eqn:E1; [|destruct (String.eqb alg "soltrack") eqn:E2; [|destruct (String.eqb alg "iqbal") eqn:E3]].
  - left. destruct (M1 (IZR (sec_of t) / #86400) #1) as (k1 & K1 & _); [q2r|]. destruct (M2 (IZR (sec_of t) / #86400) #1) as (k2 & K2 & _); [q2r|].
    exists (k2 - k1)%Z. unfold c_H, p_gmst, p_dh. rewrite K1, K2, minus_IZR.
    match goal with |- Rabs ?x <= 0 => replace x with 0 by (q2; field) end. rewrite Rabs_R0. lra.
  - left. destruct (t_ra_turn mo mo' (IZR (sec_of t)) M1 M2) as (k & Hk). exists k. unfold s_H. rewrite Hk.
    match goal with |- Rabs ?x <= 0 => replace x with 0 by ring end. rewrite Rabs_R0. lra.
  - left. exists 0%Z. match goal with |- Rabs ?x <= 0 => replace x with 0 by ring end. rewrite Rabs_R0. lra.
  - right. right. cbn. intros [<-|[<-|[<-|[]]]]; discriminate.
Qed.

Definition dec_R (alg : string) (mo : R -> R -> R) (t : Z) : R :=
  if String.eqb alg "psa" then p_delta (IZR t) else if String.eqb alg "soltrack" then t_dec mo (IZR t) else i_dec t.
Definition eot_R (alg : string) (mo : R -> R -> R) (t : Z) : R :=
  if String.eqb alg "psa" then p_eot (IZR t) else if String.eqb alg "soltrack" then t_eot mo (IZR t) else i_eoth t * #60.
Lemma time_R E alg eng m t : In (alg, eng, m) (supported (O := ExtOps E)) -> in_ns_range (IZR t) -> alg <> "nrel"%string ->
  exists mo, mod_spec mo /\ lib_dec m (lib_time m t) = Fin (dec_R alg mo t) /\ lib_eot m (lib_time m t) = Fin (eot_R alg mo t).
Proof.
  intros Hin Hs Hn. cbn [supported In] in Hin.
  destruct Hin as [H|[H|[H|[H|[H|[H|[H|[]]]]]]]]; injection H as <- <- <-;
    cbn [py_psa ne_psa py_soltrack ne_soltrack py_iqbal ne_iqbal lib_dec lib_time lib_eot].
  - exists Rfloor_mod. split; [apply floor_mod_mod_spec|]. change (ofZ (Ops := ExtOps E) t) with (Fin (IZR t)). rewrite py_psa_time_R by exact Hs. split; reflexivity.
  - exists Rfloor_mod. split; [apply floor_mod_mod_spec|]. change (ofZ (Ops := ExtOps E) t) with (Fin (IZR t)). rewrite ne_psa_time_R' by exact Hs. split; reflexivity.
  - exists Rfloor_mod. split; [apply floor_mod_mod_spec|]. change (ofZ (Ops := ExtOps E) t) with (Fin (IZR t)). rewrite py_soltrack_time_R by exact Hs. split; reflexivity.
  - exists (nem E). split; [apply nem_mod_spec|]. change (ofZ (Ops := ExtOps E) t) with (Fin (IZR t)). rewrite ne_soltrack_time_R by exact Hs. split; reflexivity.
  - exists Rfloor_mod. split; [apply floor_mod_mod_spec|]. rewrite (proj2 (iq_time_R E t)). cbn [iq_dec iq_eot]. ext_ops. rewrite fin_mul. split; reflexivity.
  - exists Rfloor_mod. split; [apply floor_mod_mod_spec|]. rewrite (proj1 (iq_time_R E t)). cbn [iq_dec iq_eot]. ext_ops. rewrite fin_mul. split; reflexivity.
  - now contradiction Hn.
Qed.
Lemma time_same E E' alg eng eng' m m' t : In (alg, eng, m) (supported (O := ExtOps E)) ->
  In (alg, eng', m') (supported (O := ExtOps E')) -> in_ns_range (IZR t) -> alg <> "nrel"%string ->
  lib_dec m (lib_time m t) = lib_dec m' (lib_time m' t) /\ lib_eot m (lib_time m t) = lib_eot m' (lib_time m' t).
Proof.
  intros Hin Hin' Hs Hn.
  destruct (time_R E alg eng m t Hin Hs Hn) as (mo & M & -> & ->). destruct (time_R E' alg eng' m' t Hin' Hs Hn) as (mo' & M' & -> & ->).
  unfold dec_R, eot_R. now rewrite (t_dec_md _ _ _ M M'), (t_eot_md _ _ _ M M' Hs).
Qed.

Lemma ideal_like E : ideal E -> float32_like E.
Proof.
  intros H. split; [|split; [|split]].
  - intros x _. rewrite H, Rminus_diag_eq by reflexivity. rewrite Rabs_R0. lra.
  - intros x. rewrite H, Rminus_diag_eq by reflexivity. rewrite Rabs_R0. pose proof (Rabs_pos x). lra.
  - intros x y. now rewrite !H.
  - intros n _. apply H.
Qed.

(** Two evaluations of the same instant and place - by any engines, use cases, positions in any requests, and by any
    float32 arithmetics - describe one direction. *)
Theorem C68_same_direction : forall E E' uc uc' times times' lat lat' lon lon' alg refr refr' eng eng' sp sp' k k' j j' i i' t la lo,
  float32_like E -> float32_like E' -> alg <> "nrel"%string ->
  evaluated_cell E uc times lat lon alg refr eng sp k j i t la lo ->
  evaluated_cell E' uc' times' lat' lon' alg refr' eng' sp' k' j' i' t la lo ->
  exists d eot h,
    value (sp_declination sp) [k] d /\ value (sp_declination sp') [k'] d /\
    value (sp_eot sp) [k] eot /\ value (sp_eot sp') [k'] eot /\
    azimuth_within (single_tol alg eng la + 4 / 10000000) sp (idx uc k j i) (la * (PI / 180)) d h /\
    azimuth_within (single_tol alg eng' la + 4 / 10000000) sp' (idx uc' k' j' i') (la * (PI / 180)) d h /\
    (is_True refr = false -> zenith_within (single_tol alg eng la + 4 / 10000000) (parallax_coef alg) sp (idx uc k j i) (la * (PI / 180)) d h) /\
    (is_True refr' = false -> zenith_within (single_tol alg eng' la + 4 / 10000000) (parallax_coef alg) sp' (idx uc' k' j' i') (la * (PI / 180)) d h).
Proof.
  intros E E' uc uc' times times' lat lat' lon lon' alg refr refr' eng eng' sp sp' k k' j j' i i' t la lo HE HE' Hn C C'.
  destruct (call_single _ _ _ _ _ _ _ _ _ _ _ _ _ _ _ HE Hn C) as (d & eot & h & a & H1 & H2 & _ & H3 & H4 & H5 & H6 & H7).
  destruct (call_single _ _ _ _ _ _ _ _ _ _ _ _ _ _ _ HE' Hn C') as (d' & eot' & h' & a' & H1' & H2' & _ & H3' & H4' & H5' & H6' & H7').
  destruct C as [(Hc & Hk & Ht) Hi]. destruct C' as [(Hc' & Hk' & _) Hi'].
  destruct (call_supported _ _ _ _ _ _ _ _ _ Hc) as (m & Hin). destruct (call_supported _ _ _ _ _ _ _ _ _ Hc') as (m' & Hin').
  destruct (dispatch_lemma (O := ExtOps E) true uc _ _ _ _ _ _ sp m k t NaN NaN Hc Hin Hk) as (_ & A2 & A3 & _).
  destruct (dispatch_lemma (O := ExtOps E') true uc' _ _ _ _ _ _ sp' m' k' t NaN NaN Hc' Hin' Hk') as (_ & B2 & B3 & _).
  destruct (time_same E E' alg eng eng' m m' _ Hin Hin' (sec_range t Ht) Hn) as (T1 & T2). unfold sec_of in T1, T2.
  unfold value in H1, H1', H2, H2'. rewrite T1, <- B3, H1', H1 in A3. rewrite T2, <- B2, H2', H2 in A2. injection A3 as ->. injection A2 as ->.
  assert (N : near_turn h' (hour_angle_of alg eng (nem E) t lo) (4 / 10000000)).
  { destruct (hour_engines alg eng eng' E E' t lo Ht) as [N|[N|N]]; [|contradiction|].
    - eapply near_turn_le; [|eapply (near_turn_via h' _ _ _ _ _ 0 H3' N); rewrite Rminus_diag_eq by reflexivity; rewrite Rabs_R0; lra]. lra.
    - exfalso. clear - Hin Hn N. cbn [supported In] in Hin, N.
      destruct Hin as [H|[H|[H|[H|[H|[H|[H|[]]]]]]]]; injection H as <- _ _; tauto. }
  exists d', eot', (hour_angle_of alg eng (nem E) t lo).
  split; [exact H1|]. split; [exact H1'|]. split; [exact H2|]. split; [exact H2'|]. split; [|split; [|split]].
  - eapply azimuth_within_turn; [exact H3|]. exists a. split; [exact H4|]. split; [exact (in_turn_wide _ _ H5)|exact H6].
  - eapply azimuth_within_turn; [exact N|]. exists a'. split; [exact H4'|]. split; [exact (in_turn_wide _ _ H5')|exact H6'].
  - intros Hr. eapply zenith_within_turn; [exact H3|]. rewrite Hr in H7. destruct H7 as [(z & Z1 & Z2 & Z3)|(Z1 & Z2 & Z3)]; [left; exists z|right]; auto.
  - intros Hr. eapply zenith_within_turn; [exact N|]. rewrite Hr in H7'. destruct H7' as [(z & Z1 & Z2 & Z3)|(Z1 & Z2 & Z3)]; [left; exists z|right]; auto.
Qed.

(** ** What this means for the returned angles *)
(** Horizontal component of the sun's direction. *)
Definition horizontal (phi d h : R) : R := sqrt (sun_S phi d h ^ 2 + sun_W phi d h ^ 2).

Lemma cross_small x y a e : Rabs x <= e -> Rabs y <= e -> Rabs (x * sin a - y * cos a) <= 2 * e.
Proof.
  intros Hx Hy. unfold Rminus. eapply Rle_trans; [apply Rabs_triang|]. rewrite Rabs_Ropp.
  assert (Rabs (x * sin a) <= e) by (apply mul1; [exact Hx|apply SIN_bound]).
  assert (Rabs (y * cos a) <= e) by (apply mul1; [exact Hy|apply COS_bound]). lra.
Qed.
Lemma dot_small x y a e : Rabs x <= e -> Rabs y <= e -> Rabs (x * cos a + y * sin a) <= 2 * e.
Proof.
  intros Hx Hy. eapply Rle_trans; [apply Rabs_triang|].
  assert (Rabs (y * sin a) <= e) by (apply mul1; [exact Hy|apply SIN_bound]).
  assert (Rabs (x * cos a) <= e) by (apply mul1; [exact Hx|apply COS_bound]). lra.
Qed.
Lemma near_azimuth_angle tol a phi d h b :
  near_azimuth tol a phi d h ->
  sun_S phi d h = horizontal phi d h * cos b -> sun_W phi d h = horizontal phi d h * sin b ->
  horizontal phi d h * Rabs (sin (b - a)) <= 2 * tol /\ - (2 * tol) <= horizontal phi d h * cos (b - a).
Proof.
  intros (rho & H0 & H1 & H2) HS HW. set (w := horizontal phi d h) in *. assert (Hw : 0 <= w) by apply sqrt_pos.
  rewrite HS in H1. rewrite HW in H2. split.
  - assert (H := cross_small _ _ a _ H1 H2).
    replace ((rho * cos a - w * cos b) * sin a - (rho * sin a - w * sin b) * cos a) with (w * sin (b - a)) in H by (rewrite sin_minus; ring).
    rewrite Rabs_mult, (Rabs_pos_eq w) in H by exact Hw. exact H.
  - assert (H := dot_small _ _ a _ H1 H2).
    replace ((rho * cos a - w * cos b) * cos a + (rho * sin a - w * sin b) * sin a) with (rho - w * cos (b - a)) in H.
    2:{ rewrite cos_minus. pose proof (sc1 a) as Sa. transitivity (rho * (sin a * sin a + cos a * cos a) - w * (cos b * cos a + sin b * sin a)); [rewrite Sa|]; ring. }
    apply Rabs_le_inv in H. lra.
Qed.

(** Azimuths of one direction differ by no more than the tolerance over the horizontal component. *)
Theorem C68_azimuth_difference : forall phi d h a a' tol tol',
  near_azimuth tol a phi d h -> near_azimuth tol' a' phi d h ->
  horizontal phi d h * Rabs (sin (a - a')) <= 2 * (tol + tol') /\
  (4 * (tol + tol') < horizontal phi d h -> 0 < cos (a - a')).
Proof.
  intros phi d h a a' tol tol' Ha Ha'.
  destruct (Ratan2_polar (sun_W phi d h) (sun_S phi d h)) as [HS HW]. fold (horizontal phi d h) in HS, HW.
  set (b := Ratan2 _ _) in *. destruct (near_azimuth_angle _ _ _ _ _ b Ha HS HW) as [P1 P2]. destruct (near_azimuth_angle _ _ _ _ _ b Ha' HS HW) as [Q1 Q2].
  set (w := horizontal phi d h) in *. assert (Hw : 0 <= w) by apply sqrt_pos.
  replace (a - a') with ((b - a') - (b - a)) by ring. set (x := b - a) in *. set (y := b - a') in *.
  assert (T0 : 0 <= tol) by (destruct Ha as (? & _ & H & _); pose proof (Rabs_pos (x0 * cos a - sun_S phi d h)); lra).
  assert (T0' : 0 <= tol') by (destruct Ha' as (? & _ & H & _); pose proof (Rabs_pos (x0 * cos a' - sun_S phi d h)); lra).
  pose proof (sc1 x) as Sx. pose proof (sc1 y) as Sy. split.
  - rewrite sin_minus. assert (H := Rabs_triang (sin y * cos x) (- (cos y * sin x))). rewrite Rabs_Ropp in H.
    assert (H1 : Rabs (sin y * cos x) <= Rabs (sin y)) by (apply mul1; [lra|apply COS_bound]).
    assert (H2 : Rabs (cos y * sin x) <= Rabs (sin x)) by (rewrite Rmult_comm; apply mul1; [lra|apply COS_bound]).
    unfold Rminus. nra.
  - intros Hb. assert (Bx : Rabs (sin x) <= / 2) by nra. assert (By : Rabs (sin y) <= / 2) by nra.
    apply Rabs_le_inv in Bx, By.
    assert (Cx : 3 / 4 <= cos x * cos x) by nra. assert (Cy : 3 / 4 <= cos y * cos y) by nra.
    assert (Px : 0.8 < cos x) by nra. assert (Py : 0.8 < cos y) by nra.
    rewrite cos_minus. nra.
Qed.

Lemma parallax_lip k x y : 0 <= k <= 1 -> 0 <= x <= PI -> 0 <= y <= PI ->
  Rabs (cos (x + k * sin x) - cos (y + k * sin y)) <= (1 + k) * (1 + k) * Rabs (cos x - cos y).
Proof.
  intros Hk. assert (W : forall x y, 0 <= x <= PI -> 0 <= y <= PI -> x < y ->
    Rabs (cos (x + k * sin x) - cos (y + k * sin y)) <= (1 + k) * (1 + k) * Rabs (cos x - cos y)).
  2:{ intros Hx Hy. destruct (Rtotal_order x y) as [H|[->|H]]; [now apply W| |].
      - rewrite !Rminus_diag_eq by reflexivity. rewrite Rabs_R0. lra.
      - rewrite (Rabs_minus_sym (cos (x + _))), (Rabs_minus_sym (cos x)). now apply W. }
  clear x y. intros x y Hx Hy Hxy.
  set (f := fun u => cos (u + k * sin u)).
  assert (Df : forall u, derivable_pt_lim f u (- sin (u + k * sin u) * (1 + k * cos u))).
  { intros u. apply (derivable_pt_lim_comp (fun u => u + k * sin u) cos).
    - apply (derivable_pt_lim_plus id (fun u => k * sin u)); [apply derivable_pt_lim_id|].
      apply (derivable_pt_lim_scal sin). apply derivable_pt_lim_sin.
    - apply derivable_pt_lim_cos. }
  assert (D : forall g g', (forall u, derivable_pt_lim g u (g' u)) -> forall u, derivable_pt g u) by (intros g g' Hg u; exists (g' u); apply Hg).
  assert (Df' := D f _ Df). assert (Dc := D cos (fun u => - sin u) derivable_pt_lim_cos). clear D.
  destruct (MVT f cos x y (fun c _ => Df' c) (fun c _ => Dc c) Hxy) as (c & Hc & M).
  - intros u _. now apply derivable_continuous_pt.
  - intros u _. now apply derivable_continuous_pt.
  - rewrite (derive_pt_eq_0 f c _ (Df' c) (Df c)) in M. rewrite (derive_pt_eq_0 cos c _ (Dc c) (derivable_pt_lim_cos c)) in M.
    assert (Sc : 0 < sin c) by (apply sin_gt_0; lra).
    assert (B : Rabs (sin (c + k * sin c)) <= (1 + k) * sin c).
    { rewrite sin_plus. eapply Rle_trans; [apply Rabs_triang|].
      assert (H1 : Rabs (sin c * cos (k * sin c)) <= sin c) by (apply mul1; [rewrite Rabs_pos_eq; lra|apply COS_bound]).
      assert (H2 : Rabs (cos c * sin (k * sin c)) <= k * sin c).
      { rewrite Rmult_comm. apply mul1; [|apply COS_bound]. assert (H := sin_lip (k * sin c) 0). rewrite sin_0, !Rminus_0_r in H.
        rewrite (Rabs_pos_eq (k * sin c)) in H by nra. exact H. }
      lra. }
    change (cos (x + k * sin x)) with (f x). change (cos (y + k * sin y)) with (f y).
    assert (EqM : (f x - f y) * sin c = (cos x - cos y) * (sin (c + k * sin c) * (1 + k * cos c))) by lra.
    apply Rmult_le_reg_r with (sin c); [exact Sc|].
    rewrite <- (Rabs_pos_eq (sin c)) at 1 by lra. rewrite <- Rabs_mult, EqM, !Rabs_mult.
    assert (B2 : Rabs (1 + k * cos c) <= 1 + k) by (pose proof (COS_bound c); apply Rabs_le; split; nra).
    assert (H : Rabs (sin (c + k * sin c)) * Rabs (1 + k * cos c) <= (1 + k) * sin c * (1 + k)) by (apply Rmult_le_compat; try apply Rabs_pos; assumption).
    pose proof (Rabs_pos (cos x - cos y)). nra.
Qed.

(** Zenith angles of one direction. *)
Theorem C68_zenith_difference : forall phi d h k z z' tol tol', 0 <= k <= 1 / 10000 ->
  near_zenith tol k z phi d h -> near_zenith tol' k z' phi d h ->
  Rabs (cos z - cos z') <= 1.001 * (tol + tol').
Proof.
  intros phi d h k z z' tol tol' Hk (x & X1 & X2 & ->) (y & Y1 & Y2 & ->).
  eapply Rle_trans; [apply parallax_lip; [lra|exact X1|exact Y1]|]. rewrite Rabs_minus_sym in Y2.
  assert (H := abs3 _ _ _ _ _ X2 Y2). pose proof (Rabs_pos (cos x - cos y)).
  assert ((1 + k) * (1 + k) <= 1.001) by nra. nra.
Qed.

(** ** C28, C29, C04: engines and use cases in IEEE single precision *)
Definition agree_tol (alg eng eng' : string) (la : R) : R := single_tol alg eng la + single_tol alg eng' la + 8 / 10000000.
Theorem C68_agreement : forall E uc uc' times times' lat lat' lon lon' alg refr refr' eng eng' sp sp' k k' j j' i i' t la lo,
  float32_like E -> alg <> "nrel"%string ->
  evaluated_cell E uc times lat lon alg refr eng sp k j i t la lo ->
  evaluated_cell E uc' times' lat' lon' alg refr' eng' sp' k' j' i' t la lo ->
  exists d h a a',
    value (sp_declination sp) [k] d /\ value (sp_declination sp') [k'] d /\
    value (sp_azimuth sp) (idx uc k j i) a /\ value (sp_azimuth sp') (idx uc' k' j' i') a' /\
    horizontal (la * (PI / 180)) d h * Rabs (sin (a - a')) <= 2 * agree_tol alg eng eng' la /\
    (4 * agree_tol alg eng eng' la < horizontal (la * (PI / 180)) d h -> 0 < cos (a - a')) /\
    (forall z z', is_True refr = false -> is_True refr' = false ->
       value (sp_zenith sp) (idx uc k j i) z -> value (sp_zenith sp') (idx uc' k' j' i') z' ->
       Rabs (cos z - cos z') <= 1.001 * agree_tol alg eng eng' la) /\
    (is_True refr = false -> get (sp_zenith sp) (idx uc k j i) = Some NaN ->
       zenith_always alg eng = false /\ horizontal (la * (PI / 180)) d h <= 3 / 100).
Proof.
  intros E uc uc' times times' lat lat' lon lon' alg refr refr' eng eng' sp sp' k k' j j' i i' t la lo HE Hn C C'.
  assert (Hal : zenith_always alg eng = true -> is_True refr = false -> get (sp_zenith sp) (idx uc k j i) <> Some NaN).
  { intros Z Hr. destruct (C68_single_precision _ _ _ _ _ _ _ _ _ _ _ _ _ _ _ HE Hn C) as (? & ? & ? & _ & _ & _ & _ & H). now apply H. }
  destruct (C68_same_direction E E uc uc' times times' lat lat' lon lon' alg refr refr' eng eng' sp sp' k k' j j' i i' t la lo HE HE Hn C C')
    as (d & eot & h & H1 & H1' & _ & _ & (a & A1 & A2 & A3) & (a' & A1' & A2' & A3') & Z & Z').
  exists d, h, a, a'. split; [exact H1|]. split; [exact H1'|]. split; [exact A1|]. split; [exact A1'|].
  destruct (C68_azimuth_difference _ _ _ _ _ _ _ A3 A3') as [D1 D2]. unfold agree_tol.
  split; [lra|]. split; [intros Hh; apply D2; lra|]. split.
  - intros z z' Hr Hr' Vz Vz'. specialize (Z Hr). specialize (Z' Hr'). unfold zenith_within, value in *.
    destruct Z as [(y & Y1 & _ & Y3)|[Y1 _]]; [|rewrite Y1 in Vz; discriminate Vz].
    destruct Z' as [(y' & Y1' & _ & Y3')|[Y1' _]]; [|rewrite Y1' in Vz'; discriminate Vz'].
    rewrite Y1 in Vz. rewrite Y1' in Vz'. injection Vz as ->. injection Vz' as ->.
    eapply Rle_trans; [eapply (C68_zenith_difference _ _ _ (parallax_coef alg)); [|exact Y3|exact Y3']|lra].
    unfold parallax_coef. destruct (String.eqb alg "psa"), (String.eqb alg "soltrack"); lra.
  - intros Hr Vn. split.
    { destruct (zenith_always alg eng) eqn:Ez; [|reflexivity]. now contradiction (Hal eq_refl Hr). }
    destruct (Z Hr) as [(y & Y1 & _)|[_ Y2]]; [unfold value in Y1; rewrite Y1 in Vn; discriminate Vn|].
    assert (T : single_tol alg eng la + 4 / 10000000 <= 4.1 / 10000).
    { unfold single_tol. destruct (String.eqb alg "soltrack" && String.eqb eng "numpy")%bool; [destruct (Rle_dec (Rabs la) 80)|]; lra. }
    assert (U := sun_unit (la * (PI / 180)) d h). assert (Hu : 1 - 8.2 / 10000 <= sun_U (la * (PI / 180)) d h ^ 2).
    { replace (sun_U (la * (PI / 180)) d h ^ 2) with (Rabs (sun_U (la * (PI / 180)) d h) ^ 2) by (rewrite pow2_abs; reflexivity).
      assert (1 - 4.1 / 10000 <= Rabs (sun_U (la * (PI / 180)) d h)) by lra. nra. }
    unfold horizontal. rewrite <- (sqrt_pow2 (3 / 100)) by lra. apply sqrt_le_1_alt. lra.
Qed.

(** ** C20 for every float32 arithmetic *)
Theorem C20_azimuth_range : forall E uc times lat lon alg refr eng sp k j i t la lo,
  float32_like E ->
  evaluated_cell E uc times lat lon alg refr eng sp k j i t la lo ->
  exists a, value (sp_azimuth sp) (idx uc k j i) a /\
    (alg = "psa"%string \/ alg = "iqbal"%string -> - PI <= a < PI) /\
    (alg = "soltrack"%string \/ alg = "nrel"%string -> - PI < a <= PI).
Proof.
  intros E uc times lat lon alg refr eng sp k j i t la lo HE C.
  assert (exists a, value (sp_azimuth sp) (idx uc k j i) a /\ azimuth_in_turn alg a) as (a & H1 & H2).
  { destruct (String.eqb_spec alg "nrel") as [->|Hn].
    - destruct C as [(Hc & Hk & Ht) Hi].
      destruct (call_range E true uc times lat lon "nrel" refr eng sp k t Hc Hk Ht j i la lo Hi) as (z & a & H1 & H2 & H3 & H4); [left; right; now left|].
      exists a. now split.
    - destruct (call_single _ _ _ _ _ _ _ _ _ _ _ _ _ _ _ HE Hn C) as (d & eot & h & a & _ & _ & _ & _ & H4 & H5 & _). exists a. now split. }
  exists a. split; [exact H1|]. split; intros [-> | ->]; exact H2.
Qed.

(** ** C18 for every float32 arithmetic, except soltrack/numpy and iqbal *)
Theorem C18_float32_partial : forall E uc times lat lon alg refr eng sp k j i t la lo,
  float32_like E -> is_True refr = false ->
  evaluated_cell E uc times lat lon alg refr eng sp k j i t la lo ->
  (exists z, value (sp_zenith sp) (idx uc k j i) z /\ 0 <= z <= PI)
  \/ (get (sp_zenith sp) (idx uc k j i) = Some NaN /\ zenith_always alg eng = false /\ alg <> "nrel"%string /\
      exists d eot h, value (sp_declination sp) [k] d /\ value (sp_eot sp) [k] eot /\
        near_turn h (solar_hour_angle t lo eot) (hour_tol alg + 4 / 10000000) /\
        1 - single_tol alg eng la < Rabs (sun_U (la * (PI / 180)) d h)).
Proof.
  intros E uc times lat lon alg refr eng sp k j i t la lo HE Hr C.
  destruct (String.eqb_spec alg "nrel") as [->|Hn].
  - destruct C as [(Hc & Hk & Ht) Hi].
    destruct (call_range E true uc times lat lon "nrel" refr eng sp k t Hc Hk Ht j i la lo Hi) as (z & a & H1 & H2 & H3 & H4); [left; right; now left|].
    rewrite Hr in H1. left. exists z. now split.
  - destruct (call_single _ _ _ _ _ _ _ _ _ _ _ _ _ _ _ HE Hn C) as (d & eot & h & a & H1 & H2 & H3 & _ & _ & _ & _ & H7).
    rewrite Hr in H7. destruct H7 as [(z & Z1 & Z2 & Z3)|(Z1 & Z2 & Z3)]; [left; exists z; now split|].
    right. split; [exact Z3|]. split; [exact Z1|]. split; [exact Hn|]. exists d, eot, h. auto.
Qed.

(** IEEE binary32 is such an arithmetic, and the example cells of C18 are evaluated by it. *)
Example w_single uc refr : float32_like float32_env /\
  exists sp, evaluated_cell float32_env uc (at_times [Some PropAstro.w_t]) (Scalar (Fin 40)) (Scalar (Fin (-3))) "iqbal" refr "numexpr" sp 0 0 0 PropAstro.w_t 40 (-3).
Proof.
  split; [exact r32_like|]. apply (one_cell float32_env uc PropAstro.w_t 40 (-3) "iqbal" refr "numexpr" (ne_iqbal (O := ExtOps float32_env))); [do 5 right; left; reflexivity| |lra|lra].
  apply PropAstro.w_t_representable.
Qed.
