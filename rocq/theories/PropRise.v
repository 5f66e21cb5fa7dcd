(** * PropRise: sunrise and sunset move four minutes per degree of longitude and slowly with the season (C95), in double precision *)
From Coq Require Import ZArith QArith Reals Bool List String Lra Lia.
From Flocq Require Import Core.Raux.
From Interval Require Import Tactic.
From Verif Require Import Num Arrays Libspa Time Core Usecases Spec GenericLemmas GenericLemmas2 TimeLemmas Ext ExtLemmas Witness
  AstroTac Sky SkyClose AstroSpec Astro AstroCell AstroCall Float32 PropAstro Sunpos SunposSpec SunposLemmas SunposR PropSunpos
  CalendarSpec CalendarLemmas PropCalendar SeasonSpec PropSeasons Almanac AlmanacPos SingleSpec SingleLemmas PropSinglePos PropSmooth
  Double DoubleSpec DoublePos PropDouble PropDoublePos TopoSpec PropNrelD SunposE SunposD PropSunposD DayR PropDay PropClimb PropNoon PropPipeline PropTrack PropAirmass PropEarth Float64.
Import ListNotations.
Open Scope R_scope.

(** ** How the half day depends on the declination *)
Lemma acos_slope w w' : 0 <= w <= 3.2 -> 0 <= w' <= 3.2 -> Rabs (cos w) <= 0.7581 -> Rabs (cos w') <= 0.7581 -> Rabs (w - w') <= 1.535 * Rabs (cos w - cos w').
Proof.
  assert (R : forall x, 0 <= x <= 3.2 -> Rabs (cos x) <= 0.7581 -> 0.7102 <= x <= 2.4314).
  { intros x Bx H. apply Rabs_le_inv in H. split; apply Rnot_lt_le; intros L.
    - assert (0.7582 <= cos x) by (assert (B : 0 <= x <= 0.7102) by lra; clear - B; interval with (i_bisect x)). lra.
    - assert (cos x <= -0.7582) by (assert (B : 2.4314 <= x <= 3.2) by lra; clear - B; interval with (i_bisect x)). lra. }
  intros B B' H H'. assert (K := R w B H). assert (K' := R w' B' H').
  assert (G : forall a b, 0.7102 <= a <= 2.4314 -> 0.7102 <= b <= 2.4314 -> a < b -> b - a <= 1.535 * (cos a - cos b)).
  { clear. intros a b Ba Bb L. destruct (MVT_cor2 cos (fun x => - sin x) a b L) as (c & Hc & Bc). { intros. apply derivable_pt_lim_cos. }
    assert (S : 0.6518 <= sin c) by (assert (B : 0.7102 <= c <= 2.4314) by lra; clear - B; interval with (i_bisect c)).
    assert (E : cos a - cos b = sin c * (b - a)) by lra. rewrite E. nra. }
  destruct (Rtotal_order w w') as [L|[->|L]].
  - assert (Q := G w w' K K' L). rewrite Rabs_left, Rabs_pos_eq; [lra| |lra]. assert (0 < w' - w) by lra. lra.
  - rewrite !Rminus_diag_eq by reflexivity. rewrite Rabs_R0. lra.
  - assert (Q := G w' w K' K L). rewrite Rabs_pos_eq by lra. rewrite Rabs_left; lra.
Qed.
Lemma half_day_slope la d d' w w' e : Rabs la <= 60 -> Rabs d <= rad 23.62 -> Rabs d' <= rad 23.62 -> 0 <= w <= 3.2 -> 0 <= w' <= 3.2 ->
  Rabs (sun_U (rad la) d w) <= / 10 ^ 14 -> Rabs (sun_U (rad la) d' w') <= / 10 ^ 14 -> Rabs (d - d') <= e -> Rabs (w - w') <= 3.36 * e + / 1000000000.
Proof.
  intros Bl Bd Bd' Bw Bw' H H' He. assert (E := dec_height (rad la) d d' w). apply Rabs_le_inv in Bl.
  assert (Cl : 0.5 <= cos (rad la)).
  { replace 0.5 with (cos (PI / 3)) by (rewrite cos_PI3; lra). assert (P := PI_RGT_0). destruct (Rle_dec 0 la).
    - apply cos_decr_1; unfold rad; nra.
    - rewrite <- (cos_neg (rad la)). apply cos_decr_1; unfold rad; nra. }
  assert (Sl : Rabs (sin (rad la)) <= 0.86603) by (assert (S := sc1 (rad la)); assert (A := abs_sq (sin (rad la))); pose proof (Rabs_pos (sin (rad la))); nra).
  assert (CD : forall x, Rabs x <= rad 23.62 -> 0.9162 <= cos x /\ Rabs (sin x) <= 0.4007).
  { clear. intros x Bx. assert (B : Rabs x <= 0.41225) by (eapply Rle_trans; [exact Bx|unfold rad; interval]). apply Rabs_le_inv in B. clear Bx. split; [interval|apply Rabs_le; split; interval]. }
  destruct (CD d Bd) as [Cd Sd]. destruct (CD d' Bd') as [Cd' Sd']. clear CD.
  assert (Kc : forall x v, 0.9162 <= cos x -> Rabs (sin x) <= 0.4007 -> Rabs (sun_U (rad la) x v) <= / 10 ^ 14 -> Rabs (cos v) <= 0.7581).
  { intros x v Cx Sx Hx. unfold sun_U in Hx. assert (P1 : 0.4581 <= cos (rad la) * cos x) by (apply Rle_trans with (0.5 * 0.9162); [lra|apply Rmult_le_compat; lra]).
    assert (P2 : Rabs (sin (rad la) * sin x) <= 0.34703) by (rewrite Rabs_mult; apply Rle_trans with (0.86603 * 0.4007); [apply Rmult_le_compat; try apply Rabs_pos; assumption|lra]).
    apply Rabs_le_inv in Hx, P2. assert (/ 10 ^ 14 <= 0.00000001) by lra. set (p := cos (rad la) * cos x) in *. set (q := sin (rad la) * sin x) in *. clearbody p q. apply Rabs_le. split; nra. }
  assert (K := Kc d w Cd Sd H). assert (K' := Kc d' w' Cd' Sd' H'). eapply Rle_trans; [apply (acos_slope w w' Bw Bw' K K')|].
  assert (U : Rabs (sun_U (rad la) d' w - sun_U (rad la) d' w') <= e + 2 / 10 ^ 14) by (apply Rabs_le_inv in H, H', E, He; apply Rabs_le; assert (X := Rabs_pos (d - d')); unfold Rabs in *; repeat destruct (Rcase_abs _) in *; lra).
  replace (sun_U (rad la) d' w - sun_U (rad la) d' w') with (cos (rad la) * cos d' * (cos w - cos w')) in U by (unfold sun_U; ring).
  rewrite !Rabs_mult, (Rabs_pos_eq (cos (rad la))), (Rabs_pos_eq (cos d')) in U by lra.
  assert (P1 : 0.4581 <= cos (rad la) * cos d') by (apply Rle_trans with (0.5 * 0.9162); [lra|apply Rmult_le_compat; lra]).
  assert (X := Rabs_pos (cos w - cos w')). assert (0.4581 * Rabs (cos w - cos w') <= e + 2 / 10 ^ 14) by nra. lra.
Qed.

(** ** The times of a cell, with its own true solar time *)
Lemma the_same r k j i (x y : option Z) : instant_of r k j i x -> instant_of r k j i y -> x = y.
Proof. intros (a & A1 & A2) (b & B1 & B2). rewrite A1 in B1. injection B1 as <-. exact (reads_fun _ _ _ _ _ _ A2 B2). Qed.
Lemma rise_set D nf uc times lat lon alg refr eng sp k j i t la lo ru su tst eot :
  double_like D -> evaluated_cell64 D uc times lat lon alg refr eng sp k j i t la lo -> utc_representable sp k ->
  instant_of (sunrise (O := DoubleOps D) nf sp "utc") k j i (Some ru) -> instant_of (sunset (O := DoubleOps D) nf sp "utc") k j i (Some su) ->
  reads (true_solar_time (O := DoubleOps D) nf sp) k j i (Some tst) -> reads (Sunpos.eot sp) k j i (Fin eot) ->
  exists dd dl w, reads (declination (O := DoubleOps D) sp) k j i (Fin dd) /\ reads (daylight_length (O := DoubleOps D) sp) k j i (Fin dl) /\
    0 <= w <= 180 + / 10 ^ 12 /\ Rabs (dl - 2 * w / 15) <= / 10 ^ 14 /\ Rabs (sun_U (rad la) (rad dd) (rad w)) <= / 10 ^ 14 /\
    Rabs (IZR (ru - midnight_of tst) - ((12 - dl / 2) * 3600000000000 - (4 * lo + eot) * 60000000000)) < 4 /\
    Rabs (IZR (su - midnight_of tst) - ((12 + dl / 2) * 3600000000000 - (4 * lo + eot) * 60000000000)) < 6.
Proof.
  intros HD C Ru0 Hr Hs Ht He. destruct (cell_data64 D _ _ _ _ _ _ _ _ _ _ _ _ _ _ HD C) as (_ & _ & _ & _ & (dd & Hd & _) & _).
  destruct (C76_sunrise D nf _ _ _ _ _ _ _ _ _ _ _ _ _ _ _ HD C Hd) as (a & ar & _ & _ & [(w & wr & dl & _ & _ & Hdl & Bw & _ & _ & F1 & F7 & _)|(_ & _ & N & _)]).
  2:{ destruct (C76_polar D nf _ _ _ _ _ _ _ _ _ _ _ _ _ _ "utc" HD C N ltac:(cbn; tauto)) as [X _]. discriminate (the_same _ _ _ _ _ _ Hr X). }
  destruct (C76_times D nf _ _ _ _ _ _ _ _ _ _ _ _ _ _ _ _ HD C Hdl He Ru0) as (u & wt & tst' & rt & ru' & rl & st & su' & sl & _ & _ & T3 & _ & _ & T6 & T7 & _ & _ & _ & T11 & _ & T13 & _ & T15 & T16).
  assert (X := the_same _ _ _ _ _ _ Hr T6). injection X as <-. assert (X := the_same _ _ _ _ _ _ Hs T7). injection X as <-. assert (X := reads_fun _ _ _ _ _ _ Ht T3). injection X as <-.
  exists dd, dl, w. do 5 (split; [assumption|]). assert (E : IZR (su - ru) = IZR (st - rt)) by now rewrite T11.
  rewrite minus_IZR in T13. rewrite !minus_IZR in E. rewrite !minus_IZR. apply Rabs_def2 in T13, T15, T16. split; apply Rabs_def1; lra.
Qed.

(** ** C95 *)
(** Two cells of one algorithm on one parallel, anywhere between the latitudes of 60 degrees: measured from the midnights of their own true solar days, the
    computed instants of sunrise (and of sunset) differ by four minutes for each degree of longitude and by at most 4.7 milliseconds for each second between the
    two evaluation times (0.5 percent), to a millisecond. *)
Theorem C95_sunrise_moves : forall day_number D D' nf nf' uc uc' times times' lat lat' lon lon' alg refr refr' eng eng' sp sp' k k' j j' i i' t t' y y' la lo lo' ru su tst ru' su' tst',
  calendar day_number -> in_year day_number y t -> in_year day_number y' t' -> double_like D -> double_like D' -> Rabs la <= 60 ->
  evaluated_cell64 D uc times lat lon alg refr eng sp k j i t la lo -> utc_representable sp k ->
  evaluated_cell64 D' uc' times' lat' lon' alg refr' eng' sp' k' j' i' t' la lo' -> utc_representable sp' k' ->
  instant_of (sunrise (O := DoubleOps D) nf sp "utc") k j i (Some ru) -> instant_of (sunset (O := DoubleOps D) nf sp "utc") k j i (Some su) ->
  reads (true_solar_time (O := DoubleOps D) nf sp) k j i (Some tst) ->
  instant_of (sunrise (O := DoubleOps D') nf' sp' "utc") k' j' i' (Some ru') -> instant_of (sunset (O := DoubleOps D') nf' sp' "utc") k' j' i' (Some su') ->
  reads (true_solar_time (O := DoubleOps D') nf' sp') k' j' i' (Some tst') ->
  let bound := (0.0047 * seconds_apart alg day_number t y t' y' + 0.001) * 1000000000 in
  Rabs (IZR ((ru' - midnight_of tst') - (ru - midnight_of tst)) - 240000000000 * (lo - lo')) <= bound /\
  Rabs (IZR ((su' - midnight_of tst') - (su - midnight_of tst)) - 240000000000 * (lo - lo')) <= bound.
Proof.
  intros c D D' nf nf' uc uc' times times' lat lat' lon lon' alg refr refr' eng eng' sp sp' k k' j j' i i' t t' y y' la lo lo' ru su tst ru' su' tst' Hc Y Y' HD HD' Bla C R0 C' R0' Hr Hs Ht Hr' Hs' Ht' bound.
  destruct (C79_rates_double _ _ _ _ _ _ _ _ _ _ _ _ _ _ _ _ _ _ _ _ _ _ _ _ Hc Y Y' HD HD' (proj1 C) (proj1 C')) as (d & m & x & d' & m' & x' & V1 & V2 & _ & V1' & V2' & _ & D1 & D2 & _).
  destruct (dec64 _ _ _ _ _ _ _ _ _ _ _ HD (proj1 C)) as (d1 & dd & mm1 & xx1 & W1 & Hd & Ed & Bd & _).
  destruct (dec64 _ _ _ _ _ _ _ _ _ _ _ HD' (proj1 C')) as (d2 & dd' & mm2 & xx2 & W1' & Hd' & Ed' & Bd' & _).
  unfold value in *. rewrite V1 in W1. injection W1 as <-. rewrite V1' in W1'. injection W1' as <-.
  destruct (rise_set D nf _ _ _ _ _ _ _ _ _ _ _ _ _ _ _ _ _ _ HD C R0 Hr Hs Ht V2) as (e & dl & w & He & _ & Bw & Ew & Uw & F1 & F2).
  destruct (rise_set D' nf' _ _ _ _ _ _ _ _ _ _ _ _ _ _ _ _ _ _ HD' C' R0' Hr' Hs' Ht' V2') as (e' & dl' & w' & He' & _ & Bw' & Ew' & Uw' & F1' & F2').
  assert (X := reads_fun _ _ _ _ _ _ (Hd j i) He). injection X as <-. assert (X := reads_fun _ _ _ _ _ _ (Hd' j' i') He'). injection X as <-.
  assert (S0 : 0 <= seconds_apart alg c t y t' y').
  { unfold seconds_apart. assert (0 <= IZR (Z.abs (t / 1000000000 - t' / 1000000000))) by (apply IZR_le, Z.abs_nonneg). assert (A : 0 <= IZR (Z.abs (c y 1%Z 1%Z - c y' 1%Z 1%Z - 365 * (y - y')))) by (apply IZR_le, Z.abs_nonneg).
    destruct (String.eqb alg "iqbal"); lra. }
  unfold bound. set (s := seconds_apart alg c t y t' y') in *. clearbody s. clear bound.
  assert (PB : 3.14159 <= PI <= 3.1416) by (split; interval). assert (PQ : 0.017453 <= PI / 180 <= 0.0174534) by (split; interval).
  assert (Dd : Rabs (rad dd - rad dd') <= 0.0000000915 * s + 2.1 / 1000000000) by (apply Rabs_le_inv in Ed, Ed', D1; apply Rabs_le; assert (/ 10 ^ 14 <= / 100000000000) by lra; split; lra).
  assert (Rb : forall v, Rabs v <= 23.61 -> Rabs (rad v) <= rad 23.62) by (intros v Hv; unfold rad; rewrite Rabs_mult, (Rabs_pos_eq (PI / 180)) by lra; pose proof (Rabs_pos v); apply Rmult_le_compat; lra).
  assert (Wb : forall v, 0 <= v <= 180 + / 10 ^ 12 -> 0 <= rad v <= 3.2) by (intros v Hv; unfold rad; split; [apply Rmult_le_pos; lra|apply Rle_trans with ((180 + / 10 ^ 12) * 0.0174534); [apply Rmult_le_compat; lra|lra]]).
  assert (H := half_day_slope la (rad dd) (rad dd') (rad w) (rad w') _ Bla (Rb _ Bd) (Rb _ Bd') (Wb _ Bw) (Wb _ Bw') Uw Uw' Dd).
  assert (K : Rabs (w - w') <= 57.297 * (3.36 * (0.0000000915 * s + 2.1 / 1000000000) + / 1000000000)).
  { replace (rad w - rad w') with ((w - w') * (PI / 180)) in H by (unfold rad; ring). rewrite Rabs_mult, (Rabs_pos_eq (PI / 180)) in H by lra. pose proof (Rabs_pos (w - w')).
    assert (Rabs (w - w') * 0.017453 <= Rabs (w - w') * (PI / 180)) by (apply Rmult_le_compat_l; lra). lra. }
  clear H. apply Rabs_le_inv in K, D2, Ew, Ew'. assert (/ 10 ^ 14 <= / 100000000000) by lra.
  rewrite minus_IZR in F1, F2, F1', F2'. rewrite !minus_IZR. apply Rabs_def2 in F1, F2, F1', F2'. split; apply Rabs_le; split; lra.
Qed.
(** Within one evaluation: two cells with the same time and latitude, at every latitude: exactly four minutes per degree, to 15 nanoseconds. *)
Theorem C95_along_a_parallel : forall D nf uc times lat lon alg refr eng sp k j i j' i' t la lo lo' ru su tst ru' su' tst',
  double_like D -> evaluated_cell64 D uc times lat lon alg refr eng sp k j i t la lo -> evaluated_cell64 D uc times lat lon alg refr eng sp k j' i' t la lo' -> utc_representable sp k ->
  instant_of (sunrise (O := DoubleOps D) nf sp "utc") k j i (Some ru) -> instant_of (sunset (O := DoubleOps D) nf sp "utc") k j i (Some su) ->
  reads (true_solar_time (O := DoubleOps D) nf sp) k j i (Some tst) ->
  instant_of (sunrise (O := DoubleOps D) nf sp "utc") k j' i' (Some ru') -> instant_of (sunset (O := DoubleOps D) nf sp "utc") k j' i' (Some su') ->
  reads (true_solar_time (O := DoubleOps D) nf sp) k j' i' (Some tst') ->
  Rabs (IZR ((ru' - midnight_of tst') - (ru - midnight_of tst)) - 240000000000 * (lo - lo')) <= 15 /\
  Rabs (IZR ((su' - midnight_of tst') - (su - midnight_of tst)) - 240000000000 * (lo - lo')) <= 15 /\
  Rabs (IZR ((su' - ru') - (su - ru))) <= 20.
Proof.
  intros D nf uc times lat lon alg refr eng sp k j i j' i' t la lo lo' ru su tst ru' su' tst' HD C C' R0 Hr Hs Ht Hr' Hs' Ht'.
  destruct (dec64 _ _ _ _ _ _ _ _ _ _ _ HD (proj1 C)) as (d1 & dd & m & xx1 & W1 & Hd & Ed & Bd & V2 & _).
  destruct (rise_set D nf _ _ _ _ _ _ _ _ _ _ _ _ _ _ _ _ _ _ HD C R0 Hr Hs Ht V2) as (e & dl & w & He & Hdl & _ & _ & _ & F1 & F2).
  destruct (rise_set D nf _ _ _ _ _ _ _ _ _ _ _ _ _ _ _ _ _ _ HD C' R0 Hr' Hs' Ht' V2) as (e' & dl' & w' & He' & Hdl' & _ & _ & _ & F1' & F2').
  assert (X := reads_fun _ _ _ _ _ _ (Hd j i) He). injection X as <-. assert (X := reads_fun _ _ _ _ _ _ (Hd j' i') He'). injection X as <-.
  destruct (cell_data64 D _ _ _ _ _ _ _ _ _ _ _ _ _ _ HD C) as (Hla & _ & Bla & _). destruct (cell_data64 D _ _ _ _ _ _ _ _ _ _ _ _ _ _ HD C') as (Hla' & _).
  assert (B1 : Rabs la <= 1000) by (apply Rabs_le; lra). assert (B2 : Rabs dd <= 1000) by lra.
  destruct (daylight_wsr64 D sp k j i la dd dl HD B1 B2 Hla He Hdl) as (v & _ & Hv & ->).
  destruct (daylight_wsr64 D sp k j' i' la dd dl' HD B1 B2 Hla' He' Hdl') as (v' & _ & Hv' & ->).
  assert (E : v = v').
  { assert (Q := reads_fun _ _ _ _ _ _ Hv (sunrise_rad64 D HD sp k j i la dd Hla He B1 B2)). assert (Q' := reads_fun _ _ _ _ _ _ Hv' (sunrise_rad64 D HD sp k j' i' la dd Hla' He' B1 B2)).
    rewrite <- Q in Q'. injection Q' as Q'. now symmetry. }
  subst v'. rewrite minus_IZR in F1, F2, F1', F2'. rewrite !minus_IZR. apply Rabs_def2 in F1, F2, F1', F2'. repeat split; apply Rabs_le; split; lra.
Qed.

(** ** The hypotheses are met: 40 degrees north, 21 June 2024 at 10:00 UTC, every algorithm and engine: sunrise and sunset exist; two meridians *)
Lemma there_is_a_day D nf uc times lat lon alg refr eng sp k j i t la lo : double_like D -> evaluated_cell64 D uc times lat lon alg refr eng sp k j i t la lo -> utc_representable sp k -> Rabs la <= 66.3 ->
  exists ru su tst, instant_of (sunrise (O := DoubleOps D) nf sp "utc") k j i (Some ru) /\ instant_of (sunset (O := DoubleOps D) nf sp "utc") k j i (Some su) /\
    reads (true_solar_time (O := DoubleOps D) nf sp) k j i (Some tst).
Proof.
  intros HD C R0 Bl. destruct (cell_data64 _ _ _ _ _ _ _ _ _ _ _ _ _ _ _ HD C) as (_ & _ & _ & _ & _ & (eot & He & _) & _).
  destruct (C76_midlatitudes D nf _ _ _ _ _ _ _ _ _ _ _ _ _ _ HD C Bl) as (a & w & dl & _ & _ & Hdl & _).
  destruct (C76_times D nf _ _ _ _ _ _ _ _ _ _ _ _ _ _ _ _ HD C Hdl He R0) as (u & wt & tst & rt & ru & rl & st & su & sl & _ & _ & T3 & _ & _ & T6 & T7 & _).
  exists ru, su, tst. now repeat split.
Qed.
Lemma utc_of_one D uc t la lo alg refr eng sp k j i u la' lo' : evaluated_cell64 D uc (at_times [Some t]) la lo alg refr eng sp k j i u la' lo' -> representable t -> utc_representable sp 0.
Proof. intros C R u' Hu. rewrite (C14_times_utc_partial _ _ _ _ (at_times [Some t]) _ _ _ _ _ _ I (proj1 (proj1 C))) in Hu. injection Hu as <-. exact R. Qed.
Example C95_example : forall nf uc alg refr eng m, In (alg, eng, m) (supported (O := DoubleOps float64_env)) ->
  exists sp sp' ru su tst ru' su' tst', calendar gregorian /\ in_year gregorian 2024 w_t /\ double_like float64_env /\
    evaluated_cell64 float64_env uc (at_times [Some w_t]) (Scalar (Fin 40)) (Scalar (Fin (-3))) alg refr eng sp 0 0 0 w_t 40 (-3) /\ utc_representable sp 0 /\
    evaluated_cell64 float64_env uc (at_times [Some w_t]) (Scalar (Fin 40)) (Scalar (Fin 15)) alg refr eng sp' 0 0 0 w_t 40 15 /\ utc_representable sp' 0 /\
    instant_of (sunrise (O := DoubleOps float64_env) nf sp "utc") 0 0 0 (Some ru) /\ instant_of (sunset (O := DoubleOps float64_env) nf sp "utc") 0 0 0 (Some su) /\
    reads (true_solar_time (O := DoubleOps float64_env) nf sp) 0 0 0 (Some tst) /\
    instant_of (sunrise (O := DoubleOps float64_env) nf sp' "utc") 0 0 0 (Some ru') /\ instant_of (sunset (O := DoubleOps float64_env) nf sp' "utc") 0 0 0 (Some su') /\
    reads (true_solar_time (O := DoubleOps float64_env) nf sp') 0 0 0 (Some tst') /\
    Rabs (IZR ((ru' - midnight_of tst') - (ru - midnight_of tst)) + 72 * 60 * 1000000000) <= 1000000.
Proof.
  intros nf uc alg refr eng m H.
  destruct (one_cell64 float64_env uc w_t 40 (-3) alg refr eng m float64_like H w_t_representable ltac:(lra) ltac:(lra)) as (sp & C).
  destruct (one_cell64 float64_env uc w_t 40 15 alg refr eng m float64_like H w_t_representable ltac:(lra) ltac:(lra)) as (sp' & C').
  assert (R1 := utc_of_one _ _ _ _ _ _ _ _ _ _ _ _ _ _ _ C w_t_representable). assert (R2 := utc_of_one _ _ _ _ _ _ _ _ _ _ _ _ _ _ _ C' w_t_representable).
  assert (B : Rabs 40 <= 66.3) by (rewrite Rabs_pos_eq; lra). assert (B' : Rabs 40 <= 60) by (rewrite Rabs_pos_eq; lra).
  destruct (there_is_a_day float64_env nf _ _ _ _ _ _ _ _ _ _ _ _ _ _ float64_like C R1 B) as (ru & su & tst & A1 & A2 & A3).
  destruct (there_is_a_day float64_env nf _ _ _ _ _ _ _ _ _ _ _ _ _ _ float64_like C' R2 B) as (ru' & su' & tst' & A1' & A2' & A3').
  exists sp, sp', ru, su, tst, ru', su', tst'. split; [exact gregorian_calendar|]. split; [apply w_year|]. split; [exact float64_like|]. do 10 (split; [assumption|]).
  assert (Y := proj1 w_year).
  destruct (C95_sunrise_moves gregorian _ _ _ _ _ _ _ _ _ _ _ _ _ _ _ _ _ _ _ _ _ _ _ _ _ _ _  2024 2024 _ _ _ _ _ _ _ _ _ gregorian_calendar Y Y float64_like float64_like B' C R1 C' R2 A1 A2 A3 A1' A2' A3') as [Q _].
  assert (S : seconds_apart alg gregorian w_t 2024 w_t 2024 = 0).
  { unfold seconds_apart. rewrite Z.sub_diag. replace (gregorian 2024 1 1 - gregorian 2024 1 1 - 365 * (2024 - 2024))%Z with 0%Z by lia. cbn [Z.abs]. destruct (String.eqb alg "iqbal"); ring. }
  cbv zeta in Q. rewrite S in Q. apply Rabs_le_inv in Q. apply Rabs_le. lra.
Qed.
Example C95_parallel_example : forall nf alg refr eng m, In (alg, eng, m) (supported (O := DoubleOps float64_env)) ->
  exists sp, double_like float64_env /\ utc_representable sp 0 /\
    evaluated_cell64 float64_env RegularGrid (at_times [Some w_t]) (Vec [Fin 40]) (Vec [Fin (-3); Fin 15]) alg refr eng sp 0 0 0 w_t 40 (-3) /\
    evaluated_cell64 float64_env RegularGrid (at_times [Some w_t]) (Vec [Fin 40]) (Vec [Fin (-3); Fin 15]) alg refr eng sp 0 0 1 w_t 40 15 /\
    (exists ru su tst, instant_of (sunrise (O := DoubleOps float64_env) nf sp "utc") 0 0 0 (Some ru) /\ instant_of (sunset (O := DoubleOps float64_env) nf sp "utc") 0 0 0 (Some su) /\ reads (true_solar_time (O := DoubleOps float64_env) nf sp) 0 0 0 (Some tst)) /\
    (exists ru su tst, instant_of (sunrise (O := DoubleOps float64_env) nf sp "utc") 0 0 1 (Some ru) /\ instant_of (sunset (O := DoubleOps float64_env) nf sp "utc") 0 0 1 (Some su) /\ reads (true_solar_time (O := DoubleOps float64_env) nf sp) 0 0 1 (Some tst)).
Proof.
  intros nf alg refr eng m H.
  assert (A1 := coords_ok_fin64 float64_env 40 (-3) float64_like ltac:(lra) ltac:(lra)). assert (A2 := coords_ok_fin64 float64_env 40 15 float64_like ltac:(lra) ltac:(lra)).
  assert (Co : coords_ok (O := DoubleOps float64_env) [Fin 40] [Fin (-3); Fin 15]).
  { split; [apply A1|]. intros x [<-|[<-|[]]]; [apply A1|apply A2]; now left. }
  destruct (accept_lemma (O := DoubleOps float64_env) true RegularGrid [Some w_t] (Vec [Fin 40]) (Vec [Fin (-3); Fin 15]) alg refr eng m eq_refl H ltac:(now left) ltac:(now left) I Co) as (sp & K).
  assert (C : evaluated_cell64 float64_env RegularGrid (at_times [Some w_t]) (Vec [Fin 40]) (Vec [Fin (-3); Fin 15]) alg refr eng sp 0 0 0 w_t 40 (-3)).
  { split; [split; [exact K|split; [reflexivity|exact w_t_representable]]|split; reflexivity]. }
  assert (C' : evaluated_cell64 float64_env RegularGrid (at_times [Some w_t]) (Vec [Fin 40]) (Vec [Fin (-3); Fin 15]) alg refr eng sp 0 0 1 w_t 40 15).
  { split; [split; [exact K|split; [reflexivity|exact w_t_representable]]|split; reflexivity]. }
  assert (R1 := utc_of_one _ _ _ _ _ _ _ _ _ _ _ _ _ _ _ C w_t_representable). assert (B : Rabs 40 <= 66.3) by (rewrite Rabs_pos_eq; lra).
  exists sp. split; [exact float64_like|]. do 3 (split; [assumption|]). split; eapply there_is_a_day; eassumption || exact float64_like.
Qed.
