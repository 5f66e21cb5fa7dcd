(** * PropDays: true solar time runs with the clock (C97); day follows day (C98), in double precision *)
From Coq Require Import ZArith QArith Reals Bool List String Lra Lia.
From Flocq Require Import Core.Raux.
From Interval Require Import Tactic.
From Verif Require Import Num Arrays Libspa Time Core Usecases Spec GenericLemmas GenericLemmas2 TimeLemmas Ext ExtLemmas Witness
  AstroTac Sky SkyClose AstroSpec Astro AstroCell AstroCall Float32 PropAstro Sunpos SunposSpec SunposLemmas SunposR PropSunpos
  CalendarSpec CalendarLemmas PropCalendar SeasonSpec PropSeasons Almanac AlmanacPos SingleSpec SingleLemmas PropSinglePos PropSmooth
  Double DoubleSpec DoublePos PropDouble PropDoublePos TopoSpec PropNrelD SunposE SunposD PropSunposD DayR PropDay PropClimb PropNoon PropPipeline PropTrack PropAirmass PropEarth PropRise PropDial Float64.
Import ListNotations.
Open Scope R_scope.

(** ** C97: true solar time *)
(** Between any two requests the returned true solar times advance like the clock and the longitude (four minutes per degree), but for 0.0384 percent of the
    elapsed time and 60 microseconds. *)
Theorem C97_clock : forall day_number D D' nf nf' uc uc' times times' lat lat' lon lon' alg refr refr' eng eng' sp sp' k k' j j' i i' t t' y y' la la' lo lo' tst tst',
  calendar day_number -> in_year day_number y t -> in_year day_number y' t' -> double_like D -> double_like D' ->
  evaluated_cell64 D uc times lat lon alg refr eng sp k j i t la lo -> nth_error (sp_times_utc sp) k = Some (Some t) ->
  evaluated_cell64 D' uc' times' lat' lon' alg refr' eng' sp' k' j' i' t' la' lo' -> nth_error (sp_times_utc sp') k' = Some (Some t') ->
  reads (true_solar_time (O := DoubleOps D) nf sp) k j i (Some tst) -> reads (true_solar_time (O := DoubleOps D') nf' sp') k' j' i' (Some tst') ->
  Rabs (IZR ((tst' - tst) - (t' - t)) - 240000000000 * (lo' - lo)) <= (0.000384 * seconds_apart alg day_number t y t' y' + 0.00006) * 1000000000.
Proof.
  intros c D D' nf nf' uc uc' times times' lat lat' lon lon' alg refr refr' eng eng' sp sp' k k' j j' i i' t t' y y' la la' lo lo' tst tst' Hc Y Y' HD HD' C Hu C' Hu' Ht Ht'.
  destruct (C79_rates_double _ _ _ _ _ _ _ _ _ _ _ _ _ _ _ _ _ _ _ _ _ _ _ _ Hc Y Y' HD HD' (proj1 C) (proj1 C')) as (d & m & x & d' & m' & x' & _ & V2 & _ & _ & V2' & _ & _ & D2 & _).
  set (s := seconds_apart alg c t y t' y') in *. clearbody s.
  destruct (C77_true_solar_time D nf _ _ _ _ _ _ _ _ _ _ _ _ _ _ _ _ HD C V2 Hu (proj2 (proj2 (proj1 C)))) as (v & T1 & _ & T2). assert (X := reads_fun _ _ _ _ _ _ Ht T1). injection X as <-.
  destruct (C77_true_solar_time D' nf' _ _ _ _ _ _ _ _ _ _ _ _ _ _ _ _ HD' C' V2' Hu' (proj2 (proj2 (proj1 C')))) as (v & T1' & _ & T2'). assert (X := reads_fun _ _ _ _ _ _ Ht' T1'). injection X as <-.
  rewrite minus_IZR in T2, T2'. rewrite !minus_IZR. apply Rabs_le_inv in T2, T2', D2. apply Rabs_le. split; lra.
Qed.
(** At one longitude (iqbal: in one year), of two requests half a millisecond or more apart the later one has the later true solar time. *)
Theorem C97_forward : forall day_number D D' nf nf' uc uc' times times' lat lat' lon lon' alg refr refr' eng eng' sp sp' k k' j j' i i' t t' y y' la la' lo tst tst',
  calendar day_number -> in_year day_number y t -> in_year day_number y' t' -> (alg = "iqbal"%string -> y = y') -> double_like D -> double_like D' ->
  evaluated_cell64 D uc times lat lon alg refr eng sp k j i t la lo -> nth_error (sp_times_utc sp) k = Some (Some t) ->
  evaluated_cell64 D' uc' times' lat' lon' alg refr' eng' sp' k' j' i' t' la' lo -> nth_error (sp_times_utc sp') k' = Some (Some t') ->
  reads (true_solar_time (O := DoubleOps D) nf sp) k j i (Some tst) -> reads (true_solar_time (O := DoubleOps D') nf' sp') k' j' i' (Some tst') ->
  (t + 500000 <= t' -> tst < tst')%Z.
Proof.
  intros c D D' nf nf' uc uc' times times' lat lat' lon lon' alg refr refr' eng eng' sp sp' k k' j j' i i' t t' y y' la la' lo tst tst' Hc Y Y' Hiq HD HD' C Hu C' Hu' Ht Ht' L.
  assert (Q := C97_clock c _ _ nf nf' _ _ _ _ _ _ _ _ _ _ _ _ _ _ _ _ _ _ _ _ _ _ _ _ _ _ _ _ _ _ _ Hc Y Y' HD HD' C Hu C' Hu' Ht Ht'). rewrite (Rminus_diag_eq lo lo), Rmult_0_r, Rminus_0_r in Q by reflexivity.
  assert (ES : seconds_apart alg c t y t' y' <= IZR (t' - t) / 1000000000 + 1).
  { unfold seconds_apart. assert (K : IZR (Z.abs (t / 1000000000 - t' / 1000000000)) <= IZR (t' - t) / 1000000000 + 1).
    { assert (H : (1000000000 * Z.abs (t / 1000000000 - t' / 1000000000) <= (t' - t) + 1000000000)%Z) by (pose proof (Z.div_mod t 1000000000 ltac:(lia)); pose proof (Z.div_mod t' 1000000000 ltac:(lia)); pose proof (Z.mod_pos_bound t 1000000000 ltac:(lia)); pose proof (Z.mod_pos_bound t' 1000000000 ltac:(lia)); lia).
      apply IZR_le in H. rewrite mult_IZR, plus_IZR in H. lra. }
    destruct (String.eqb_spec alg "iqbal") as [He|He]; [|lra]. rewrite (Hiq He). replace (c y' 1 1 - c y' 1 1 - 365 * (y' - y'))%Z with 0%Z by lia. cbn [Z.abs]. lra. }
  assert (L' : (500000 <= t' - t)%Z) by lia. apply IZR_le in L'. rewrite !minus_IZR in *. apply Rabs_le_inv in Q. apply lt_IZR. lra.
Qed.

(** ** C98: day follows day *)
Lemma half_day_cos la d w : Rabs la <= 60 -> Rabs d <= rad 23.62 -> Rabs (sun_U (rad la) d w) <= / 10 ^ 14 -> Rabs (cos w) <= 0.7581.
Proof.
  intros Bl Bd Hx. apply Rabs_le_inv in Bl.
  assert (Cl : 0.5 <= cos (rad la)).
  { replace 0.5 with (cos (PI / 3)) by (rewrite cos_PI3; lra). assert (P := PI_RGT_0). destruct (Rle_dec 0 la).
    - apply cos_decr_1; unfold rad; nra.
    - rewrite <- (cos_neg (rad la)). apply cos_decr_1; unfold rad; nra. }
  assert (Sl : Rabs (sin (rad la)) <= 0.86603) by (assert (S := sc1 (rad la)); assert (A := abs_sq (sin (rad la))); pose proof (Rabs_pos (sin (rad la))); nra).
  assert (CD : 0.9162 <= cos d /\ Rabs (sin d) <= 0.4007).
  { clear - Bd. assert (B : Rabs d <= 0.41225) by (eapply Rle_trans; [exact Bd|unfold rad; interval]). apply Rabs_le_inv in B. clear Bd. split; [interval|apply Rabs_le; split; interval]. }
  destruct CD as [Cx Sx]. unfold sun_U in Hx. assert (P1 : 0.4581 <= cos (rad la) * cos d) by (apply Rle_trans with (0.5 * 0.9162); [lra|apply Rmult_le_compat; lra]).
  assert (P2 : Rabs (sin (rad la) * sin d) <= 0.34703) by (rewrite Rabs_mult; apply Rle_trans with (0.86603 * 0.4007); [apply Rmult_le_compat; try apply Rabs_pos; assumption|lra]).
  apply Rabs_le_inv in Hx, P2. assert (/ 10 ^ 14 <= 0.00000001) by lra. set (p := cos (rad la) * cos d) in *. set (q := sin (rad la) * sin d) in *. clearbody p q. apply Rabs_le. split; nra.
Qed.
Lemma half_day_b la d w : Rabs la <= 60 -> Rabs d <= rad 23.62 -> 0 <= w <= 180 + / 10 ^ 12 -> Rabs (sun_U (rad la) d (rad w)) <= / 10 ^ 14 -> 40 <= w <= 140.
Proof.
  intros Bl Bd Bw H. assert (PQ : 0.017453 <= PI / 180 <= 0.0174534) by (split; interval).
  assert (Bx : 0 <= rad w <= 3.2) by (unfold rad; split; [apply Rmult_le_pos; lra|apply Rle_trans with ((180 + / 10 ^ 12) * 0.0174534); [apply Rmult_le_compat; lra|lra]]).
  assert (C := half_day_cos la d (rad w) Bl Bd H).
  apply Rabs_le_inv in C. split; apply Rnot_lt_le; intros L.
  - assert (0.766 <= cos (rad w)); [|lra]. assert (B : 0 <= rad w <= 0.69815) by (unfold rad in *; nra). clear - B. interval with (i_bisect (rad w)).
  - assert (cos (rad w) <= -0.766); [|lra]. assert (B : 2.4434 <= rad w <= 3.2) by (unfold rad in *; nra). clear - B. interval with (i_bisect (rad w)).
Qed.
(** At one place between the latitudes of 60 degrees (iqbal: in one year): two evaluations in one true solar day give sunrises (sunsets) within 7 minutes; two
    evaluations in consecutive true solar days give sunrises (sunsets) a day apart to 14 minutes; days last between 5 and 19 hours, and the next sunrise is 5 hours or more after sunset. *)
Theorem C98_days : forall day_number D D' nf nf' uc uc' times times' lat lat' lon lon' alg refr refr' eng eng' sp sp' k k' j j' i i' t t' y y' la lo ru su tst ru' su' tst',
  calendar day_number -> in_year day_number y t -> in_year day_number y' t' -> (alg = "iqbal"%string -> y = y') -> double_like D -> double_like D' -> Rabs la <= 60 ->
  evaluated_cell64 D uc times lat lon alg refr eng sp k j i t la lo -> nth_error (sp_times_utc sp) k = Some (Some t) ->
  evaluated_cell64 D' uc' times' lat' lon' alg refr' eng' sp' k' j' i' t' la lo -> nth_error (sp_times_utc sp') k' = Some (Some t') ->
  instant_of (sunrise (O := DoubleOps D) nf sp "utc") k j i (Some ru) -> instant_of (sunset (O := DoubleOps D) nf sp "utc") k j i (Some su) ->
  reads (true_solar_time (O := DoubleOps D) nf sp) k j i (Some tst) ->
  instant_of (sunrise (O := DoubleOps D') nf' sp' "utc") k' j' i' (Some ru') -> instant_of (sunset (O := DoubleOps D') nf' sp' "utc") k' j' i' (Some su') ->
  reads (true_solar_time (O := DoubleOps D') nf' sp') k' j' i' (Some tst') ->
  let minute := 60000000000%Z in
  (300 * minute <= su - ru <= 1140 * minute)%Z /\
  (midnight_of tst' = midnight_of tst -> (Z.abs (ru' - ru) <= 7 * minute)%Z /\ (Z.abs (su' - su) <= 7 * minute)%Z) /\
  (midnight_of tst' = (midnight_of tst + 1440 * minute)%Z ->
    (Z.abs (ru' - ru - 1440 * minute) <= 14 * minute)%Z /\ (Z.abs (su' - su - 1440 * minute) <= 14 * minute)%Z /\ (su + 300 * minute <= ru')%Z).
Proof.
  intros c D D' nf nf' uc uc' times times' lat lat' lon lon' alg refr refr' eng eng' sp sp' k k' j j' i i' t t' y y' la lo ru su tst ru' su' tst' Hc Y Y' Hiq HD HD' Bla C Hu C' Hu' Hr Hs Ht Hr' Hs' Ht' minute.
  assert (R0 : utc_representable sp k) by (intros u Hv; rewrite Hu in Hv; injection Hv as <-; exact (proj2 (proj2 (proj1 C)))).
  assert (R0' : utc_representable sp' k') by (intros u Hv; rewrite Hu' in Hv; injection Hv as <-; exact (proj2 (proj2 (proj1 C')))).
  destruct (C95_sunrise_moves c D D' nf nf' _ _ _ _ _ _ _ _ _ _ _ _ _ _ _ _ _ _ _ _ _ _ _ _ _ _ _ _ _ _ _ _ _ _ Hc Y Y' HD HD' Bla C R0 C' R0' Hr Hs Ht Hr' Hs' Ht') as [M1 M2].
  rewrite !(Rminus_diag_eq lo lo), !Rmult_0_r, !Rminus_0_r in M1, M2 by reflexivity.
  destruct (cell_data64 _ _ _ _ _ _ _ _ _ _ _ _ _ _ _ HD C) as (_ & _ & _ & Blo & _ & (m & V2 & Bm) & _).
  destruct (cell_data64 _ _ _ _ _ _ _ _ _ _ _ _ _ _ _ HD' C') as (_ & _ & _ & _ & _ & (m' & V2' & Bm') & _).
  destruct (dec64 _ _ _ _ _ _ _ _ _ _ _ HD (proj1 C)) as (d1 & dd & mm1 & xx1 & W1 & Hd & Ed & Bd & _).
  destruct (rise_set D nf _ _ _ _ _ _ _ _ _ _ _ _ _ _ _ _ _ _ HD C R0 Hr Hs Ht V2) as (e & dl & w & He & _ & Bw & Ew & Uw & F1 & F2).
  assert (X := reads_fun _ _ _ _ _ _ (Hd j i) He). injection X as <-.
  assert (PQ : 0.017453 <= PI / 180 <= 0.0174534) by (split; interval).
  assert (Rb : Rabs (rad dd) <= rad 23.62) by (unfold rad; rewrite Rabs_mult, (Rabs_pos_eq (PI / 180)) by lra; pose proof (Rabs_pos dd); apply Rmult_le_compat; lra).
  assert (Bh := half_day_b la (rad dd) w Bla Rb Bw Uw).
  assert (Day : 5.3 * 3600000000000 <= IZR (su - ru) <= 18.7 * 3600000000000).
  { apply Rabs_le_inv in Ew. assert (/ 10 ^ 14 <= 0.0001) by lra. rewrite minus_IZR in F1, F2. rewrite minus_IZR. apply Rabs_def2 in F1, F2. split; lra. }
  split; [unfold minute; split; apply le_IZR; rewrite ?minus_IZR, ?mult_IZR in *; lra|].
  (* elapsed time between the two evaluations *)
  destruct (C77_true_solar_time D nf _ _ _ _ _ _ _ _ _ _ _ _ _ _ _ _ HD C V2 Hu (proj2 (proj2 (proj1 C)))) as (v & T1 & _ & T2). assert (X := reads_fun _ _ _ _ _ _ Ht T1). injection X as <-.
  destruct (C77_true_solar_time D' nf' _ _ _ _ _ _ _ _ _ _ _ _ _ _ _ _ HD' C' V2' Hu' (proj2 (proj2 (proj1 C')))) as (v & T1' & _ & T2'). assert (X := reads_fun _ _ _ _ _ _ Ht' T1'). injection X as <-.
  assert (G : forall x, (midnight_of x <= x < midnight_of x + 86400000000000)%Z) by (intros x; unfold midnight_of; pose proof (Z.mod_pos_bound x 86400000000000 ltac:(lia)); lia).
  assert (G1 := G tst). assert (G2 := G tst'). clear G.
  assert (ES : forall q, (Z.abs (tst' - tst) <= q)%Z -> seconds_apart alg c t y t' y' <= IZR q / 1000000000 + 2402).
  { intros q Hq. assert (K : (Z.abs (t' - t) <= q + 2400000010000)%Z).
    { apply Z.abs_le in Hq. destruct Hq as [Q1 Q2]. rewrite minus_IZR in T2, T2'. apply IZR_le in Q1, Q2. rewrite minus_IZR in Q1, Q2. rewrite opp_IZR in Q1. apply Rabs_le_inv in T2, T2', Bm, Bm'. apply Z.abs_le. split; apply le_IZR; rewrite ?opp_IZR, ?plus_IZR, minus_IZR; lra. }
    unfold seconds_apart. assert (H : (1000000000 * Z.abs (t / 1000000000 - t' / 1000000000) <= Z.abs (t' - t) + 1000000000)%Z).
    { pose proof (Z.div_mod t 1000000000 ltac:(lia)). pose proof (Z.div_mod t' 1000000000 ltac:(lia)). pose proof (Z.mod_pos_bound t 1000000000 ltac:(lia)). pose proof (Z.mod_pos_bound t' 1000000000 ltac:(lia)). lia. }
    assert (H2 : (1000000000 * Z.abs (t / 1000000000 - t' / 1000000000) <= q + 2401000010000)%Z) by lia. apply IZR_le in H2. rewrite mult_IZR, plus_IZR in H2.
    destruct (String.eqb_spec alg "iqbal") as [Hi|Hi]; [|lra]. rewrite (Hiq Hi). replace (c y' 1 1 - c y' 1 1 - 365 * (y' - y'))%Z with 0%Z by lia. cbn [Z.abs]. lra. }
  assert (Fin1 : forall x b B, Rabs (IZR x) <= B -> B <= IZR b -> (Z.abs x <= b)%Z) by (intros x b B H1 H2; apply le_IZR; rewrite abs_IZR; lra).
  split.
  - intros Hm. assert (S := ES 86400000000000%Z ltac:(rewrite Hm in G2; lia)).
    replace ((ru' - midnight_of tst') - (ru - midnight_of tst))%Z with (ru' - ru)%Z in M1 by lia. replace ((su' - midnight_of tst') - (su - midnight_of tst))%Z with (su' - su)%Z in M2 by lia.
    assert (A1 := Fin1 _ 420000000000%Z _ M1 ltac:(lra)). assert (A2 := Fin1 _ 420000000000%Z _ M2 ltac:(lra)). unfold minute. lia.
  - intros Hm. assert (S := ES 172800000000000%Z ltac:(rewrite Hm in G2; unfold minute in *; lia)).
    replace ((ru' - midnight_of tst') - (ru - midnight_of tst))%Z with (ru' - ru - 1440 * minute)%Z in M1 by lia. replace ((su' - midnight_of tst') - (su - midnight_of tst))%Z with (su' - su - 1440 * minute)%Z in M2 by lia.
    assert (A1 := Fin1 _ 840000000000%Z _ M1 ltac:(lra)). assert (A2 := Fin1 _ 840000000000%Z _ M2 ltac:(lra)).
    split; [unfold minute in *; lia|]. split; [unfold minute in *; lia|]. assert (D2 : (su - ru <= 67320000000000)%Z) by (apply le_IZR; lra). unfold minute in *. lia.
Qed.
(** The hypotheses are met: Greenwich-side noon of one day and of the next, at 40 N 3 W, for every algorithm and engine; the two bounds for the next day then hold of them. *)
Lemma year_next : in_year gregorian 2024 w_t /\ in_year gregorian 2024 (w_t + 86400000000000).
Proof. split; split; try (vm_compute; discriminate); vm_compute; reflexivity. Qed.
Lemma midnight_next a : midnight_of (a + 86400000000000) = (midnight_of a + 86400000000000)%Z.
Proof. unfold midnight_of. rewrite <- (Z.mul_1_l 86400000000000) at 2. rewrite Z.mod_add by lia. lia. Qed.
Example C97_example : forall nf uc alg refr eng m, In (alg, eng, m) (supported (O := DoubleOps float64_env)) ->
  exists sp sp' tst tst', calendar gregorian /\ in_year gregorian 2024 w_t /\ in_year gregorian 2024 (w_t + 86400000000000) /\ double_like float64_env /\
    evaluated_cell64 float64_env uc (at_times [Some w_t]) (Scalar (Fin 40)) (Scalar (Fin (-3))) alg refr eng sp 0 0 0 w_t 40 (-3) /\ nth_error (sp_times_utc sp) 0 = Some (Some w_t) /\
    evaluated_cell64 float64_env uc (at_times [Some (w_t + 86400000000000)%Z]) (Scalar (Fin 40)) (Scalar (Fin (-3))) alg refr eng sp' 0 0 0 (w_t + 86400000000000) 40 (-3) /\
    nth_error (sp_times_utc sp') 0 = Some (Some (w_t + 86400000000000)%Z) /\
    reads (true_solar_time (O := DoubleOps float64_env) nf sp) 0 0 0 (Some tst) /\ reads (true_solar_time (O := DoubleOps float64_env) nf sp') 0 0 0 (Some tst') /\
    (Z.abs (tst' - tst - 86400000000000) <= 34000000000)%Z.
Proof.
  intros nf uc alg refr eng m H. set (t' := (w_t + 86400000000000)%Z).
  assert (R : representable t') by (unfold representable, t', w_t; lia). destruct year_next as [Y Y']. fold t' in Y'.
  destruct (one_cell64 float64_env uc w_t 40 (-3) alg refr eng m float64_like H w_t_representable ltac:(lra) ltac:(lra)) as (sp & C).
  destruct (one_cell64 float64_env uc t' 40 (-3) alg refr eng m float64_like H R ltac:(lra) ltac:(lra)) as (sp' & C').
  assert (U := C14_times_utc_partial _ _ _ _ (at_times [Some w_t]) _ _ _ _ _ _ I (proj1 (proj1 C))). assert (U' := C14_times_utc_partial _ _ _ _ (at_times [Some t']) _ _ _ _ _ _ I (proj1 (proj1 C'))).
  assert (Hu : nth_error (sp_times_utc sp) 0 = Some (Some w_t)) by now rewrite U. assert (Hu' : nth_error (sp_times_utc sp') 0 = Some (Some t')) by now rewrite U'.
  assert (B : Rabs 40 <= 66.3) by (rewrite Rabs_pos_eq; lra).
  destruct (there_is_a_day _ nf _ _ _ _ _ _ _ _ _ _ _ _ _ _ float64_like C (utc_of_one _ _ _ _ _ _ _ _ _ _ _ _ _ _ _ C w_t_representable) B) as (ru & su & tst & _ & _ & T).
  destruct (there_is_a_day _ nf _ _ _ _ _ _ _ _ _ _ _ _ _ _ float64_like C' (utc_of_one _ _ _ _ _ _ _ _ _ _ _ _ _ _ _ C' R) B) as (ru' & su' & tst' & _ & _ & T').
  exists sp, sp', tst, tst'. split; [exact gregorian_calendar|]. split; [exact Y|]. split; [exact Y'|]. split; [exact float64_like|]. do 6 (split; [assumption|]).
  assert (Q : Rabs (IZR ((tst' - tst) - (t' - w_t)) - 240000000000 * ((-3) - (-3))) <= (0.000384 * seconds_apart alg gregorian w_t 2024 t' 2024 + 0.00006) * 1000000000).
  { eapply (C97_clock gregorian); [exact gregorian_calendar|exact Y|exact Y'|exact float64_like|exact float64_like|exact C|exact Hu|exact C'|exact Hu'|exact T|exact T']. }
  assert (S : seconds_apart alg gregorian w_t 2024 t' 2024 = 86400).
  { unfold seconds_apart. replace (w_t / 1000000000 - t' / 1000000000)%Z with (-86400)%Z by (vm_compute; reflexivity). replace (gregorian 2024 1 1 - gregorian 2024 1 1 - 365 * (2024 - 2024))%Z with 0%Z by lia. cbn [Z.abs]. destruct (String.eqb alg "iqbal"); lra. }
  rewrite S in Q. apply le_IZR. rewrite abs_IZR. replace (tst' - tst - 86400000000000)%Z with (tst' - tst - (t' - w_t))%Z by (unfold t'; lia). rewrite (Rminus_diag_eq (-3) (-3)), Rmult_0_r, Rminus_0_r in Q by reflexivity. eapply Rle_trans; [exact Q|lra].
Qed.
Example C98_example : forall nf uc alg refr eng m, In (alg, eng, m) (supported (O := DoubleOps float64_env)) ->
  exists sp sp' ru su tst ru' su' tst', calendar gregorian /\ in_year gregorian 2024 w_t /\ in_year gregorian 2024 (w_t + 86400000000000) /\ double_like float64_env /\
    evaluated_cell64 float64_env uc (at_times [Some w_t]) (Scalar (Fin 40)) (Scalar (Fin (-3))) alg refr eng sp 0 0 0 w_t 40 (-3) /\ nth_error (sp_times_utc sp) 0 = Some (Some w_t) /\
    evaluated_cell64 float64_env uc (at_times [Some (w_t + 86400000000000)%Z]) (Scalar (Fin 40)) (Scalar (Fin (-3))) alg refr eng sp' 0 0 0 (w_t + 86400000000000) 40 (-3) /\
    nth_error (sp_times_utc sp') 0 = Some (Some (w_t + 86400000000000)%Z) /\
    instant_of (sunrise (O := DoubleOps float64_env) nf sp "utc") 0 0 0 (Some ru) /\ instant_of (sunset (O := DoubleOps float64_env) nf sp "utc") 0 0 0 (Some su) /\ reads (true_solar_time (O := DoubleOps float64_env) nf sp) 0 0 0 (Some tst) /\
    instant_of (sunrise (O := DoubleOps float64_env) nf sp' "utc") 0 0 0 (Some ru') /\ instant_of (sunset (O := DoubleOps float64_env) nf sp' "utc") 0 0 0 (Some su') /\ reads (true_solar_time (O := DoubleOps float64_env) nf sp') 0 0 0 (Some tst') /\
    midnight_of tst' = (midnight_of tst + 1440 * 60000000000)%Z.
Proof.
  intros nf uc alg refr eng m H. set (t' := (w_t + 86400000000000)%Z).
  assert (R : representable t') by (unfold representable, t', w_t; lia). destruct year_next as [Y Y']. fold t' in Y'.
  destruct (one_cell64 float64_env uc w_t 40 (-3) alg refr eng m float64_like H w_t_representable ltac:(lra) ltac:(lra)) as (sp & C).
  destruct (one_cell64 float64_env uc t' 40 (-3) alg refr eng m float64_like H R ltac:(lra) ltac:(lra)) as (sp' & C').
  assert (U := C14_times_utc_partial _ _ _ _ (at_times [Some w_t]) _ _ _ _ _ _ I (proj1 (proj1 C))). assert (U' := C14_times_utc_partial _ _ _ _ (at_times [Some t']) _ _ _ _ _ _ I (proj1 (proj1 C'))).
  assert (Hu : nth_error (sp_times_utc sp) 0 = Some (Some w_t)) by now rewrite U. assert (Hu' : nth_error (sp_times_utc sp') 0 = Some (Some t')) by now rewrite U'.
  assert (B : Rabs 40 <= 66.3) by (rewrite Rabs_pos_eq; lra).
  destruct (there_is_a_day _ nf _ _ _ _ _ _ _ _ _ _ _ _ _ _ float64_like C (utc_of_one _ _ _ _ _ _ _ _ _ _ _ _ _ _ _ C w_t_representable) B) as (ru & su & tst & Tr & Ts & T).
  destruct (there_is_a_day _ nf _ _ _ _ _ _ _ _ _ _ _ _ _ _ float64_like C' (utc_of_one _ _ _ _ _ _ _ _ _ _ _ _ _ _ _ C' R) B) as (ru' & su' & tst' & Tr' & Ts' & T').
  exists sp, sp', ru, su, tst, ru', su', tst'. split; [exact gregorian_calendar|]. split; [exact Y|]. split; [exact Y'|]. split; [exact float64_like|]. do 10 (split; [assumption|]).
  destruct (cell_data64 _ _ _ _ _ _ _ _ _ _ _ _ _ _ _ float64_like C) as (_ & _ & _ & _ & _ & (e & He & Be) & _).
  destruct (cell_data64 _ _ _ _ _ _ _ _ _ _ _ _ _ _ _ float64_like C') as (_ & _ & _ & _ & _ & (e' & He' & Be') & _).
  destruct (C77_true_solar_time float64_env nf _ _ _ _ _ _ _ _ _ _ _ _ _ _ _ _ float64_like C He Hu w_t_representable) as (v & T1 & _ & T2). assert (X := reads_fun _ _ _ _ _ _ T T1). injection X as <-.
  destruct (C77_true_solar_time float64_env nf _ _ _ _ _ _ _ _ _ _ _ _ _ _ _ _ float64_like C' He' Hu' R) as (v & T1' & _ & T2'). assert (X := reads_fun _ _ _ _ _ _ T' T1'). injection X as <-.
  assert (A1 : (-1920000010000 <= tst - w_t <= 480000010000)%Z) by (apply Rabs_le_inv in T2, Be; split; apply le_IZR; lra).
  assert (A2 : (-1920000010000 <= tst' - t' <= 480000010000)%Z) by (apply Rabs_le_inv in T2', Be'; split; apply le_IZR; lra).
  unfold midnight_of, t', w_t in *. pose proof (Z.div_mod tst 86400000000000 ltac:(lia)). pose proof (Z.div_mod tst' 86400000000000 ltac:(lia)).
  pose proof (Z.mod_pos_bound tst 86400000000000 ltac:(lia)). pose proof (Z.mod_pos_bound tst' 86400000000000 ltac:(lia)).
  assert (tst / 86400000000000 = 19895)%Z by lia. assert (tst' / 86400000000000 = 19896)%Z by lia. lia.
Qed.
