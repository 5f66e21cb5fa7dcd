(** * PropClimb: the sun climbs all morning and sinks all afternoon (C85)

    [tst] and [tst'] are the true solar times returned for two requests at one place, in nanoseconds; [zd] and [zd'] the zenith angles in degrees. *)
From Coq Require Import ZArith QArith Reals Bool List String Lra Lia.
From Flocq Require Import Core.Raux.
From Interval Require Import Tactic.
From Verif Require Import Num Arrays Libspa Time Core Usecases Spec GenericLemmas GenericLemmas2 TimeLemmas Ext ExtLemmas Witness
  AstroTac Sky SkyClose AstroSpec Astro AstroCell AstroCall AstroRefute Float32 PropAstro Sunpos SunposSpec SunposLemmas SunposR SunposCells PropSunpos
  CalendarSpec CalendarLemmas PropCalendar Almanac AlmanacPos SingleSpec SingleLemmas PropSingle PropSinglePos SmoothR SmoothI PropSmooth
  Double DoubleSpec PropDouble PropDoublePos TopoSpec PropNrelD SunposD PropSunposD DayR PropDay PropPipeline Float64.
Import ListNotations.
Open Scope R_scope.

(** ** The height of the sun between midnight and noon *)
Lemma sin_mid x y : 0 <= y -> y <= x <= PI - y -> sin y <= sin x.
Proof.
  intros H0 [H1 H2]. pose proof PI_RGT_0. destruct (Rle_dec x (PI / 2)) as [L|L].
  - apply sin_incr_1; lra.
  - rewrite <- (sin_PI_x x). apply sin_incr_1; lra.
Qed.
(** [u] to [u + g] in the afternoon. *)
Lemma cos_fall u g : 0 <= u -> 0 <= g -> u + g <= PI -> 2 * (sin (g / 2) * sin (g / 2)) <= cos u - cos (u + g).
Proof.
  intros H1 H2 H3. pose proof PI_RGT_0. rewrite (form2 u (u + g)). replace ((u - (u + g)) / 2) with (- (g / 2)) by field. rewrite sin_neg.
  replace ((u + (u + g)) / 2) with (u + g / 2) by field. assert (S := sin_mid (u + g / 2) (g / 2) ltac:(lra) ltac:(lra)).
  assert (0 <= sin (g / 2)) by (apply sin_ge_0; lra). nra.
Qed.
Lemma climb_gap g : 0.1308 <= g <= 3.1416 -> 0.001697 + 0.00127 * g <= 0.342 * 0.916 * (2 * (sin (g / 2) * sin (g / 2))).
Proof. intros H. apply Rminus_le. interval with (i_bisect g, i_depth 20). Qed.
Section Core.
  Variables (phi d d' g : R).
  Hypothesis Bp : 0.342 <= cos phi.
  Hypothesis Bd : 0.916 <= cos d.
  Hypothesis Bg : 0.1308 <= g <= PI.
  Hypothesis Hd : Rabs (d - d') <= 0.00127 * g.
  Lemma gap_U x x' : 2 * (sin (g / 2) * sin (g / 2)) <= cos x' - cos x -> sun_U phi d x + 0.001697 <= sun_U phi d' x'.
  Proof.
    intros H. assert (Q := dec_height phi d d' x'). assert (G := climb_gap g ltac:(assert (PI <= 3.1416) by interval; lra)).
    assert (S0 : 0 <= sin (g / 2) * sin (g / 2)) by apply Rle_0_sqr.
    assert (P : 0.342 * 0.916 <= cos phi * cos d) by (apply Rmult_le_compat; lra).
    assert (E : sun_U phi d x' - sun_U phi d x = cos phi * cos d * (cos x' - cos x)) by (unfold sun_U; ring).
    apply Rabs_le_inv in Q. set (r := 2 * (sin (g / 2) * sin (g / 2))) in *. assert (0 <= r) by (unfold r; lra).
    assert (0.342 * 0.916 * r <= cos phi * cos d * (cos x' - cos x)) by (apply Rmult_le_compat; lra). lra.
  Qed.
End Core.
Lemma zen_mono x y : -0.0001 <= x -> x <= y -> y <= 180.0001 -> cos (rad y) <= cos (rad x) + 0.00001.
Proof.
  intros H1 H2 H3. assert (P : 3.14159 <= PI <= 3.1416) by (split; interval). assert (E := form2 (rad x) (rad y)).
  set (u := (rad x - rad y) / 2) in *. set (v := (rad x + rad y) / 2) in *.
  assert (Bu : - (PI / 2 + 0.000002) <= u <= 0) by (unfold u, rad; split; nra). assert (Bv : -0.000002 <= v <= PI + 0.000002) by (unfold v, rad; split; nra).
  assert (Su : -1 <= sin u <= 0). { split; [apply SIN_bound|]. rewrite <- (Ropp_involutive u), sin_neg. assert (0 <= sin (- u)) by (apply sin_ge_0; lra). lra. }
  assert (Sv : -0.000003 <= sin v).
  { destruct (Rle_dec 0 v) as [L|L]; [destruct (Rle_dec v PI) as [M|M]|].
    - assert (0 <= sin v) by (now apply sin_ge_0). lra.
    - assert (T := sin_lip v PI). rewrite sin_PI in T. assert (Rabs (v - PI) <= 0.000002) by (apply Rabs_le; lra). assert (T2 := Rle_trans _ _ _ T H). apply Rabs_le_inv in T2. lra.
    - assert (T := sin_lip v 0). rewrite sin_0 in T. assert (Rabs (v - 0) <= 0.000002) by (apply Rabs_le; lra). assert (T2 := Rle_trans _ _ _ T H). apply Rabs_le_inv in T2. lra. }
  nra.
Qed.

(** ** Two true solar times of one day *)
Section Two.
  Variables (alg : string) (c : Z -> Z -> Z -> Z) (t y t' y' tst tst' : Z) (lo eot eot' : R).
  Hypothesis Hy : alg = "iqbal"%string -> y = y'.
  Hypothesis T : Rabs (IZR (tst - t) - (4 * lo + eot) * 60000000000) < 3000.
  Hypothesis T' : Rabs (IZR (tst' - t') - (4 * lo + eot') * 60000000000) < 3000.
  Hypothesis Ee : Rabs (eot - eot') <= 0.0000064 * seconds_apart alg c t y t' y' + 800 / 1000000000.
  Hypothesis Hm : midnight_of tst = midnight_of tst'.
  Hypothesis Hl : (1800000000000 <= tst' - tst)%Z.
  Let g := hour_angle tst' - hour_angle tst.
  Lemma g_eq : g = IZR (tst' - tst) / 1000000000 * (PI / 43200).
  Proof.
    unfold g, hour_angle, day_hours, rad. unfold midnight_of in Hm. replace (tst' - tst)%Z with (tst' mod 86400000000000 - tst mod 86400000000000)%Z by lia.
    rewrite minus_IZR. field.
  Qed.
  Lemma g_ge : 0.1308 <= g.
  Proof.
    rewrite g_eq. apply IZR_le in Hl. assert (P : 3.14159 <= PI <= 3.1416) by (split; interval). set (x := IZR (tst' - tst)) in *.
    assert (1800 * (PI / 43200) <= x / 1000000000 * (PI / 43200)) by (apply Rmult_le_compat_r; lra). lra.
  Qed.
  Lemma apart : seconds_apart alg c t y t' y' <= 13757 * g + 1.01.
  Proof.
    assert (E : seconds_apart alg c t y t' y' = IZR (Z.abs (t / 1000000000 - t' / 1000000000))).
    { unfold seconds_apart. destruct (String.eqb_spec alg "iqbal") as [He|_]; [|ring]. rewrite (Hy He). rewrite !Z.sub_diag. cbn. ring. }
    assert (L : IZR (Z.abs (t / 1000000000 - t' / 1000000000)) <= Rabs (IZR (t' - t)) / 1000000000 + 1).
    { rewrite <- abs_IZR. assert (A := Z.div_mod t 1000000000 ltac:(lia)). assert (B := Z.mod_pos_bound t 1000000000 ltac:(lia)).
      assert (A' := Z.div_mod t' 1000000000 ltac:(lia)). assert (B' := Z.mod_pos_bound t' 1000000000 ltac:(lia)).
      assert (X : (Z.abs (t / 1000000000 - t' / 1000000000) * 1000000000 <= Z.abs (t' - t) + 1000000000)%Z)
        by (clear - A B A' B'; set (q := (t / 1000000000)%Z) in *; set (q' := (t' / 1000000000)%Z) in *; set (r := (t mod 1000000000)%Z) in *; set (r' := (t' mod 1000000000)%Z) in *; clearbody q q' r r'; lia).
      apply IZR_le in X. rewrite mult_IZR, plus_IZR in X. lra. }
    assert (Q : IZR (tst' - tst) / 1000000000 <= 13751 * g).
    { rewrite g_eq. apply IZR_le in Hl. assert (P : 3.14159 <= PI <= 3.1416) by (split; interval). set (x := IZR (tst' - tst)) in *.
      assert (1 <= 13751 * (PI / 43200)) by interval. nra. }
    rewrite E in *. set (s := IZR (Z.abs (t / 1000000000 - t' / 1000000000))) in *. clearbody s. clear E.
    assert (G := g_ge). assert (Hl2 := Hl). apply IZR_le in Hl2. clearbody g. apply Rabs_def2 in T, T'. apply Rabs_le_inv in Ee. rewrite !minus_IZR in *. unfold Rabs in L. destruct (Rcase_abs (IZR t' - IZR t)); lra.
  Qed.
  (** Declinations that differ little, heights of the sun to 0.00077. *)
  Section Heights.
    Variables (la dd dd' zd zd' : R).
    Hypothesis Bla : Rabs la <= 70.
    Hypothesis Bdd : Rabs dd <= 23.61.
    Hypothesis Ed : Rabs (rad dd - rad dd') <= 0.0000000915 * seconds_apart alg c t y t' y' + 3 / 1000000000.
    Hypothesis Bz : -0.0001 <= zd <= 180.0001.
    Hypothesis Bz' : -0.0001 <= zd' <= 180.0001.
    Hypothesis HU : forall H e, near_turn H (solar_hour_angle t lo eot) e -> Rabs (cos (rad zd) - sun_U (rad la) (rad dd) H) <= e + 0.00077.
    Hypothesis HU' : forall H e, near_turn H (solar_hour_angle t' lo eot') e -> Rabs (cos (rad zd') - sun_U (rad la) (rad dd') H) <= e + 0.00077.
    Lemma heights : (day_hours tst' <= 12 -> zd' < zd) /\ (12 <= day_hours tst -> zd < zd').
    Proof.
      assert (K := HU _ _ (tst_hour _ _ _ _ T)). assert (K' := HU' _ _ (tst_hour _ _ _ _ T')). apply Rabs_le_inv in K, K'.
      assert (Bp : 0.342 <= cos (rad la)) by (apply Rabs_le_inv in Bla; clear - Bla; unfold rad; interval).
      assert (Bd : 0.916 <= cos (rad dd)) by (apply Rabs_le_inv in Bdd; clear - Bdd; unfold rad; interval).
      assert (Ha := hour_angle_b tst). assert (Ha' := hour_angle_b tst'). apply Rabs_le_inv in Ha, Ha'.
      assert (G := g_ge). assert (A := apart). set (a := hour_angle tst) in *. set (a' := hour_angle tst') in *.
      assert (Hg : a' = a + g) by (unfold g; ring). assert (Hdd : Rabs (rad dd - rad dd') <= 0.00127 * g) by lra. assert (P := PI_RGT_0).
      assert (D0 : forall x, day_hours x <= 12 -> hour_angle x <= 0) by (intros x Hx; unfold hour_angle, rad; nra).
      assert (D1 : forall x, 12 <= day_hours x -> 0 <= hour_angle x) by (intros x Hx; unfold hour_angle, rad; nra).
      split; intros Hh; apply Rnot_le_lt; intros C.
      - apply D0 in Hh. fold a' in Hh. assert (M := zen_mono zd zd' ltac:(lra) C ltac:(lra)).
        assert (F := cos_fall (- a') g ltac:(lra) ltac:(lra) ltac:(lra)). rewrite cos_neg in F. replace (- a' + g) with (- a) in F by (rewrite Hg; ring). rewrite cos_neg in F.
        assert (X := gap_U (rad la) (rad dd) (rad dd') g Bp Bd ltac:(lra) Hdd a a' F). lra.
      - apply D1 in Hh. fold a in Hh. assert (M := zen_mono zd' zd ltac:(lra) C ltac:(lra)).
        assert (F := cos_fall a g ltac:(lra) ltac:(lra) ltac:(lra)). rewrite <- Hg in F.
        assert (X : sun_U (rad la) (rad dd') a' + 0.001697 <= sun_U (rad la) (rad dd) a).
        { assert (G2 := climb_gap g ltac:(assert (PI <= 3.1416) by interval; lra)). assert (Q := dec_height (rad la) (rad dd) (rad dd') a'). apply Rabs_le_inv in Q.
          assert (S0 : 0 <= sin (g / 2) * sin (g / 2)) by apply Rle_0_sqr. set (r := 2 * (sin (g / 2) * sin (g / 2))) in *. assert (0 <= r) by (unfold r; lra).
          assert (P2 : 0.342 * 0.916 <= cos (rad la) * cos (rad dd)) by (apply Rmult_le_compat; lra).
          assert (0.342 * 0.916 * r <= cos (rad la) * cos (rad dd) * (cos a - cos a')) by (apply Rmult_le_compat; lra).
          assert (E : sun_U (rad la) (rad dd) a - sun_U (rad la) (rad dd) a' = cos (rad la) * cos (rad dd) * (cos a - cos a')) by (unfold sun_U; ring). lra. }
        lra.
    Qed.
  End Heights.
End Two.

(** ** C85 *)
Theorem C85_climb : forall day_number E nf uc uc' times times' lat lat' lon lon' alg refr refr' eng eng' sp sp' k k' j j' i i' t t' y y' la lo zd zd' tst tst',
  calendar day_number -> in_year day_number y t -> in_year day_number y' t' -> (alg = "iqbal"%string -> y = y') ->
  float32_like E -> is_True refr = false -> is_True refr' = false ->
  evaluated_cell E uc times lat lon alg refr eng sp k j i t la lo -> evaluated_cell E uc' times' lat' lon' alg refr' eng' sp' k' j' i' t' la lo ->
  nth_error (sp_times_utc sp) k = Some (Some t) -> nth_error (sp_times_utc sp') k' = Some (Some t') ->
  reads (zenith (O := ExtOps E) sp) k j i (Fin zd) -> reads (zenith (O := ExtOps E) sp') k' j' i' (Fin zd') ->
  reads (true_solar_time (O := ExtOps E) nf sp) k j i (Some tst) -> reads (true_solar_time (O := ExtOps E) nf sp') k' j' i' (Some tst') ->
  Rabs la <= 70 -> midnight_of tst = midnight_of tst' -> (1800000000000 <= tst' - tst)%Z ->
  (day_hours tst' <= 12 -> zd' < zd) /\ (12 <= day_hours tst -> zd < zd').
Proof.
  intros c E nf uc uc' times times' lat lat' lon lon' alg refr refr' eng eng' sp sp' k k' j j' i i' t t' y y' la lo zd zd' tst tst'
    Hc Y Y' Hy HE Hr Hr' C C' Hu Hu' Hz Hz' Ht Ht' Bla Hm Hl.
  destruct (height _ _ _ _ _ _ _ _ _ _ _ _ _ _ _ _ HE Hr C Hz) as (dd & eot & V1 & W1 & W2 & V2 & B & HU).
  destruct (height _ _ _ _ _ _ _ _ _ _ _ _ _ _ _ _ HE Hr' C' Hz') as (dd' & eot' & V1' & W1' & W2' & V2' & B' & HU').
  destruct (C79_rates _ _ _ _ _ _ _ _ _ _ _ _ _ _ _ _ _ _ _ _ _ _ _ _ Hc Y Y' (proj1 C) (proj1 C')) as (d1 & m1 & x1 & d2 & m2 & x2 & X1 & X2 & _ & X4 & X5 & _ & R1 & R2 & _).
  unfold value in *. rewrite W1 in X1. injection X1 as <-. rewrite W2 in X2. injection X2 as <-. rewrite W1' in X4. injection X4 as <-. rewrite W2' in X5. injection X5 as <-.
  assert (Bd := cell_dec E _ _ _ _ _ _ _ _ _ _ _ _ _ _ _ C V1).
  destruct (C42_true_solar_time E nf _ _ _ _ _ _ _ _ _ _ _ _ _ _ _ C V2) as (u & x & U1 & U2 & U3). rewrite Hu in U1. injection U1 as <-. assert (X := reads_fun _ _ _ _ _ _ Ht U2). injection X as <-.
  destruct (C42_true_solar_time E nf _ _ _ _ _ _ _ _ _ _ _ _ _ _ _ C' V2') as (u & x & U1 & U2' & U3'). rewrite Hu' in U1. injection U1 as <-. assert (X := reads_fun _ _ _ _ _ _ Ht' U2'). injection X as <-.
  apply (heights alg c t y t' y' tst tst' lo eot eot' Hy ltac:(lra) ltac:(lra) ltac:(lra) Hm Hl la dd dd' zd zd' Bla ltac:(apply Rabs_le; lra) ltac:(lra) B B' HU HU').
Qed.
Theorem C85_climb_double : forall day_number D nf uc uc' times times' lat lat' lon lon' alg refr refr' eng eng' sp sp' k k' j j' i i' t t' y y' la lo zd zd' tst tst',
  calendar day_number -> in_year day_number y t -> in_year day_number y' t' -> (alg = "iqbal"%string -> y = y') ->
  double_like D -> is_True refr = false -> is_True refr' = false ->
  evaluated_cell64 D uc times lat lon alg refr eng sp k j i t la lo -> evaluated_cell64 D uc' times' lat' lon' alg refr' eng' sp' k' j' i' t' la lo ->
  nth_error (sp_times_utc sp) k = Some (Some t) -> nth_error (sp_times_utc sp') k' = Some (Some t') ->
  reads (zenith (O := DoubleOps D) sp) k j i (Fin zd) -> reads (zenith (O := DoubleOps D) sp') k' j' i' (Fin zd') ->
  reads (true_solar_time (O := DoubleOps D) nf sp) k j i (Some tst) -> reads (true_solar_time (O := DoubleOps D) nf sp') k' j' i' (Some tst') ->
  Rabs la <= 70 -> midnight_of tst = midnight_of tst' -> (1800000000000 <= tst' - tst)%Z ->
  (day_hours tst' <= 12 -> zd' < zd) /\ (12 <= day_hours tst -> zd < zd').
Proof.
  intros c D nf uc uc' times times' lat lat' lon lon' alg refr refr' eng eng' sp sp' k k' j j' i i' t t' y y' la lo zd zd' tst tst'
    Hc Y Y' Hy HD Hr Hr' C C' Hu Hu' Hz Hz' Ht Ht' Bla Hm Hl.
  destruct (height64 _ _ _ _ _ _ _ _ _ _ _ _ _ _ _ _ HD Hr C Hz) as (d & dd & eot & V1 & W1 & Q1 & Bd & W2 & V2 & B & HU).
  destruct (height64 _ _ _ _ _ _ _ _ _ _ _ _ _ _ _ _ HD Hr' C' Hz') as (d' & dd' & eot' & V1' & W1' & Q1' & Bd' & W2' & V2' & B' & HU').
  destruct (C79_rates_double _ _ _ _ _ _ _ _ _ _ _ _ _ _ _ _ _ _ _ _ _ _ _ _ Hc Y Y' HD HD (proj1 C) (proj1 C')) as (d1 & m1 & x1 & d2 & m2 & x2 & X1 & X2 & _ & X4 & X5 & _ & R1 & R2 & _).
  unfold value in *. rewrite W1 in X1. injection X1 as <-. rewrite W2 in X2. injection X2 as <-. rewrite W1' in X4. injection X4 as <-. rewrite W2' in X5. injection X5 as <-.
  destruct (C77_true_solar_time D nf _ _ _ _ _ _ _ _ _ _ _ _ _ _ _ _ HD C V2 Hu (proj2 (proj2 (proj1 C)))) as (x & U2 & _ & U3). assert (X := reads_fun _ _ _ _ _ _ Ht U2). injection X as <-.
  destruct (C77_true_solar_time D nf _ _ _ _ _ _ _ _ _ _ _ _ _ _ _ _ HD C' V2' Hu' (proj2 (proj2 (proj1 C')))) as (x & U2' & _ & U3'). assert (X := reads_fun _ _ _ _ _ _ Ht' U2'). injection X as <-.
  assert (Edd : Rabs (rad dd - rad dd') <= 0.0000000915 * seconds_apart alg c t y t' y' + 3 / 1000000000).
  { replace (rad dd - rad dd') with ((d - d') + ((d' - rad dd') - (d - rad dd))) by ring. eapply Rle_trans; [apply Rabs_triang|].
    assert (Z : Rabs ((d' - rad dd') - (d - rad dd)) <= 2 / 10 ^ 14) by (apply Rabs_le_inv in Q1, Q1'; apply Rabs_le; lra). lra. }
  apply (heights alg c t y t' y' tst tst' lo eot eot' Hy ltac:(lra) ltac:(lra) ltac:(lra) Hm Hl la dd dd' zd zd' Bla Bd Edd B B' HU HU').
Qed.

(** ** The hypotheses are met: 21 June 2024, 40 degrees north, at 09:00 and 11:00, and at 14:00 and 16:00 UTC *)
Definition hour : Z := 3600000000000%Z.
Lemma year_2024 n : (-1 <= n <= 6)%Z -> in_year gregorian 2024 (w_t + n * hour).
Proof.
  intros H. unfold in_year. change (gregorian 2024 1 1) with 19723%Z. change (gregorian (2024 + 1) 1 1) with 20089%Z. unfold w_t, hour.
  split; [apply Z.div_le_lower_bound; lia|apply Z.div_lt_upper_bound; lia].
Qed.
Lemma hour_cell nf uc alg eng m n : In (alg, eng, m) (supported (O := ExtOps ideal_env)) -> (-1 <= n <= 6)%Z -> let t := (w_t + n * hour)%Z in
  exists sp zd tst, evaluated_cell ideal_env uc (at_times [Some t]) (Scalar (Fin 40)) (Scalar (Fin (-3))) alg RFalse eng sp 0 0 0 t 40 (-3) /\
    nth_error (sp_times_utc sp) 0 = Some (Some t) /\ reads (zenith (O := ExtOps ideal_env) sp) 0 0 0 (Fin zd) /\
    reads (true_solar_time (O := ExtOps ideal_env) nf sp) 0 0 0 (Some tst) /\
    (t - 33 * 60000000000 <= tst <= t + 9 * 60000000000)%Z.
Proof.
  intros H Hn t. assert (Rt : representable t) by (unfold t, representable, w_t, hour; lia).
  destruct (one_cell ideal_env uc t 40 (-3) alg RFalse eng m H Rt ltac:(lra) ltac:(lra)) as (sp & C).
  destruct (cell_cosz ideal_env _ _ _ _ _ _ _ _ _ _ _ _ _ _ ideal_ideal (eq_refl : is_True RFalse = false) C) as (zd & d & eot & Hz & Bz & Bd & Be & _).
  destruct (height _ _ _ _ _ _ _ _ _ _ _ _ _ _ _ _ (ideal_like _ ideal_ideal) (eq_refl : is_True RFalse = false) C Hz) as (dd & e & _ & _ & _ & V2 & _).
  destruct (C42_true_solar_time ideal_env nf _ _ _ _ _ _ _ _ _ _ _ _ _ _ _ C V2) as (u & tst & U1 & U2 & U3).
  destruct (cell_data ideal_env _ _ _ _ _ _ _ _ _ _ _ _ _ _ C) as (_ & _ & _ & _ & _ & (e' & He' & Be') & _). assert (X := reads_fun _ _ _ _ _ _ V2 He'). injection X as <-.
  assert (Hu : nth_error (sp_times_utc sp) 0 = Some (Some t)) by now rewrite (C14_times_utc_partial _ _ _ _ (at_times [Some t]) _ _ _ _ _ _ I (proj1 (proj1 C))).
  rewrite Hu in U1. injection U1 as <-. exists sp, zd, tst. do 4 (split; [assumption|]).
  apply Rabs_def2 in U3. assert (Bx : -20 <= e <= 20) by (first [lra | apply Rabs_le_inv in Be'; lra]). rewrite minus_IZR in U3.
  split; apply le_IZR; rewrite ?minus_IZR, ?plus_IZR, ?mult_IZR; clearbody t; lra.
Qed.
Example C85_example : forall nf uc alg eng m, In (alg, eng, m) (supported (O := ExtOps ideal_env)) ->
  calendar gregorian /\ float32_like ideal_env /\ forall n, In n [-1; 4]%Z -> let t := (w_t + n * hour)%Z in let t' := (w_t + (n + 2) * hour)%Z in
  exists sp sp' zd zd' tst tst', in_year gregorian 2024 t /\ in_year gregorian 2024 t' /\
    evaluated_cell ideal_env uc (at_times [Some t]) (Scalar (Fin 40)) (Scalar (Fin (-3))) alg RFalse eng sp 0 0 0 t 40 (-3) /\
    evaluated_cell ideal_env uc (at_times [Some t']) (Scalar (Fin 40)) (Scalar (Fin (-3))) alg RFalse eng sp' 0 0 0 t' 40 (-3) /\
    nth_error (sp_times_utc sp) 0 = Some (Some t) /\ nth_error (sp_times_utc sp') 0 = Some (Some t') /\
    reads (zenith (O := ExtOps ideal_env) sp) 0 0 0 (Fin zd) /\ reads (zenith (O := ExtOps ideal_env) sp') 0 0 0 (Fin zd') /\
    reads (true_solar_time (O := ExtOps ideal_env) nf sp) 0 0 0 (Some tst) /\ reads (true_solar_time (O := ExtOps ideal_env) nf sp') 0 0 0 (Some tst') /\
    midnight_of tst = midnight_of tst' /\ (if Z.eqb n (-1) then day_hours tst' <= 12 else 12 <= day_hours tst) /\
    if Z.eqb n (-1) then zd' < zd else zd < zd'.
Proof.
  intros nf uc alg eng m H. split; [exact gregorian_calendar|]. split; [exact (ideal_like _ ideal_ideal)|]. intros n Hn t t'.
  assert (Bn : (n = -1 \/ n = 4)%Z) by (destruct Hn as [<-|[<-|[]]]; auto).
  destruct (hour_cell nf uc alg eng m n H ltac:(lia)) as (sp & zd & tst & C & Hu & Hz & Ht & Bt). fold t in C, Hu, Bt.
  destruct (hour_cell nf uc alg eng m (n + 2) H ltac:(lia)) as (sp' & zd' & tst' & C' & Hu' & Hz' & Ht' & Bt'). fold t' in C', Hu', Bt'.
  assert (Y : in_year gregorian 2024 t) by (apply year_2024; lia). assert (Y' : in_year gregorian 2024 t') by (apply year_2024; lia).
  assert (Em : forall x, (w_t - 2 * hour <= x <= w_t + 7 * hour)%Z -> (x mod 86400000000000 = x - 1718928000000000000)%Z).
  { intros x Hx. symmetry. apply (Z.mod_unique_pos x 86400000000000 19895 (x - 1718928000000000000)); unfold w_t, hour in Hx; lia. }
  assert (M : (tst mod 86400000000000 = tst - 1718928000000000000)%Z) by (apply Em; unfold t, hour in *; lia).
  assert (M' : (tst' mod 86400000000000 = tst' - 1718928000000000000)%Z) by (apply Em; unfold t', hour in *; lia).
  assert (Hm : midnight_of tst = midnight_of tst') by (unfold midnight_of; rewrite M, M'; lia).
  assert (Hl : (1800000000000 <= tst' - tst)%Z) by (unfold t, t', hour in *; lia). assert (A40 : Rabs 40 <= 70) by (rewrite Rabs_pos_eq by lra; lra).
  destruct (C85_climb gregorian ideal_env nf _ _ _ _ _ _ _ _ _ _ _ _ _ _ _ _ _ _ _ _ _ _ _ _ _ _ _ _ _ _ _ gregorian_calendar Y Y' (fun _ => eq_refl) (ideal_like _ ideal_ideal)
    (eq_refl : is_True RFalse = false) (eq_refl : is_True RFalse = false) C C' Hu Hu' Hz Hz' Ht Ht' A40 Hm Hl) as [P1 P2].
  assert (Q : if Z.eqb n (-1) then day_hours tst' <= 12 else 12 <= day_hours tst).
  { unfold day_hours. rewrite M, M'. destruct Bn as [->| ->]; cbn [Z.eqb Pos.eqb].
    - assert (X : (tst' - 1718928000000000000 <= 43200000000000)%Z) by (clear - Bt'; subst t'; unfold w_t, hour in *; lia). apply IZR_le in X. lra.
    - assert (X : (43200000000000 <= tst - 1718928000000000000)%Z) by (clear - Bt; subst t; unfold w_t, hour in *; lia). apply IZR_le in X. lra. }
  exists sp, sp', zd, zd', tst, tst'. do 11 (split; [assumption|]). split; [exact Q|]. destruct (Z.eqb n (-1)); auto.
Qed.
