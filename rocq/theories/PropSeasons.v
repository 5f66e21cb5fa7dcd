(** * PropSeasons: the sun by the month (C82, C83, C84) *)
From Coq Require Import ZArith QArith Reals Bool List String Lra Lia.
From Flocq Require Import Core.Raux.
From Interval Require Import Tactic.
From Verif Require Import Num Arrays Libspa Time Core Usecases Spec GenericLemmas GenericLemmas2 TimeLemmas Ext ExtLemmas Witness
  AstroTac Sky SkyClose AstroSpec Astro AstroCell AstroCall AstroRefute Float32 PropAstro Sunpos SunposSpec SunposLemmas SunposR SunposCells PropSunpos
  CalendarSpec CalendarLemmas PropCalendar Almanac AlmanacPos PropAlmanac SingleSpec SingleLemmas PropSingle PropSinglePos SmoothR SmoothI PropSmooth
  Double DoubleSpec PropDouble PropDoublePos TopoSpec PropNrelD SunposD PropSunposD DayR PropPipeline PropRefrD PropDay SeasonSpec SeasonR.
Import ListNotations.
Open Scope R_scope.

(** ** The calendar *)
(** The sun's mean longitude at the start of a year (degrees). *)
Definition years : list Z := map (fun n => 1677 + Z.of_nat n)%Z (seq 0 586).
Definition drift_ok (y : Z) : bool :=
  let v := (2048807490300 + 3600076983 * (2 * jan1 y - 21915) - 360 * (y - 2000) * 7305000000)%Z in
  ((2039630 * 1000000 <=? v) && (v <=? 2056138 * 1000000))%Z.
Lemma drift_all : forallb drift_ok years = true.
Proof. vm_compute. reflexivity. Qed.
Lemma drift y : (1677 <= y <= 2262)%Z -> 279.21 <= 280.46646 + 36000.76983 * ((IZR (jan1 y) - 10957.5) / 36525) - 360 * (IZR y - 2000) <= 281.47.
Proof.
  intros B. assert (H := proj1 (forallb_forall _ _) drift_all y). specialize (H ltac:(apply in_map_iff; exists (Z.to_nat (y - 1677)); split; [lia|apply in_seq; lia])).
  unfold drift_ok in H. apply andb_prop in H. destruct H as [H1 H2]. apply Z.leb_le, IZR_le in H1, H2. rewrite minus_IZR, plus_IZR, !mult_IZR, !minus_IZR, !mult_IZR in H1, H2. lra.
Qed.
Lemma month_days c y m t : calendar c -> in_month c y m t ->
  exists n, first_day m <= n <= last_day m /\ n = IZR (t / 1000000000 - 86400 * c y 1%Z 1%Z) / 86400 /\ 0 <= n <= 366 /\ in_year c y t.
Proof.
  intros Hc [Hm Ht]. exists (IZR (t / 1000000000 - 86400 * c y 1%Z 1%Z) / 86400). unfold in_year. rewrite !(calendar_unique c Hc) in * by lia. unfold gregorian in *. rewrite jan1_next. unfold year_length, before_month, month_length in *.
  set (s := (t / 1000000000)%Z) in *. clearbody s. generalize dependent (jan1 y). intros j Ht.
  set (l := leap y) in *. clearbody l. assert (G : forall x a b, (86400 * a <= x <= 86400 * b)%Z -> IZR a <= IZR x / 86400 <= IZR b).
  { intros x a b [H1 H2]. apply IZR_le in H1, H2. rewrite mult_IZR in H1, H2. lra. }
  assert (m = 1 \/ m = 2 \/ m = 3 \/ m = 4 \/ m = 5 \/ m = 6 \/ m = 7 \/ m = 8 \/ m = 9 \/ m = 10 \/ m = 11 \/ m = 12)%Z as H by lia.
  assert (Z0 : (if (l && (2 <? 1))%Z then 1 else 0)%Z = 0%Z) by (destruct l; reflexivity). rewrite Z0 in *. clear Z0. change (2 <? 1)%Z with false. rewrite andb_false_r.
  destruct H as [-> | [-> | [-> | [-> | [-> | [-> | [-> | [-> | [-> | [-> | [-> | ->]]]]]]]]]]]; destruct l;
    cbn [Z.eqb Pos.eqb Z.ltb Z.compare Pos.compare Pos.compare_cont orb andb] in *; unfold first_day, last_day; (split; [apply G; lia|split; [reflexivity|split; [apply G; lia|lia]]]).
Qed.

(** ** The almanac over a month *)
Lemma sin_whole a b k : a = b + 2 * PI * IZR k -> sin a = sin b /\ cos a = cos b.
Proof. intros ->. split; [rewrite <- (sin_2kpi _ k)|rewrite <- (cos_2kpi _ k)]; f_equal; ring. Qed.
Lemma L0_at y T x : x = 280.46646 + 36000.76983 * T + 0.0003032 * T ^ 2 - 360 * (IZR y - 2000) ->
  al_C T = Cx x T * (PI / 180) /\ sin (al_L0 T) = sin (x * (PI / 180)) /\ cos (al_L0 T) = cos (x * (PI / 180)) /\
  sin (al_lon T) = sin (lx x T) /\ cos (al_lon T) = cos (lx x T) /\ cos (al_M T + al_C T) = cos ((Mx x T + Cx x T) * (PI / 180)) /\
  al_L0 T - al_lon T = (0.00569 - Cx x T) * (PI / 180).
Proof.
  intros Ex. set (k := (y - 2000)%Z). assert (Ek : IZR k = IZR y - 2000) by (unfold k; now rewrite minus_IZR).
  assert (E1 : al_L0 T = x * (PI / 180) + 2 * PI * IZR k) by (unfold al_L0, deg; rewrite Ek, Ex; q2; field).
  assert (E2 : al_M T = Mx x T * (PI / 180) + 2 * PI * IZR k) by (unfold al_M, deg, Mx; rewrite Ek, Ex; q2; field).
  assert (EC : al_C T = Cx x T * (PI / 180)).
  { unfold al_C, Cx, deg. cbv zeta. destruct (sin_whole _ _ _ E2) as [-> _].
    destruct (sin_whole (2 * al_M T) (2 * (Mx x T * (PI / 180))) (2 * k)) as [-> _]; [rewrite E2, mult_IZR; ring|].
    destruct (sin_whole (3 * al_M T) (3 * (Mx x T * (PI / 180))) (3 * k)) as [-> _]; [rewrite E2, mult_IZR; ring|]. reflexivity. }
  destruct (sin_whole _ _ _ E1) as [S1 S2].
  assert (E3 : al_lon T = lx x T + 2 * PI * IZR k) by (unfold al_lon, lx; rewrite E1, EC; unfold deg; ring). destruct (sin_whole _ _ _ E3) as [S3 S4].
  split; [exact EC|]. split; [exact S1|]. split; [exact S2|]. split; [exact S3|]. split; [exact S4|]. split.
  - apply (sin_whole _ _ k). rewrite E2, EC. ring.
  - rewrite E1, E3. unfold lx. ring.
Qed.
Lemma asin_range lo hi s : - (PI / 2) <= lo -> hi <= PI / 2 -> -1 <= s <= 1 -> sin lo <= s <= sin hi -> lo <= PI / 2 -> - (PI / 2) <= hi -> lo <= asin s <= hi.
Proof.
  intros B1 B2 Bs [H1 H2] B3 B4. assert (A := asin_bound s). assert (S := sin_asin s Bs). split; apply Rnot_lt_le; intros L; apply sin_increasing_1 in L; lra.
Qed.
Lemma al_season y m x T : (1 <= m <= 12)%Z -> x = 280.46646 + 36000.76983 * T + 0.0003032 * T ^ 2 - 360 * (IZR y - 2000) ->
  first_lon m <= x <= last_lon m -> -3.25 <= T <= 2.65 ->
  (fst (dec_range m) + 0.04) * (PI / 180) <= al_dec T <= (snd (dec_range m) - 0.04) * (PI / 180) /\
  (forall m', al_eot T m' -> fst (eot_range m) + 0.49 <= m' <= snd (eot_range m) - 0.49) /\
  fst (ecf_range m) + 0.0005 <= 1 / al_R T ^ 2 <= snd (ecf_range m) - 0.0005.
Proof.
  intros Hm Ex Bx BT. destruct (L0_at y T x Ex) as (EC & S1 & S2 & S3 & S4 & S5 & S6). destruct (al_month m x T Hm Bx BT) as (D & E1 & E2 & F).
  assert (Eo : al_obl T = ox T) by reflexivity.
  assert (Es : sin (al_obl T) * sin (al_lon T) = sdec x T) by (rewrite S3, Eo; reflexivity).
  assert (P0 : 3.1415 <= PI <= 3.1416) by (split; interval).
  assert (Rg : -24 <= fst (dec_range m) <= 24 /\ -24 <= snd (dec_range m) <= 24 /\ -17 <= fst (eot_range m) <= 17.5 /\ -17 <= snd (eot_range m) <= 17.5).
  { clear - Hm. assert (m = 1 \/ m = 2 \/ m = 3 \/ m = 4 \/ m = 5 \/ m = 6 \/ m = 7 \/ m = 8 \/ m = 9 \/ m = 10 \/ m = 11 \/ m = 12)%Z as H by lia.
    destruct H as [-> | [-> | [-> | [-> | [-> | [-> | [-> | [-> | [-> | [-> | [-> | ->]]]]]]]]]]]; cbn [fst snd dec_range eot_range]; lra. }
  assert (Bs : Rabs (sdec x T) <= 0.41).
  { unfold sdec. rewrite Rabs_mult. assert (B1 : Rabs (sin (ox T)) <= 0.41) by (unfold ox; apply Rabs_le; clear - BT; split; interval). assert (B2 : Rabs (sin (lx x T)) <= 1) by (apply Rabs_le, SIN_bound).
    apply Rle_trans with (0.41 * 1); [apply Rmult_le_compat; try apply Rabs_pos; assumption|lra]. }
  apply Rabs_le_inv in Bs. split; [|split].
  - unfold al_dec. rewrite Es. apply asin_range; try lra; nra.
  - intros m' (Bm & a & (Q1 & Q2 & Q3 & Q4) & (k & Ek)).
    assert (Cd : cos (al_dec T) = cdec x T). { unfold al_dec. rewrite Es, cos_asin by lra. reflexivity. }
    set (th := (m' / 4 + 0.0057183) * (PI / 180)).
    assert (Et : th = (al_L0 T - a) + 2 * PI * IZR k) by (unfold th; rewrite Ek; field; lra).
    destruct (sin_whole _ _ _ Et) as [St _].
    assert (Eq : cdec x T * sin th = seot x T).
    { rewrite St, sin_minus, <- Cd. rewrite ?cos_0, ?sin_0 in Q1. rewrite ?cos_0, ?sin_0 in Q2. replace (cos (al_dec T) * (sin (al_L0 T) * cos a - cos (al_L0 T) * sin a)) with (sin (al_L0 T) * (cos (al_dec T) * cos a) - cos (al_L0 T) * (cos (al_dec T) * sin a)) by ring.
      rewrite Q1, Q2. unfold seot. rewrite <- S6, sin_minus, <- S2, <- S3, Eo.
      assert (H2 : cos (ox T) = 1 - 2 * (sin (ox T / 2) * sin (ox T / 2))) by (replace (ox T) with (2 * (ox T / 2)) at 1 by field; rewrite cos_2a_sin; ring). rewrite H2. ring. }
    assert (Cp : 0 < cdec x T) by (apply sqrt_lt_R0; nra). rewrite <- Eq in E1, E2.
    assert (K1 : se (fst (eot_range m) + 0.49) <= sin th) by (apply Rmult_le_reg_l with (cdec x T); lra). assert (K2 : sin th <= se (snd (eot_range m) - 0.49)) by (apply Rmult_le_reg_l with (cdec x T); lra).
    apply Rabs_le_inv in Bm. unfold se in K1, K2. assert (Bt : Rabs th <= 1). { unfold th. rewrite Rabs_mult, (Rabs_pos_eq (PI / 180)) by lra. assert (Rabs (m' / 4 + 0.0057183) <= 6) by (apply Rabs_le; lra). apply Rle_trans with (6 * (PI / 180)); [apply Rmult_le_compat_r; lra|lra]. }
    apply Rabs_le_inv in Bt.
    assert (Mono : forall u v, -50 <= u <= 50 -> -50 <= v <= 50 -> sin (u * (PI / 180)) <= sin (v * (PI / 180)) -> u <= v).
    { intros u v Bu Bv H. apply Rnot_lt_le. intros L. assert (v * (PI / 180) < u * (PI / 180)) by nra. apply sin_increasing_1 in H0; [lra|nra..]. }
    unfold th in K1, K2. apply Mono in K1; [|lra..]. apply Mono in K2; [|lra..]. lra.
  - replace (1 / al_R T ^ 2) with (secf x T); [exact F|]. unfold secf, al_R. rewrite S5. reflexivity.
Qed.

(** ** C82: the year *)
Lemma lon_days m n : (1 <= m <= 12)%Z -> first_day m <= n <= last_day m -> first_lon m - 279.2 <= 0.98564736 * n + 0.0001 /\ 0.98564736 * n - 0.0001 <= last_lon m - 281.5.
Proof.
  intros Hm B. assert (m = 1 \/ m = 2 \/ m = 3 \/ m = 4 \/ m = 5 \/ m = 6 \/ m = 7 \/ m = 8 \/ m = 9 \/ m = 10 \/ m = 11 \/ m = 12)%Z as H by lia.
  destruct H as [-> | [-> | [-> | [-> | [-> | [-> | [-> | [-> | [-> | [-> | [-> | ->]]]]]]]]]]]; unfold first_day, last_day, first_lon, last_lon in *; lra.
Qed.
Lemma year_span c y t : calendar c -> representable t -> in_year c y t -> (1677 <= y <= 2262)%Z.
Proof.
  intros Hc [R1 R2] Y. unfold in_year in Y.
  assert (S : (-9223372037 <= t / 1000000000 <= 9223372037)%Z) by (split; [apply Z.div_le_lower_bound; lia|apply Z.div_le_upper_bound; lia]).
  rewrite !(calendar_unique c Hc) in Y by lia. unfold gregorian, before_month in Y. cbn [Z.ltb Z.compare Pos.compare Pos.compare_cont] in Y. rewrite !andb_false_r in Y. unfold jan1 in Y.
  Z.div_mod_to_equations. lia.
Qed.
Lemma tols alg T : alg = "psa"%string \/ alg = "iqbal"%string \/ alg = "nrel"%string \/ alg = "soltrack"%string -> alg <> "iqbal"%string -> -3.223 <= T <= 2.623 ->
  dec_tol alg T <= 0.00058 /\ eot_tol alg T <= 0.48 /\ ecf_tol alg <= 0.00048.
Proof.
  intros Hs Ha BT. assert (Rabs T <= 3.223) by (apply Rabs_le; lra). destruct Hs as [-> | [-> | [-> | ->]]]; [|contradiction| |]; unfold dec_tol, eot_tol, ecf_tol; cbn; lra.
Qed.
Lemma season_core c E uc times lat lon alg refr eng sp k t y m : calendar c -> in_month c y m t ->
  evaluated_time E uc times lat lon alg refr eng sp k t ->
  exists d e x, value (sp_declination sp) [k] d /\ value (sp_eot sp) [k] e /\ value (sp_ecf sp) [k] x /\
    (fst (dec_range m) + 0.001) * (PI / 180) <= d <= (snd (dec_range m) - 0.001) * (PI / 180) /\
    fst (eot_range m) + 0.001 <= e <= snd (eot_range m) - 0.001 /\ fst (ecf_range m) + 0.00001 <= x <= snd (ecf_range m) - 0.00001.
Proof.
  intros Hc Hm C. destruct (month_days c y m t Hc Hm) as (n & Bn & En & Bn' & Y). assert (Hm12 := proj1 Hm).
  destruct (string_dec alg "iqbal") as [->|Ha].
  - destruct (C30_iqbal_series _ _ _ _ _ _ _ _ _ _ _ Hc C) as (y' & Y' & V1 & V2 & V3).
    assert (Ey : y' = y).
    { unfold in_year in Y. destruct (Z.lt_trichotomy y' y) as [L|[L|L]]; [|exact L|]; exfalso.
      - assert (M := year_mono c (y' + 1) (y - y' - 1) Hc ltac:(lia)). replace (y' + 1 + (y - y' - 1))%Z with y in M by lia. lia.
      - assert (M := year_mono c (y + 1) (y' - y - 1) Hc ltac:(lia)). replace (y + 1 + (y' - y - 1))%Z with y' in M by lia. lia. }
    subst y'. destruct (iq_month m n Hm12 Bn) as (I1 & I2 & I3).
    replace (year_day c y (t / 1000000000)) with (n + 1) in V1, V2, V3 by (unfold year_day; rewrite En; reflexivity).
    do 3 eexists. split; [exact V1|]. split; [exact V2|]. split; [exact V3|]. now split.
  - destruct (C55_almanac _ _ _ _ _ _ _ _ _ _ _ C) as (d & e & x & m' & V1 & V2 & V3 & A & B1 & B2 & B3).
    assert (Ht := proj2 (proj2 C)). assert (BT := centuries_b t Ht). set (T := centuries t) in *. assert (By := year_span c y t Hc Ht Y). assert (Dr := drift y By).
    assert (ET : T = (IZR (jan1 y) - 10957.5) / 36525 + n / 36525).
    { unfold T, centuries. rewrite En, minus_IZR, mult_IZR. rewrite (calendar_unique c Hc) by lia. replace (gregorian y 1 1) with (jan1 y); [field|]. unfold gregorian, before_month. rewrite andb_false_r. lia. }
    set (x0 := 280.46646 + 36000.76983 * T + 0.0003032 * T ^ 2 - 360 * (IZR y - 2000)).
    assert (Q : 0 <= 0.0003032 * T ^ 2 <= 0.0034) by (split; nra).
    assert (Bx : first_lon m <= x0 <= last_lon m).
    { destruct (lon_days m n Hm12 Bn) as [L1 L2]. unfold x0. assert (EL : 36000.76983 * T = 36000.76983 * ((IZR (jan1 y) - 10957.5) / 36525) + 36000.76983 / 36525 * n) by (rewrite ET; field).
      assert (K : 0.98564736 * n - 0.0001 <= 36000.76983 / 36525 * n <= 0.98564736 * n + 0.0001) by (split; nra). lra. }
    destruct (al_season y m x0 T Hm12 eq_refl Bx ltac:(lra)) as (S1 & S2 & S3). specialize (S2 m' A).
    destruct (call_supported (O := ExtOps E) _ _ _ _ _ _ _ _ _ (proj1 C)) as (q & Hq). destruct (tols alg T (alg_cases alg eng q Hq) Ha ltac:(lra)) as (T1 & T2 & T3).
    exists d, e, x. split; [exact V1|]. split; [exact V2|]. split; [exact V3|].
    assert (PP : 0.01745 <= PI / 180) by interval. apply Rabs_le_inv in B1, B2, B3.
    split; [|split; lra]. set (p := PI / 180) in *. clearbody p. split; nra.
Qed.

Theorem C82_seasons : forall day_number E uc times lat lon alg refr eng sp k j i t y m,
  calendar day_number -> in_month day_number y m t -> evaluated_time E uc times lat lon alg refr eng sp k t ->
  exists dd e x, reads (declination (O := ExtOps E) sp) k j i (Fin dd) /\ reads (Sunpos.eot sp) k j i (Fin e) /\ reads (ecf sp) k j i (Fin x) /\
    fst (dec_range m) <= dd <= snd (dec_range m) /\ fst (eot_range m) <= e <= snd (eot_range m) /\ fst (ecf_range m) <= x <= snd (ecf_range m).
Proof.
  intros c E uc times lat lon alg refr eng sp k j i t y m Hc Hm C. destruct (season_core _ _ _ _ _ _ _ _ _ _ _ _ _ _ Hc Hm C) as (d & e & x & V1 & V2 & V3 & B1 & B2 & B3).
  exists (d * (180 / PI)), e, x. split; [apply (declination_raw E sp k j i); rewrite deg_rad; exact V1|]. split; [exact V2|]. split; [exact V3|].
  split; [|split; lra]. pose proof PI_RGT_0. assert (Ed : d = d * (180 / PI) * (PI / 180)) by (field; lra). assert (P : 0 < PI / 180) by lra. set (w := d * (180 / PI)) in *. clearbody w. set (p := PI / 180) in *. clearbody p. subst d. split; nra.
Qed.
Theorem C82_seasons_double : forall day_number D uc times lat lon alg refr eng sp k j i t y m,
  calendar day_number -> in_month day_number y m t -> double_like D -> evaluated_time64 D uc times lat lon alg refr eng sp k t ->
  exists dd e x, reads (declination (O := DoubleOps D) sp) k j i (Fin dd) /\ reads (Sunpos.eot sp) k j i (Fin e) /\ reads (ecf sp) k j i (Fin x) /\
    fst (dec_range m) <= dd <= snd (dec_range m) /\ fst (eot_range m) <= e <= snd (eot_range m) /\ fst (ecf_range m) <= x <= snd (ecf_range m).
Proof.
  intros c D uc times lat lon alg refr eng sp k j i t y m Hc Hm HD C.
  destruct (twin64 _ _ _ _ _ _ _ _ _ _ _ HD C) as (s0 & d & e & x & d0 & e0 & x0 & C0 & V1 & V2 & V3 & U1 & U2 & U3 & A1 & A2 & A3).
  destruct (season_core _ _ _ _ _ _ _ _ _ _ _ _ _ _ Hc Hm C0) as (d1 & e1 & x1 & W1 & W2 & W3 & B1 & B2 & B3).
  destruct (dec64 _ _ _ _ _ _ _ _ _ _ _ HD C) as (d2 & dd & e2 & x2 & V4 & Hd & Ed & _).
  unfold value in *. rewrite V1 in V4. injection V4 as <-. rewrite U1 in W1. injection W1 as <-. rewrite U2 in W2. injection W2 as <-. rewrite U3 in W3. injection W3 as <-.
  exists dd, e, x. split; [apply Hd|]. split; [exact V2|]. split; [exact V3|]. apply Rabs_le_inv in A1, A2, A3, Ed. split; [|split; lra].
  assert (P : 0.01745 <= PI / 180) by interval. unfold rad in Ed. set (p := PI / 180) in *. clearbody p. assert (/ 10 ^ 14 <= / 1000000000) by lra. split; nra.
Qed.

(** ** C83: long and short days, midnight sun and polar night *)
Definition summer (m : Z) : Prop := In m [4; 5; 6; 7; 8]%Z.
Definition winter (m : Z) : Prop := In m [10; 11; 12; 1; 2]%Z.
Lemma summer_dec m dd : fst (dec_range m) <= dd <= snd (dec_range m) -> (summer m -> 2.4 <= dd) /\ (winter m -> dd <= -2.4).
Proof.
  intros B. split; unfold summer, winter; cbn [In]; intros H; repeat (destruct H as [<-|H]; [cbn in B; lra|]); destruct H.
Qed.
Lemma month_12 c y m t : in_month c y m t -> (1 <= m <= 12)%Z.
Proof. now intros []. Qed.
Lemma day_half la dd w e : -90 <= la <= 90 -> 2.4 <= Rabs dd <= 24 -> 0 <= w <= 3.2 -> Rabs (sun_U (rad la) (rad dd) w) <= e -> e < sin (rad 2.4) * Rabs (sin (rad la)) ->
  (0 < la * dd -> PI / 2 < w) /\ (la * dd < 0 -> w < PI / 2).
Proof.
  intros Ba Bd Bw HU He. pose proof PI_RGT_0 as HP. assert (Cd : 0 < cos (rad dd)) by (apply cos_gt_0; unfold rad; unfold Rabs in Bd; destruct (Rcase_abs dd); nra).
  assert (Ca : 0 <= cos (rad la)) by (apply cos_ge_0; unfold rad; nra). assert (P0 : 3.14 <= PI) by interval. apply Rabs_le_inv in HU. unfold sun_U in HU.
  assert (S0 : forall x, -90 <= x <= 90 -> 0 <= x * sin (rad x)).
  { intros x Bx. destruct (Rle_or_lt 0 x); [assert (0 <= sin (rad x)) by (apply sin_ge_0; unfold rad; nra); nra|assert (sin (rad x) < 0) by (apply sin_lt_0_var; unfold rad; nra); nra]. }
  assert (Sd : sin (rad 2.4) <= Rabs (sin (rad dd))).
  { assert (N : forall x, 2.4 <= x <= 24 -> sin (rad 2.4) <= sin (rad x)) by (intros x Bx; apply sin_incr_1; unfold rad; nra).
    unfold Rabs in Bd. destruct (Rcase_abs dd); [assert (K := N (- dd) Bd); replace (rad (- dd)) with (- rad dd) in K by (unfold rad; ring); rewrite sin_neg in K; eapply Rle_trans; [exact K|]; rewrite <- Rabs_Ropp; apply Rle_abs|eapply Rle_trans; [exact (N dd Bd)|apply Rle_abs]]. }
  assert (P : 0 <= (la * dd) * (sin (rad la) * sin (rad dd))).
  { replace (la * dd * (sin (rad la) * sin (rad dd))) with ((la * sin (rad la)) * (dd * sin (rad dd))) by ring. apply Rmult_le_pos; apply S0; unfold Rabs in Bd; destruct (Rcase_abs dd); lra. }
  assert (Q : e < Rabs (sin (rad la) * sin (rad dd))).
  { rewrite Rabs_mult. eapply Rlt_le_trans; [exact He|]. rewrite (Rmult_comm (Rabs (sin (rad la)))). apply Rmult_le_compat_r; [apply Rabs_pos|exact Sd]. }
  assert (Cp : 0 <= cos (rad la) * cos (rad dd)) by (apply Rmult_le_pos; lra).
  set (c := cos (rad la) * cos (rad dd)) in *. set (q := sin (rad la) * sin (rad dd)) in *. clearbody c q.
  split; intros Hx; apply Rnot_le_lt; intros L.
  - assert (0 <= cos w) by (apply cos_ge_0; lra). assert (0 <= q) by nra. rewrite Rabs_pos_eq in Q by assumption. nra.
  - assert (cos w <= 0) by (apply cos_le_0; lra). assert (q <= 0) by nra. rewrite Rabs_left1 in Q by assumption. nra.
Qed.

Lemma half_day E uc times lat lon alg refr eng sp k j i t la lo dd dl :
  evaluated_cell E uc times lat lon alg refr eng sp k j i t la lo ->
  reads (declination (O := ExtOps E) sp) k j i (Fin dd) -> reads (daylight_length (O := ExtOps E) sp) k j i (Fin dl) ->
  exists w, 0 <= w <= PI /\ sun_U (rad la) (rad dd) w = 0 /\ dl = 2 / 15 * (w * (180 / PI)) /\ -90 < la < 90.
Proof.
  intros C Hd Hdl. destruct (daylight_value E _ _ _ _ _ _ _ _ _ _ _ _ _ _ _ _ C Hd Hdl) as (Bl & Bx & Ew).
  destruct (cell_data E _ _ _ _ _ _ _ _ _ _ _ _ _ _ C) as (_ & _ & Bla & _). assert (Bd := cell_dec E _ _ _ _ _ _ _ _ _ _ _ _ _ _ _ C Hd).
  destruct (wsr_crossing la dd Bla ltac:(lra) ltac:(left; lra)) as [[Ev _]|(w & Ev & Bw & U1 & U2 & U3)]; unfold wsr_value in Ev; destruct (Rlt_dec (-90) la); try lra; destruct (Rlt_dec la 90); try lra;
    (destruct (Rle_dec (-1) _) in Ev; [|lra]); (destruct (Rle_dec _ 1) in Ev; [|lra]); [discriminate Ev|]. injection Ev as Ev. rewrite Ev in Ew. exists w. repeat split; try assumption; lra.
Qed.
Lemma sin_pos_lat la : -90 <= la <= 90 -> la <> 0 -> 0 < sin (rad 2.4) * Rabs (sin (rad la)).
Proof.
  intros B N. pose proof PI_RGT_0. apply Rmult_lt_0_compat; [apply sin_gt_0; unfold rad; lra|]. apply Rabs_pos_lt. destruct (Rtotal_order la 0) as [L|[L|L]]; [|contradiction|].
  - assert (sin (rad la) < 0) by (apply sin_lt_0_var; unfold rad; nra). lra.
  - assert (0 < sin (rad la)) by (apply sin_gt_0; unfold rad; nra). lra.
Qed.
(** April to August the days are longer than twelve hours in the north and shorter in the south; October to February the reverse. *)
Theorem C83_day_length : forall day_number E uc times lat lon alg refr eng sp k j i t la lo y m dl,
  calendar day_number -> in_month day_number y m t -> evaluated_cell E uc times lat lon alg refr eng sp k j i t la lo ->
  reads (daylight_length (O := ExtOps E) sp) k j i (Fin dl) ->
  (summer m /\ 0 < la \/ winter m /\ la < 0 -> 12 < dl) /\ (summer m /\ la < 0 \/ winter m /\ 0 < la -> dl < 12).
Proof.
  intros c E uc times lat lon alg refr eng sp k j i t la lo y m dl Hc Hm C Hdl.
  destruct (C82_seasons c E _ _ _ _ _ _ _ _ k j i t y m Hc Hm (proj1 C)) as (dd & e & x & Hd & _ & _ & Bd & _). destruct (summer_dec m dd Bd) as [S W].
  destruct (half_day E _ _ _ _ _ _ _ _ _ _ _ _ _ _ _ _ C Hd Hdl) as (w & Bw & U & Ew & Bl). assert (Bd' := cell_dec E _ _ _ _ _ _ _ _ _ _ _ _ _ _ _ C Hd).
  assert (P0 : 3.14 <= PI <= 3.15) by (split; interval).
  assert (G : 2.4 <= Rabs dd -> la <> 0 -> (0 < la * dd -> 12 < dl) /\ (la * dd < 0 -> dl < 12)).
  { intros B2 Nl. destruct (day_half la dd w 0 ltac:(lra) ltac:(split; [exact B2|apply Rabs_le; lra]) ltac:(lra) ltac:(rewrite U, Rabs_R0; lra) (sin_pos_lat la ltac:(lra) Nl)) as [K1 K2].
    assert (E12 : 12 = 2 / 15 * (PI / 2 * (180 / PI))) by (field; lra). assert (Q : 0 < 180 / PI) by (apply Rdiv_lt_0_compat; lra). rewrite Ew. set (q := 180 / PI) in *. clearbody q.
    split; intros Hx; [specialize (K1 Hx)|specialize (K2 Hx)]; nra. }
  split; intros [[Hs Hl]|[Hs Hl]].
  - specialize (S Hs). apply G; [rewrite Rabs_pos_eq; lra|lra|nra].
  - specialize (W Hs). apply G; [rewrite Rabs_left1; lra|lra|nra].
  - specialize (S Hs). apply G; [rewrite Rabs_pos_eq; lra|lra|nra].
  - specialize (W Hs). apply G; [rewrite Rabs_left1; lra|lra|nra].
Qed.
Theorem C83_day_length_double : forall day_number D uc times lat lon alg refr eng sp k j i t la lo y m dl,
  calendar day_number -> in_month day_number y m t -> double_like D -> evaluated_cell64 D uc times lat lon alg refr eng sp k j i t la lo ->
  reads (daylight_length (O := DoubleOps D) sp) k j i (Fin dl) ->
  (summer m /\ 1 <= la \/ winter m /\ la <= -1 -> 12 < dl) /\ (summer m /\ la <= -1 \/ winter m /\ 1 <= la -> dl < 12).
Proof.
  intros c D uc times lat lon alg refr eng sp k j i t la lo y m dl Hc Hm HD C Hdl.
  destruct (C82_seasons_double c D _ _ _ _ _ _ _ _ k j i t y m Hc Hm HD (proj1 C)) as (dd & e & x & Hd & _ & _ & Bd & _). destruct (summer_dec m dd Bd) as [S W].
  destruct (cell_data64 _ _ _ _ _ _ _ _ _ _ _ _ _ _ _ HD C) as (_ & _ & Bla & _ & (dd' & Hd' & Bd') & _). assert (X := reads_fun _ _ _ _ _ _ Hd Hd'). injection X as <-.
  destruct (C76_sunrise D NaN _ _ _ _ _ _ _ _ _ _ _ _ _ _ _ HD C Hd) as (a & ar & _ & _ & [(w & wr & dl' & _ & _ & Hdl' & Bw & _ & _ & Ew & U & _)|(_ & _ & N & _)]); [|discriminate (reads_fun _ _ _ _ _ _ Hdl N)].
  assert (X := reads_fun _ _ _ _ _ _ Hdl Hdl'). injection X as <-.
  assert (P0 : 3.14159 <= PI <= 3.1416) by (split; interval). apply Rabs_le_inv in Bd', Ew.
  assert (Brw : 0 <= rad w <= 3.1417) by (unfold rad; split; nra).
  assert (Hdeg : forall x, w * (PI / 180) <= x -> w <= x * (180 / PI)). { intros z Hz. assert (w = w * (PI / 180) * (180 / PI)) by (field; lra). assert (0 < 180 / PI) by (apply Rdiv_lt_0_compat; lra). nra. }
  assert (Ls : 1 <= Rabs la -> 0.0006 <= sin (rad 2.4) * Rabs (sin (rad la))).
  { intros L. assert (N1 : 0.0418 <= sin (rad 2.4)) by (unfold rad; interval). assert (N2 : 0.0174 <= sin (rad 1)) by (unfold rad; interval).
    assert (K : sin (rad 1) <= Rabs (sin (rad la))).
    { assert (N : forall z, 1 <= z <= 90 -> sin (rad 1) <= sin (rad z)) by (intros z Bz; apply sin_incr_1; unfold rad; nra).
      unfold Rabs in L. destruct (Rcase_abs la); [assert (M := N (- la) ltac:(lra)); replace (rad (- la)) with (- rad la) in M by (unfold rad; ring); rewrite sin_neg in M; eapply Rle_trans; [exact M|]; rewrite <- Rabs_Ropp; apply Rle_abs|eapply Rle_trans; [exact (N la ltac:(lra))|apply Rle_abs]]. }
    nra. }
  assert (G : 2.4 <= Rabs dd -> 1 <= Rabs la -> (0 < la * dd -> 12 < dl) /\ (la * dd < 0 -> dl < 12)).
  { intros B2 Nl. specialize (Ls Nl). assert (B3 : 2.4 <= Rabs dd <= 24) by (split; [exact B2|apply Rabs_le; lra]).
    assert (Uu : forall z, Rabs (z - rad w) <= 0.0001 -> Rabs (sun_U (rad la) (rad dd) z) <= 0.00011).
    { intros z Hz. assert (L := U_lip (rad la) (rad dd) z (rad w)). apply Rabs_le_inv in U. assert (L' := Rle_trans _ _ _ L Hz). apply Rabs_le_inv in L'. apply Rabs_le. assert (/ 10 ^ 14 <= 0.000001) by lra. lra. }
    assert (E90 : 90 = PI / 2 * (180 / PI)) by (field; lra). assert (Q : 57.2 <= 180 / PI) by (clear; interval). assert (Ew' : w = rad w * (180 / PI)) by (unfold rad; field; lra).
    assert (/ 10 ^ 14 <= 0.000001) by lra. set (q := 180 / PI) in *. clearbody q. split; intros Hx.
    - assert (W1 : PI / 2 < rad w - 0.0001).
      { destruct (Rle_or_lt 0.0001 (rad w)) as [L|L]; [exact (proj1 (day_half la dd (rad w - 0.0001) 0.00011 Bla B3 ltac:(lra) (Uu (rad w - 0.0001) ltac:(apply Rabs_le; lra)) ltac:(lra)) Hx)|].
        exfalso. assert (K := proj1 (day_half la dd (rad w) 0.00011 Bla B3 ltac:(lra) (Uu (rad w) ltac:(apply Rabs_le; lra)) ltac:(lra)) Hx). lra. }
      nra.
    - assert (W1 : rad w + 0.0001 < PI / 2) by exact (proj2 (day_half la dd (rad w + 0.0001) 0.00011 Bla B3 ltac:(lra) (Uu (rad w + 0.0001) ltac:(apply Rabs_le; lra)) ltac:(lra)) Hx). nra. }
  split; intros [[Hs Hl]|[Hs Hl]].
  - specialize (S Hs). apply G; [rewrite Rabs_pos_eq; lra|rewrite Rabs_pos_eq; lra|nra].
  - specialize (W Hs). apply G; [rewrite Rabs_left1; lra|rewrite Rabs_left1; lra|nra].
  - specialize (S Hs). apply G; [rewrite Rabs_pos_eq; lra|rewrite Rabs_left1; lra|nra].
  - specialize (W Hs). apply G; [rewrite Rabs_left1; lra|rewrite Rabs_pos_eq; lra|nra].
Qed.

(** At 69 degrees and beyond: midnight sun in June (north) and December (south), polar night in December (north) and June (south). *)
Definition midnight_sun (m : Z) (la : R) : Prop := m = 6%Z /\ 69 <= la \/ m = 12%Z /\ la <= -69.
Definition polar_night (m : Z) (la : R) : Prop := m = 12%Z /\ 69 <= la \/ m = 6%Z /\ la <= -69.
Lemma high_sun la dd h : -90 <= la <= 90 -> -24 <= dd <= 24 ->
  - cos (rad (la + dd)) <= sun_U (rad la) (rad dd) h <= cos (rad (la - dd)).
Proof.
  intros Ba Bd. pose proof PI_RGT_0. assert (Ca : 0 <= cos (rad la)) by (apply cos_ge_0; unfold rad; nra). assert (Cd : 0 <= cos (rad dd)) by (apply cos_ge_0; unfold rad; nra).
  assert (Bh := COS_bound h). assert (Cp : 0 <= cos (rad la) * cos (rad dd)) by (apply Rmult_le_pos; assumption).
  replace (rad (la + dd)) with (rad la + rad dd) by (unfold rad; ring). replace (rad (la - dd)) with (rad la - rad dd) by (unfold rad; ring). rewrite cos_plus, cos_minus. unfold sun_U. set (c := cos (rad la) * cos (rad dd)) in *. clearbody c. nra.
Qed.
Lemma polar_dec m la dd h : -90 <= la <= 90 -> fst (dec_range m) <= dd <= snd (dec_range m) ->
  (midnight_sun m la -> 0.005 <= sun_U (rad la) (rad dd) h) /\ (polar_night m la -> sun_U (rad la) (rad dd) h <= -0.005).
Proof.
  intros Ba Bd. assert (N1 : forall x, 90.3 <= x <= 114 -> cos (rad x) <= -0.005) by (clear; intros x Bx; unfold rad; interval).
  assert (N2 : forall x, -114 <= x <= -90.3 -> cos (rad x) <= -0.005) by (clear; intros x Bx; unfold rad; interval).
  split; intros [[-> H]|[-> H]]; cbn [dec_range fst snd] in Bd; destruct (high_sun la dd h Ba ltac:(lra)) as [H1 H2].
  - assert (K := N1 (la + dd) ltac:(lra)). lra.
  - assert (K := N2 (la + dd) ltac:(lra)). lra.
  - assert (K := N1 (la - dd) ltac:(lra)). lra.
  - assert (K := N2 (la - dd) ltac:(lra)). lra.
Qed.
Lemma cos_far zd : -0.0001 <= zd <= 180.0001 -> (0.004 <= cos (rad zd) -> zd < 89.8) /\ (cos (rad zd) <= -0.004 -> 90.2 < zd).
Proof.
  intros B. split; intros H; apply Rnot_le_lt; intros L.
  - assert (K : cos (rad zd) <= 0.0036) by (assert (B' : 89.8 <= zd <= 180.0001) by lra; clear - B'; unfold rad; interval). lra.
  - assert (K : -0.0036 <= cos (rad zd)) by (assert (B' : -0.0001 <= zd <= 90.2) by lra; clear - B'; unfold rad; interval). lra.
Qed.
Lemma daylight_none E nf uc times lat lon alg refr eng sp k j i t la lo dd :
  evaluated_cell E uc times lat lon alg refr eng sp k j i t la lo -> reads (declination (O := ExtOps E) sp) k j i (Fin dd) ->
  (forall h, sun_U (rad la) (rad dd) h <> 0) ->
  instant_of (sunrise (O := ExtOps E) nf sp "utc") k j i None /\ instant_of (sunset (O := ExtOps E) nf sp "utc") k j i None.
Proof.
  intros C Hd Nz. destruct (cell_data E _ _ _ _ _ _ _ _ _ _ _ _ _ _ C) as (Hla & _ & Bla & _). assert (Bd := cell_dec E _ _ _ _ _ _ _ _ _ _ _ _ _ _ _ C Hd).
  assert (Hr := sunrise_rad_at E sp k j i la dd Hla Hd Bla ltac:(lra)). assert (Hdg := reads_map (degrees (Ops := ExtOps E)) _ k j i _ Hr).
  destruct (wsr_value la dd) as [| | |x] eqn:Ev.
  - assert (N : reads (daylight_length (O := ExtOps E) sp) k j i NaN).
    { assert (H1 := reads_map (mul (Ops := ExtOps E) (div (Ops := ExtOps E) (lit (Ops := ExtOps E) 2.0) (lit (Ops := ExtOps E) 15.0))) _ k j i _ Hdg).
      ext_ops. cbn [degrees] in H1. ext_ops. rewrite ?nan_mul_r, ?nan_mul_l in H1. exact H1. }
    exact (C40_polar E nf _ _ _ _ _ _ _ _ _ _ _ _ _ _ "utc" C N ltac:(cbn; tauto)).
  - exfalso. unfold wsr_value in Ev. repeat (destruct (Rlt_dec _ _) in Ev; try discriminate Ev); repeat (destruct (Rle_dec _ _) in Ev; try discriminate Ev).
  - exfalso. unfold wsr_value in Ev. repeat (destruct (Rlt_dec _ _) in Ev; try discriminate Ev); repeat (destruct (Rle_dec _ _) in Ev; try discriminate Ev).
  - exfalso. destruct (half_day E _ _ _ _ _ _ _ _ _ _ _ _ _ _ _ _ C Hd (daylight_at E sp k j i _ Hdg)) as (w & _ & U & _). exact (Nz w U).
Qed.
Theorem C83_polar : forall day_number E nf uc times lat lon alg refr eng sp k j i t la lo y m,
  calendar day_number -> in_month day_number y m t -> evaluated_cell E uc times lat lon alg refr eng sp k j i t la lo ->
  midnight_sun m la \/ polar_night m la ->
  instant_of (sunrise (O := ExtOps E) nf sp "utc") k j i None /\ instant_of (sunset (O := ExtOps E) nf sp "utc") k j i None /\
  forall zd, float32_like E -> is_True refr = false -> reads (zenith (O := ExtOps E) sp) k j i (Fin zd) ->
    (midnight_sun m la -> zd < 89.8) /\ (polar_night m la -> 90.2 < zd).
Proof.
  intros c E nf uc times lat lon alg refr eng sp k j i t la lo y m Hc Hm C HP.
  destruct (C82_seasons c E _ _ _ _ _ _ _ _ k j i t y m Hc Hm (proj1 C)) as (dd & e & x & Hd & _ & _ & Bd & _). destruct (cell_data E _ _ _ _ _ _ _ _ _ _ _ _ _ _ C) as (_ & _ & Bla & _).
  assert (K := fun h => polar_dec m la dd h Bla Bd).
  destruct (daylight_none E nf _ _ _ _ _ _ _ _ _ _ _ _ _ _ _ C Hd) as [N1 N2]. { intros h. destruct (K h) as [K1 K2]. destruct HP as [HP|HP]; [specialize (K1 HP)|specialize (K2 HP)]; lra. }
  split; [exact N1|]. split; [exact N2|]. intros zd HE Hr Hz.
  destruct (height _ _ _ _ _ _ _ _ _ _ _ _ _ _ _ _ HE Hr C Hz) as (d1 & eot & V1 & _ & _ & _ & B & HU). assert (X := reads_fun _ _ _ _ _ _ Hd V1). injection X as <-.
  assert (S := HU (solar_hour_angle t lo eot) 0). apply Rabs_le_inv in S; [|exists 0%Z; rewrite Rmult_0_r, !Rminus_diag_eq, Rabs_R0 by ring; lra].
  destruct (cos_far zd B) as [F1 F2], (K (solar_hour_angle t lo eot)) as [K1 K2]. split; intros Hx; [apply F1; specialize (K1 Hx)|apply F2; specialize (K2 Hx)]; lra.
Qed.
Theorem C83_polar_double : forall day_number D nf uc times lat lon alg refr eng sp k j i t la lo y m,
  calendar day_number -> in_month day_number y m t -> double_like D -> evaluated_cell64 D uc times lat lon alg refr eng sp k j i t la lo ->
  midnight_sun m la \/ polar_night m la ->
  instant_of (sunrise (O := DoubleOps D) nf sp "utc") k j i None /\ instant_of (sunset (O := DoubleOps D) nf sp "utc") k j i None /\
  forall zd, is_True refr = false -> reads (zenith (O := DoubleOps D) sp) k j i (Fin zd) ->
    (midnight_sun m la -> zd < 89.8) /\ (polar_night m la -> 90.2 < zd).
Proof.
  intros c D nf uc times lat lon alg refr eng sp k j i t la lo y m Hc Hm HD C HP.
  destruct (C82_seasons_double c D _ _ _ _ _ _ _ _ k j i t y m Hc Hm HD (proj1 C)) as (dd & e & x & Hd & _ & _ & Bd & _). destruct (cell_data64 _ _ _ _ _ _ _ _ _ _ _ _ _ _ _ HD C) as (_ & _ & Bla & _).
  assert (K := fun h => polar_dec m la dd h Bla Bd).
  destruct (C76_sunrise D nf _ _ _ _ _ _ _ _ _ _ _ _ _ _ _ HD C Hd) as (a & ar & _ & _ & [(w & wr & dl & _ & _ & _ & _ & _ & _ & _ & U & _)|(_ & _ & N & _)]).
  { exfalso. apply Rabs_le_inv in U. destruct (K (rad w)) as [K1 K2]. destruct HP as [HP|HP]; [specialize (K1 HP)|specialize (K2 HP)]; lra. }
  destruct (C76_polar D nf _ _ _ _ _ _ _ _ _ _ _ _ _ _ "utc" HD C N ltac:(cbn; tauto)) as [N1 N2].
  split; [exact N1|]. split; [exact N2|]. intros zd Hr Hz.
  destruct (height64 _ _ _ _ _ _ _ _ _ _ _ _ _ _ _ _ HD Hr C Hz) as (d & d1 & eot & V1 & _ & _ & _ & _ & _ & B & HU). assert (X := reads_fun _ _ _ _ _ _ Hd V1). injection X as <-.
  assert (S := HU (solar_hour_angle t lo eot) 0). apply Rabs_le_inv in S; [|exists 0%Z; rewrite Rmult_0_r, !Rminus_diag_eq, Rabs_R0 by ring; lra].
  destruct (cos_far zd B) as [F1 F2], (K (solar_hour_angle t lo eot)) as [K1 K2]. split; intros Hx; [apply F1; specialize (K1 Hx)|apply F2; specialize (K2 Hx)]; lra.
Qed.

(** ** C84: how high and how low the sun can stand *)
Lemma never_overhead la dd zd : 31 <= Rabs la <= 90 -> -23.61 <= dd <= 23.61 -> -0.0001 <= zd <= 180.0001 -> cos (rad zd) <= cos (rad (la - dd)) + 0.00077 -> Rabs la - 24 <= zd.
Proof.
  intros Ba Bd Bz H. apply Rnot_lt_le. intros L. pose proof PI_RGT_0 as HP.
  assert (K : cos (rad (la - dd)) <= cos (rad (Rabs la - 23.61))).
  { unfold Rabs in *. destruct (Rcase_abs la); [replace (rad (la - dd)) with (- rad (dd - la)) by (unfold rad; ring); rewrite cos_neg|]; apply cos_decr_1; unfold rad; nra. }
  assert (K2 : cos (rad (Rabs la - 24)) <= cos (rad zd)).
  { destruct (Rle_or_lt 0 zd) as [P|P]; [apply cos_decr_1; unfold rad; nra|]. assert (0.99999 <= cos (rad zd)) by (assert (B' : -0.0001 <= zd <= 0) by lra; clear - B'; unfold rad; interval).
    assert (cos (rad (Rabs la - 24)) <= 0.999); [|lra]. assert (B' : 7 <= Rabs la - 24 <= 66) by lra. set (v := Rabs la - 24) in *. clearbody v. clear - B'. unfold rad. interval. }
  assert (K3 : 0.0008 <= cos (rad (Rabs la - 24)) - cos (rad (Rabs la - 23.61))).
  { assert (B' : 7 <= Rabs la - 24 <= 66) by lra. set (v := Rabs la - 24) in *. replace (Rabs la - 23.61) with (v + 0.39) by (unfold v; lra). clearbody v. clear - B'.
    assert (Ec : cos (rad v) - cos (rad (v + 0.39)) = 2 * sin (rad (v + 0.195)) * sin (rad 0.195)).
    { replace (rad (v + 0.39)) with (rad (v + 0.195) + rad 0.195) by (unfold rad; lra). replace (rad v) with (rad (v + 0.195) - rad 0.195) by (unfold rad; lra). rewrite cos_plus, cos_minus. ring. }
    rewrite Ec. unfold rad. interval. }
  lra.
Qed.
Theorem C84_heights : forall E uc times lat lon alg refr eng sp k j i t la lo zd dd,
  float32_like E -> is_True refr = false -> evaluated_cell E uc times lat lon alg refr eng sp k j i t la lo ->
  reads (zenith (O := ExtOps E) sp) k j i (Fin zd) -> reads (declination (O := ExtOps E) sp) k j i (Fin dd) ->
  - cos (rad (la + dd)) - 0.00077 <= cos (rad zd) <= cos (rad (la - dd)) + 0.00077 /\ (31 <= Rabs la -> Rabs la - 24 <= zd).
Proof.
  intros E uc times lat lon alg refr eng sp k j i t la lo zd dd HE Hr C Hz Hd.
  destruct (height _ _ _ _ _ _ _ _ _ _ _ _ _ _ _ _ HE Hr C Hz) as (d1 & eot & V1 & _ & _ & _ & B & HU). assert (X := reads_fun _ _ _ _ _ _ Hd V1). injection X as <-.
  destruct (cell_data E _ _ _ _ _ _ _ _ _ _ _ _ _ _ C) as (_ & _ & Bla & _). assert (Bd := cell_dec E _ _ _ _ _ _ _ _ _ _ _ _ _ _ _ C Hd).
  assert (S := HU (solar_hour_angle t lo eot) 0). apply Rabs_le_inv in S; [|exists 0%Z; rewrite Rmult_0_r, !Rminus_diag_eq, Rabs_R0 by ring; lra].
  destruct (high_sun la dd (solar_hour_angle t lo eot) Bla ltac:(lra)) as [H1 H2]. assert (K : - cos (rad (la + dd)) - 0.00077 <= cos (rad zd) <= cos (rad (la - dd)) + 0.00077) by lra.
  split; [exact K|]. intros L. apply (never_overhead la dd zd); [split; [exact L|apply Rabs_le; lra]|lra|exact B|apply K].
Qed.
Theorem C84_heights_double : forall D uc times lat lon alg refr eng sp k j i t la lo zd dd,
  double_like D -> is_True refr = false -> evaluated_cell64 D uc times lat lon alg refr eng sp k j i t la lo ->
  reads (zenith (O := DoubleOps D) sp) k j i (Fin zd) -> reads (declination (O := DoubleOps D) sp) k j i (Fin dd) ->
  - cos (rad (la + dd)) - 0.00077 <= cos (rad zd) <= cos (rad (la - dd)) + 0.00077 /\ (31 <= Rabs la -> Rabs la - 24 <= zd).
Proof.
  intros D uc times lat lon alg refr eng sp k j i t la lo zd dd HD Hr C Hz Hd.
  destruct (height64 _ _ _ _ _ _ _ _ _ _ _ _ _ _ _ _ HD Hr C Hz) as (d & d1 & eot & V1 & _ & _ & Bd & _ & _ & B & HU). assert (X := reads_fun _ _ _ _ _ _ Hd V1). injection X as <-. apply Rabs_le_inv in Bd.
  destruct (cell_data64 _ _ _ _ _ _ _ _ _ _ _ _ _ _ _ HD C) as (_ & _ & Bla & _).
  assert (S := HU (solar_hour_angle t lo eot) 0). apply Rabs_le_inv in S; [|exists 0%Z; rewrite Rmult_0_r, !Rminus_diag_eq, Rabs_R0 by ring; lra].
  destruct (high_sun la dd (solar_hour_angle t lo eot) Bla ltac:(lra)) as [H1 H2]. assert (K : - cos (rad (la + dd)) - 0.00077 <= cos (rad zd) <= cos (rad (la - dd)) + 0.00077) by lra.
  split; [exact K|]. intros L. apply (never_overhead la dd zd); [split; [exact L|apply Rabs_le; lra]|lra|exact B|apply K].
Qed.

(** ** The hypotheses are met: 21 June 2024, 10:00 UTC, 75 and 40 degrees north *)
Lemma june : in_month gregorian 2024 6 w_t.
Proof. split; [lia|]. vm_compute. split; [discriminate|reflexivity]. Qed.
Example C83_example : forall nf uc alg eng m, In (alg, eng, m) (supported (O := ExtOps ideal_env)) ->
  calendar gregorian /\ in_month gregorian 2024 6 w_t /\ midnight_sun 6 75 /\ polar_night 6 (-75) /\ summer 6 /\
  forall la, In la [75; 40] -> exists sp zd dd, evaluated_cell ideal_env uc (at_times [Some w_t]) (Scalar (Fin la)) (Scalar (Fin 10)) alg RFalse eng sp 0 0 0 w_t la 10 /\
    reads (zenith (O := ExtOps ideal_env) sp) 0 0 0 (Fin zd) /\ reads (declination (O := ExtOps ideal_env) sp) 0 0 0 (Fin dd) /\ 21.6 <= dd <= 23.6 /\
    if Rlt_dec 60 la then instant_of (sunrise (O := ExtOps ideal_env) nf sp "utc") 0 0 0 None /\ zd < 89.8
    else exists dl, reads (daylight_length (O := ExtOps ideal_env) sp) 0 0 0 (Fin dl) /\ 12 < dl.
Proof.
  intros nf uc alg eng m H. split; [exact gregorian_calendar|]. split; [exact june|]. split; [left; split; [reflexivity|lra]|]. split; [right; split; [reflexivity|lra]|]. split; [unfold summer; cbn; tauto|].
  intros la Hla. assert (B : -90 <= la <= 90) by (destruct Hla as [<-|[<-|[]]]; lra).
  destruct (one_cell ideal_env uc w_t la 10 alg RFalse eng m H w_t_representable B ltac:(lra)) as (sp & C).
  destruct (cell_cosz ideal_env _ _ _ _ _ _ _ _ _ _ _ _ _ _ ideal_ideal (eq_refl : is_True RFalse = false) C) as (zd & _ & _ & Hz & _).
  destruct (C82_seasons gregorian ideal_env _ _ _ _ _ _ _ _ 0%nat 0%nat 0%nat _ _ _ gregorian_calendar june (proj1 C)) as (dd & e & x & Hd & _ & _ & Bd & _).
  exists sp, zd, dd. split; [exact C|]. split; [exact Hz|]. split; [exact Hd|]. split; [exact Bd|]. destruct (Rlt_dec 60 la) as [L|L].
  - assert (M : midnight_sun 6 la) by (left; split; [reflexivity|destruct Hla as [<-|[<-|[]]]; lra]).
    destruct (C83_polar _ _ nf _ _ _ _ _ _ _ _ _ _ _ _ _ _ _ _ gregorian_calendar june C (or_introl M)) as (N & _ & Z). split; [exact N|]. exact (proj1 (Z zd (ideal_like _ ideal_ideal) eq_refl Hz) M).
  - assert (la = 40) by (destruct Hla as [<-|[<-|[]]]; lra). subst la.
    destruct (C37_midlatitudes ideal_env nf _ _ _ _ _ _ _ _ _ _ _ _ _ _ C ltac:(lra)) as (a & w & dl & _ & _ & Hdl & _). exists dl. split; [exact Hdl|].
    apply (proj1 (C83_day_length _ _ _ _ _ _ _ _ _ _ _ _ _ _ _ _ _ _ _ gregorian_calendar june C Hdl)). left. split; [unfold summer; cbn; tauto|lra].
Qed.
