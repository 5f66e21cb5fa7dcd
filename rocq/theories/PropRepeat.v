(** * PropRepeat: the sun of a day repeats after four years; iqbal's repeats every calendar year (C94) *)
From Coq Require Import ZArith QArith Reals Bool List String Lra Lia.
From Flocq Require Import Core.Raux.
From Interval Require Import Tactic.
From Verif Require Import Num Arrays Libspa Time Core Usecases Spec GenericLemmas GenericLemmas2 TimeLemmas Ext ExtLemmas Witness Calendar Iqbal
  AstroTac Sky SkyClose AstroSpec Astro AstroCell AstroCall Float32 PropAstro Sunpos SunposSpec SunposLemmas SunposR PropSunpos
  CalendarSpec CalendarLemmas PropCalendar SeasonSpec PropSeasons Almanac AlmanacPos AlmanacTime AlmanacIqbal PropAlmanac SingleSpec SingleLemmas PropSinglePos PropSmooth
  Double DoubleSpec DoublePos PropDouble PropDoublePos TopoSpec PropNrelD SunposD PropSunposD DayR PropDay PropClimb PropNoon PropPipeline PropTrack PropAirmass PropEarth Float64.
Import ListNotations.
Open Scope R_scope.

(** ** The almanac after 1461 days *)
Definition cycle (T : R) : R := T + 1461 / 36525.
Lemma pi_b : 3.14159265 <= PI <= 3.14159266. Proof. split; interval. Qed.
Lemma L0_cycle T : -3.3 <= T <= 2.7 -> Rabs (al_L0 (cycle T) - al_L0 T - 2 * PI * IZR 4) <= 0.00054.
Proof.
  intros B. unfold al_L0, cycle, deg.
  replace (_ - _ - 2 * PI * IZR 4) with ((36000.76983 * (1461 / 36525) - 1440 + 0.0003032 * (1461 / 36525) * (2 * T + 1461 / 36525)) * (PI / 180)) by field.
  apply Rabs_le. split; interval.
Qed.
Lemma M_cycle T : -3.3 <= T <= 2.7 -> Rabs (al_M (cycle T) - al_M T - 2 * PI * IZR 4) <= 0.000665.
Proof.
  intros B. unfold al_M, cycle, deg.
  replace (_ - _ - 2 * PI * IZR 4) with ((35999.05029 * (1461 / 36525) - 1440 - 0.0001537 * (1461 / 36525) * (2 * T + 1461 / 36525)) * (PI / 180)) by field.
  apply Rabs_le. split; interval.
Qed.
Lemma C_cycle T : -3.3 <= T <= 2.7 -> Rabs (al_C (cycle T) - al_C T) <= 0.00003.
Proof.
  intros B. destruct (AlmanacIqbal.sin_turn _ _ _ _ (M_cycle T B)) as (S1 & S2 & S3 & _). unfold al_C, deg.
  set (u := sin (al_M T)) in *. set (u' := sin (al_M (cycle T))) in *. set (v := sin (2 * al_M T)) in *. set (v' := sin (2 * al_M (cycle T))) in *. set (w := sin (3 * al_M T)) in *. set (w' := sin (3 * al_M (cycle T))) in *.
  assert (Bu : -1 <= u' <= 1) by apply SIN_bound. assert (Bv : -1 <= v' <= 1) by apply SIN_bound. clearbody u u' v v' w w'. apply Rabs_le_inv in S1, S2, S3.
  unfold cycle. set (k := 1461 / 36525). assert (Bk : 0.0399 <= k <= 0.0401) by (unfold k; lra).
  replace (_ * (PI / 180) - _ * (PI / 180)) with
    (((1.914602 - 0.004817 * T - 0.000014 * T ^ 2) * (u' - u) - k * (0.004817 + 0.000014 * (2 * T + k)) * u'
     + (0.019993 - 0.000101 * T) * (v' - v) - 0.000101 * k * v' + 0.000289 * (w' - w)) * (PI / 180)) by ring.
  set (x := u' - u) in *. set (y := v' - v) in *. set (z := w' - w) in *. clearbody x y z k. apply Rabs_le. split; interval.
Qed.
Lemma lon_cycle T : -3.3 <= T <= 2.7 -> near_turn (al_lon (cycle T)) (al_lon T) 0.00057.
Proof.
  intros B. exists 4%Z. assert (A := L0_cycle T B). assert (A2 := C_cycle T B). unfold al_lon. apply Rabs_le_inv in A, A2. apply Rabs_le. split; lra.
Qed.
Lemma obl_cycle T : Rabs (al_obl (cycle T) - al_obl T) <= 0.0000092.
Proof. unfold al_obl, cycle, deg. match goal with |- Rabs ?x <= _ => replace x with (- (0.0130042 * (1461 / 36525) * (PI / 180))) by field end. apply Rabs_le. split; interval. Qed.
Lemma R_cycle T : -3.3 <= T <= 2.7 -> Rabs (1 / al_R T ^ 2 - 1 / al_R (cycle T) ^ 2) <= 0.00004.
Proof.
  intros B. assert (N : near_turn (al_M (cycle T) + al_C (cycle T)) (al_M T + al_C T) 0.0007).
  { exists 4%Z. assert (A := M_cycle T B). assert (A2 := C_cycle T B). apply Rabs_le_inv in A, A2. apply Rabs_le. split; lra. }
  destruct N as (q & N). assert (Dc : Rabs (cos (al_M (cycle T) + al_C (cycle T)) - cos (al_M T + al_C T)) <= 0.0007).
  { replace (cos (al_M (cycle T) + al_C (cycle T))) with (cos (al_M (cycle T) + al_C (cycle T) - 2 * PI * IZR q)) by apply cos_2kpi.
    eapply Rle_trans; [apply cos_lip|]. replace (al_M (cycle T) + al_C (cycle T) - 2 * PI * IZR q - (al_M T + al_C T)) with (al_M (cycle T) + al_C (cycle T) - (al_M T + al_C T) - 2 * PI * IZR q) by ring. exact N. }
  assert (Be : 0.0165 <= al_e T <= 0.0169) by (unfold al_e; split; interval). assert (De : Rabs (al_e (cycle T) - al_e T) <= 0.000002).
  { unfold al_e, cycle. match goal with |- Rabs ?x <= _ => replace x with (- ((1461 / 36525) * (0.000042037 + 0.0000001267 * (2 * T + 1461 / 36525)))) by field end. apply Rabs_le. split; interval. }
  set (c := cos (al_M T + al_C T)) in *. set (c' := cos (al_M (cycle T) + al_C (cycle T))) in *. assert (Bc : -1 <= c <= 1) by apply COS_bound. assert (Bc' : -1 <= c' <= 1) by apply COS_bound.
  unfold al_R. fold c. fold c'. set (e := al_e T) in *. set (e' := al_e (cycle T)) in *. clearbody c c' e e'. clear N.
  eapply Rle_trans; [apply (recip_close _ _ 0.000018)|lra].
  - clear De Dc. split; interval.
  - apply Rabs_le_inv in De, Dc. set (x := e' - e) in *. set (y := c' - c) in *. replace e' with (e + x) by (unfold x; ring). replace c' with (c + y) by (unfold y; ring).
    assert (P1 : 0.98 <= 1 + e * c) by (clear - Be Bc; interval). assert (P2 : 0.98 <= 1 + (e + x) * (c + y)) by (clear - Be Bc De Dc; interval).
    match goal with |- Rabs ?z <= _ => replace z with (1.000001018 * ((x * (2 * e + x) * (1 + e * c) + (1 - e ^ 2) * (e * y + x * (c + y)))  / ((1 + e * c) * (1 + (e + x) * (c + y))))) by (field; lra) end.
    clearbody x y. apply Rabs_le. split; interval.
  - lra.
Qed.
(** Orbital elements near the almanac's after the cycle are near the almanac's before it. *)
Lemma elements_cycle T eta zeta bet mu d m : -3.3 <= T <= 2.7 -> elements (cycle T) eta zeta bet mu d m ->
  elements T (eta + 0.00057) (zeta + 0.0000092) bet (mu + 0.00054) d m.
Proof.
  intros B (l & b & e & a & L & Q & (k & Em) & Hl & Hb & He & HL). exists l, b, e, a, (L - 2 * PI * IZR 4).
  split; [exact Q|]. split; [exists (k + 4)%Z; rewrite Em, plus_IZR; field; apply PI_neq0|].
  split; [exact (near_turn_add _ _ _ _ _ Hl (lon_cycle T B))|]. split; [exact Hb|].
  assert (Ho := obl_cycle T). assert (H0 := L0_cycle T B). apply Rabs_le_inv in Ho, H0, He, HL. split; apply Rabs_le; lra.
Qed.
Lemma tols alg T : In alg ["psa"; "soltrack"; "nrel"]%string -> -3.223 <= T <= 2.623 ->
  0 <= lon_tol alg T <= 0.0013 /\ 0 <= obl_tol alg <= 0.00006 /\ 0 <= lat_tol alg <= 0.00001 /\ 0 <= mean_tol alg T <= 0.0008 /\
  0.4375 * lon_tol alg T + 1.007 * obl_tol alg + 1.008 * lat_tol alg <= dec_tol alg T /\
  229.2 * (mean_tol alg T + (1.112 * lon_tol alg T + 0.485 * obl_tol alg + 0.485 * lat_tol alg)) <= eot_tol alg T.
Proof.
  intros H B. assert (BA : 0 <= Rabs T <= 3.223) by (split; [apply Rabs_pos|apply Rabs_le; lra]).
  unfold lon_tol, obl_tol, lat_tol, mean_tol, dec_tol, eot_tol. generalize dependent (Rabs T). intros x Bx.
  destruct H as [<-|[<-|[<-|[]]]]; cbn [String.eqb Ascii.eqb Bool.eqb]; repeat split; lra.
Qed.
Lemma supported_names F (O : Ops F) alg eng m : In (alg, eng, m) (supported (O := O)) -> alg <> "iqbal"%string -> In alg ["psa"; "soltrack"; "nrel"]%string.
Proof.
  unfold supported. cbn [In]. intros H N. repeat (destruct H as [H|H]; [injection H as <- _ _; try (exfalso; apply N; reflexivity); tauto|]). destruct H.
Qed.

(** ** C94: psa, soltrack and nrel repeat their declination, equation of time and distance after four years of 1461 days, for 1677-2262 *)
Definition four_years : Z := 1461 * 86400 * 1000000000.
Lemma centuries_cycle t : centuries (t + four_years) = cycle (centuries t).
Proof.
  unfold centuries, cycle, four_years. replace (1461 * 86400 * 1000000000)%Z with (126230400 * 1000000000)%Z by reflexivity. rewrite Z.div_add by discriminate. rewrite plus_IZR. field.
Qed.
Lemma repeat_core E E' uc uc' times times' lat lat' lon lon' alg refr refr' eng eng' sp sp' k k' t : alg <> "iqbal"%string ->
  evaluated_time E uc times lat lon alg refr eng sp k t -> evaluated_time E' uc' times' lat' lon' alg refr' eng' sp' k' (t + four_years) ->
  exists d m x d' m' x', let T := centuries t in let T' := centuries (t + four_years) in
    value (sp_declination sp) [k] d /\ value (sp_eot sp) [k] m /\ value (sp_ecf sp) [k] x /\
    value (sp_declination sp') [k'] d' /\ value (sp_eot sp') [k'] m' /\ value (sp_ecf sp') [k'] x' /\
    Rabs (d - d') <= dec_tol alg T + dec_tol alg T' + 0.00027 /\ Rabs (m - m') <= eot_tol alg T + eot_tol alg T' + 0.28 /\
    Rabs (x - x') <= 2 * ecf_tol alg + 0.00004.
Proof.
  intros Ha C C'. destruct (call_elements _ _ _ _ _ _ _ _ _ _ _ C Ha) as (d & m & x & V1 & V2 & V3 & B & El & Ec).
  destruct (call_elements _ _ _ _ _ _ _ _ _ _ _ C' Ha) as (d' & m' & x' & V1' & V2' & V3' & B' & El' & Ec').
  exists d, m, x, d', m', x'. cbv zeta. repeat (split; [assumption|]).
  assert (BT := centuries_b t (proj2 (proj2 C))). assert (BT' := centuries_b _ (proj2 (proj2 C'))).
  destruct (call_supported _ _ _ _ _ _ _ _ _ (proj1 C)) as (ml & Hin). assert (N := supported_names _ _ _ _ _ Hin Ha).
  rewrite centuries_cycle in *. set (T := centuries t) in *. clearbody T.
  destruct (tols alg T N BT) as (T1 & T2 & T3 & T4 & T5 & T6). destruct (tols alg (cycle T) N BT') as (T1' & T2' & T3' & T4' & T5' & T6').
  apply elements_cycle in El'; [|lra]. destruct (al_eot_exists T BT) as (m0 & Hm0).
  assert (A : Rabs (d - al_dec T) <= 0.4375 * lon_tol alg T + 1.007 * obl_tol alg + 1.008 * lat_tol alg) by (apply (elements_dec _ _ _ _ _ _ _ BT) with (4 := El); lra).
  assert (A2 : Rabs (m - m0) <= 229.2 * (mean_tol alg T + (1.112 * lon_tol alg T + 0.485 * obl_tol alg + 0.485 * lat_tol alg))) by (apply (elements_eot _ _ _ _ _ _ _ _ BT) with (5 := El) (7 := Hm0); assumption || lra).
  set (eta := lon_tol alg (cycle T) + 0.00057) in *. set (zeta := obl_tol alg + 0.0000092) in *. set (mu := mean_tol alg (cycle T) + 0.00054) in *.
  assert (A' : Rabs (d' - al_dec T) <= 0.4375 * eta + 1.007 * zeta + 1.008 * lat_tol alg) by (apply (elements_dec _ _ _ _ _ _ _ BT) with (4 := El'); unfold eta, zeta; lra).
  assert (A2' : Rabs (m' - m0) <= 229.2 * (mu + (1.112 * eta + 0.485 * zeta + 0.485 * lat_tol alg))) by (apply (elements_eot _ _ _ _ _ _ _ _ BT) with (5 := El') (7 := Hm0); assumption || (unfold eta, zeta, mu; lra)).
  unfold eta, zeta, mu in A', A2'.
  assert (R := R_cycle T ltac:(lra)). apply Rabs_le_inv in A, A2, A', A2', R, Ec, Ec'. repeat split; apply Rabs_le; lra.
Qed.
Definition dec_repeat (alg : string) (t : Z) : R := dec_tol alg (centuries t) + dec_tol alg (centuries (t + four_years)) + 0.00028.
Definition eot_repeat (alg : string) (t : Z) : R := eot_tol alg (centuries t) + eot_tol alg (centuries (t + four_years)) + 0.29.
Theorem C94_four_years : forall D D' uc uc' times times' lat lat' lon lon' alg refr refr' eng eng' sp sp' k k' t, alg <> "iqbal"%string ->
  double_like D -> double_like D' -> evaluated_time64 D uc times lat lon alg refr eng sp k t -> evaluated_time64 D' uc' times' lat' lon' alg refr' eng' sp' k' (t + four_years) ->
  exists d m x d' m' x',
    value (sp_declination sp) [k] d /\ value (sp_eot sp) [k] m /\ value (sp_ecf sp) [k] x /\
    value (sp_declination sp') [k'] d' /\ value (sp_eot sp') [k'] m' /\ value (sp_ecf sp') [k'] x' /\
    Rabs (d - d') <= dec_repeat alg t /\ Rabs (m - m') <= eot_repeat alg t /\ Rabs (x - x') <= 2 * ecf_tol alg + 0.00005.
Proof.
  intros D D' uc uc' times times' lat lat' lon lon' alg refr refr' eng eng' sp sp' k k' t Ha HD HD' C C'.
  destruct (twin64 _ _ _ _ _ _ _ _ _ _ _ HD C) as (s1 & d & m & x & d1 & m1 & x1 & C1 & V1 & V2 & V3 & U1 & U2 & U3 & A1 & A2 & A3).
  destruct (twin64 _ _ _ _ _ _ _ _ _ _ _ HD' C') as (s2 & d' & m' & x' & d2 & m2 & x2 & C2 & V1' & V2' & V3' & U1' & U2' & U3' & A1' & A2' & A3').
  destruct (repeat_core _ _ _ _ _ _ _ _ _ _ _ _ _ _ _ _ _ _ _ _ Ha C1 C2) as (e1 & f1 & g1 & e2 & f2 & g2 & W1 & W2 & W3 & W1' & W2' & W3' & B1 & B2 & B3).
  unfold value in *. rewrite U1 in W1. injection W1 as <-. rewrite U2 in W2. injection W2 as <-. rewrite U3 in W3. injection W3 as <-.
  rewrite U1' in W1'. injection W1' as <-. rewrite U2' in W2'. injection W2' as <-. rewrite U3' in W3'. injection W3' as <-.
  exists d, m, x, d', m', x'. repeat (split; [assumption|]). unfold dec_repeat, eot_repeat. apply Rabs_le_inv in A1, A2, A3, A1', A2', A3', B1, B2, B3. repeat split; apply Rabs_le; lra.
Qed.
(** ... and the height of the sun at a place. *)
Theorem C94_four_years_height : forall D D' uc uc' times times' lat lat' lon lon' alg refr refr' eng eng' sp sp' k k' j j' i i' t la lo zd zd', alg <> "iqbal"%string ->
  double_like D -> double_like D' -> is_True refr = false -> is_True refr' = false ->
  evaluated_cell64 D uc times lat lon alg refr eng sp k j i t la lo -> evaluated_cell64 D' uc' times' lat' lon' alg refr' eng' sp' k' j' i' (t + four_years) la lo ->
  reads (zenith (O := DoubleOps D) sp) k j i (Fin zd) -> reads (zenith (O := DoubleOps D') sp') k' j' i' (Fin zd') ->
  Rabs (cos (rad zd) - cos (rad zd')) <= 0.00155 + dec_repeat alg t + eot_repeat alg t * (PI / 720).
Proof.
  intros D D' uc uc' times times' lat lat' lon lon' alg refr refr' eng eng' sp sp' k k' j j' i i' t la lo zd zd' Ha HD HD' Hr Hr' C C' Hz Hz'.
  destruct (C94_four_years _ _ _ _ _ _ _ _ _ _ _ _ _ _ _ _ _ _ _ _ Ha HD HD' (proj1 C) (proj1 C')) as (d & m & x & d' & m' & x' & V1 & V2 & _ & V1' & V2' & _ & D1 & D2 & _).
  destruct (height64 _ _ _ _ _ _ _ _ _ _ _ _ _ _ _ _ HD Hr C Hz) as (d1 & dd & m1 & _ & W1 & Ed & _ & W2 & _ & _ & HU).
  destruct (height64 _ _ _ _ _ _ _ _ _ _ _ _ _ _ _ _ HD' Hr' C' Hz') as (d2 & dd' & m2 & _ & W1' & Ed' & _ & W2' & _ & _ & HU').
  unfold value in *. rewrite V1 in W1. injection W1 as <-. rewrite V2 in W2. injection W2 as <-. rewrite V1' in W1'. injection W1' as <-. rewrite V2' in W2'. injection W2' as <-.
  assert (N : near_turn (solar_hour_angle t lo m) (solar_hour_angle (t + four_years) lo m') (eot_repeat alg t * (PI / 720))).
  { assert (Eu : utc_hours (t + four_years) = utc_hours t).
    { unfold utc_hours. do 2 f_equal. unfold four_years. replace (1461 * 86400 * 1000000000)%Z with ((1461 * 86400) * 1000000000)%Z by reflexivity. rewrite Z.div_add by discriminate. apply Z_mod_plus_full. }
    exists 0%Z. unfold solar_hour_angle. rewrite Eu. match goal with |- Rabs ?z <= _ => replace z with ((m - m') * (PI / 720)) by field end.
    rewrite Rabs_mult, (Rabs_pos_eq (PI / 720)) by interval. apply Rmult_le_compat_r; [interval|exact D2]. }
  set (e := eot_repeat alg t * (PI / 720)) in *. clearbody e.
  assert (A := HU _ _ (near_turn_refl _)). assert (A' := HU' _ _ (near_turn_refl _)).
  assert (B := dist_hor (rad la) (rad dd) _ (rad dd') _ _ N). unfold hor in B. assert (B2 := Rle_trans _ _ _ (up_dist _ _ _ _ _ _) B).
  assert (Dd : Rabs (rad dd - rad dd') <= dec_repeat alg t + 0.0000001) by (apply Rabs_le_inv in Ed, Ed', D1; apply Rabs_le; assert (/ 10 ^ 14 <= / 10000000000) by lra; split; lra).
  apply Rabs_le_inv in A, A', B2. apply Rabs_le. lra.
Qed.

(** ** C94: iqbal repeats, to the last bit, whenever the day of the year and the time of the day do (any arithmetic) *)
(** Same day of the year ([day_number] of 1 January subtracted), same second of the day. *)
Definition same_day_and_time (day_number : Z -> Z -> Z -> Z) (t y t' y' : Z) : Prop :=
  in_year day_number y t /\ in_year day_number y' t' /\
  (t / 1000000000 - 86400 * day_number y 1 1 = t' / 1000000000 - 86400 * day_number y' 1 1)%Z.
Lemma day_in_year c y s a b d : calendar c -> (86400 * c y 1 1 <= s < 86400 * c (y + 1) 1 1)%Z -> civil_of_seconds s = (a, b, d) ->
  (day_of_year a b d = s / 86400 - c y 1 1 + 1)%Z.
Proof.
  intros Hc Y Ec. destruct (C30_fields c s a b d Hc Ec) as (Hv & Hf & Es & Ed).
  assert (B : (c a 1 1 <= c a b d < c (a + 1) 1 1)%Z).
  { destruct Hv as [V1 V2]. rewrite !(calendar_unique c Hc) by lia. unfold gregorian. rewrite jan1_next. unfold year_length.
    assert (b = 1 \/ b = 2 \/ b = 3 \/ b = 4 \/ b = 5 \/ b = 6 \/ b = 7 \/ b = 8 \/ b = 9 \/ b = 10 \/ b = 11 \/ b = 12)%Z as Hmo by lia.
    revert V2. unfold month_length, before_month. generalize (jan1 a). intros j.
    repeat destruct Hmo as [->|Hmo]; try subst b; destruct (leap a), (leap (a + 1)); cbn; lia. }
  assert (Ea : a = y) by (apply (SmoothI.year_unique c a y s Hc); [unfold second_number in Es; lia|exact Y]). subst a.
  unfold second_number in Es. assert (s / 86400 = c y b d)%Z by (Z.div_mod_to_equations; lia). lia.
Qed.
Lemma iqbal_fields c t y t' y' : calendar c -> same_day_and_time c t y t' y' ->
  let s := (t / 1000000000)%Z in let s' := (t' / 1000000000)%Z in
  hour_of s' = hour_of s /\ minute_of s' = minute_of s /\ second_of s' = second_of s /\
  let '(a, b, d) := civil_of_seconds s in let '(a', b', d') := civil_of_seconds s' in day_of_year a' b' d' = day_of_year a b d.
Proof.
  intros Hc (Y & Y' & E) s s'. unfold in_year in Y, Y'. fold s in Y, E. fold s' in Y', E.
  assert (E2 : s' = (s + (c y' 1 1 - c y 1 1) * 86400)%Z) by lia.
  split; [unfold hour_of; Z.div_mod_to_equations; lia|]. split; [unfold minute_of; Z.div_mod_to_equations; lia|]. split; [unfold second_of; Z.div_mod_to_equations; lia|].
  destruct (civil_of_seconds s) as [[a b] d] eqn:E1. destruct (civil_of_seconds s') as [[a' b'] d'] eqn:E1'.
  rewrite (day_in_year c y s a b d Hc Y E1), (day_in_year c y' s' a' b' d' Hc Y' E1'). rewrite E2, Z.div_add by discriminate. lia.
Qed.
Theorem C94_iqbal_repeats : forall F (O : Ops F) day_number ne uc times times' lat lat' lon lon' refr eng (sp sp' : Sunpos F) k k' t t' y y',
  calendar day_number -> same_day_and_time day_number t y t' y' ->
  call ne uc times lat lon "iqbal" refr eng = Ok sp -> call ne uc times' lat' lon' "iqbal" refr eng = Ok sp' ->
  nth_error (instants times) k = Some (Some t) -> nth_error (instants times') k' = Some (Some t') ->
  (exists d m x, get (sp_declination sp) [k] = Some d /\ get (sp_declination sp') [k'] = Some d /\ get (sp_eot sp) [k] = Some m /\ get (sp_eot sp') [k'] = Some m /\
    get (sp_ecf sp) [k] = Some x /\ get (sp_ecf sp') [k'] = Some x) /\
  forall j i j' i' la lo, at_idx uc (elems lat) (elems lon) k j i la lo -> at_idx uc (elems lat') (elems lon') k' j' i' la lo ->
    exists z a, get (sp_zenith sp) (idx uc k j i) = Some z /\ get (sp_zenith sp') (idx uc k' j' i') = Some z /\
      get (sp_azimuth sp) (idx uc k j i) = Some a /\ get (sp_azimuth sp') (idx uc k' j' i') = Some a.
Proof.
  intros F O c ne uc times times' lat lat' lon lon' refr eng sp sp' k k' t t' y y' Hc Hs C C' Hk Hk'.
  destruct (call_supported ne _ _ _ _ _ _ _ _ C) as (m & Hin).
  destruct (iqbal_fields c t y t' y' Hc Hs) as (H1 & H2 & H3 & H4). set (s := (t / 1000000000)%Z) in *. set (s' := (t' / 1000000000)%Z) in *.
  assert (E : lib_time m s' = lib_time m s).
  { clear - Hin H1 H2 H3 H4. assert (N : py_iqbal_time (F := F) s' = py_iqbal_time s /\ ne_iqbal_time (F := F) s' = ne_iqbal_time s).
    { unfold py_iqbal_time, ne_iqbal_time. destruct (civil_of_seconds s) as [[a b] d]. destruct (civil_of_seconds s') as [[a' b'] d'].
      unfold py_day_angle, ne_day_angle. rewrite H1, H2, H3, H4. now split. }
    unfold supported in Hin. cbn [In] in Hin. repeat (destruct Hin as [H|Hin]; [try discriminate H; injection H as <- <-; cbn [py_iqbal ne_iqbal lib_time]; apply N|]). destruct Hin. }
  split.
  - destruct (dispatch_lemma ne _ _ _ _ _ _ _ _ m k t (ofZ 0) (ofZ 0) C Hin Hk) as (A1 & A2 & A3 & _). destruct (dispatch_lemma ne _ _ _ _ _ _ _ _ m k' t' (ofZ 0) (ofZ 0) C' Hin Hk') as (B1 & B2 & B3 & _).
    fold s in A1, A2, A3. fold s' in B1, B2, B3. rewrite E in B1, B2, B3. do 3 eexists. repeat split; eassumption.
  - intros j i j' i' la lo I I'. destruct (dispatch_lemma ne _ _ _ _ _ _ _ _ m k t la lo C Hin Hk) as (_ & _ & _ & A). destruct (dispatch_lemma ne _ _ _ _ _ _ _ _ m k' t' la lo C' Hin Hk') as (_ & _ & _ & B).
    destruct (A j i I) as [A1 A2]. destruct (B j' i' I') as [B1 B2]. fold s in A1, A2. fold s' in B1, B2. rewrite E in B1, B2. do 2 eexists. repeat split; eassumption.
Qed.

(** ** The hypotheses are met: 21 June 2024 and 2028, 40 degrees north; the sizes of the tolerances *)
Lemma rep_cycle : representable (w_t + four_years). Proof. unfold representable, four_years, w_t. lia. Qed.
Example C94_example : forall uc alg eng m, In (alg, eng, m) (supported (O := DoubleOps float64_env)) -> alg <> "iqbal"%string ->
  exists sp sp' zd zd', double_like float64_env /\
    evaluated_cell64 float64_env uc (at_times [Some w_t]) (Scalar (Fin 40)) (Scalar (Fin (-3))) alg RFalse eng sp 0 0 0 w_t 40 (-3) /\
    evaluated_cell64 float64_env uc (at_times [Some (w_t + four_years)%Z]) (Scalar (Fin 40)) (Scalar (Fin (-3))) alg RFalse eng sp' 0 0 0 (w_t + four_years) 40 (-3) /\
    reads (zenith (O := DoubleOps float64_env) sp) 0 0 0 (Fin zd) /\ reads (zenith (O := DoubleOps float64_env) sp') 0 0 0 (Fin zd') /\
    Rabs (cos (rad zd) - cos (rad zd')) <= 0.0056.
Proof.
  intros uc alg eng m H Ha. assert (A40 : 24.5 <= Rabs 40) by (rewrite Rabs_pos_eq; lra).
  destruct (cell_zenith uc w_t 40 (-3) alg eng m H w_t_representable ltac:(lra) A40 ltac:(lra)) as (sp & zd & C & Hz).
  destruct (cell_zenith uc (w_t + four_years) 40 (-3) alg eng m H rep_cycle ltac:(lra) A40 ltac:(lra)) as (sp' & zd' & C' & Hz').
  exists sp, sp', zd, zd'. split; [exact float64_like|]. do 4 (split; [assumption|]).
  eapply Rle_trans; [exact (C94_four_years_height _ _ _ _ _ _ _ _ _ _ _ _ _ _ _ _ _ _ _ _ _ _ _ _ _ _ _ _ Ha float64_like float64_like (eq_refl : is_True RFalse = false) (eq_refl : is_True RFalse = false) C C' Hz Hz')|].
  assert (N := supported_names _ _ _ _ _ H Ha). assert (Bt : 0 <= centuries w_t <= 0.3) by (unfold centuries; replace (w_t / 1000000000)%Z with 1718964000%Z by (vm_compute; reflexivity); lra).
  assert (Bt' : 0 <= centuries (w_t + four_years) <= 0.3) by (rewrite centuries_cycle; unfold cycle; unfold centuries in *; replace (w_t / 1000000000)%Z with 1718964000%Z in * by (vm_compute; reflexivity); lra).
  unfold dec_repeat, eot_repeat, dec_tol, eot_tol. rewrite !Rabs_pos_eq by lra. assert (P : 0 <= PI / 720 <= 0.0043634) by (split; interval).
  destruct N as [<-|[<-|[<-|[]]]]; cbn [String.eqb Ascii.eqb Bool.eqb]; nra.
Qed.
Example C94_iqbal_example : forall uc refr eng m, In ("iqbal"%string, eng, m) (supported (O := DoubleOps float64_env)) ->
  exists sp sp', calendar gregorian /\ same_day_and_time gregorian w_t 2024 (w_t + four_years) 2028 /\
    call (O := DoubleOps float64_env) true uc (at_times [Some w_t]) (Scalar (Fin 40)) (Scalar (Fin (-3))) "iqbal" refr eng = Ok sp /\
    call (O := DoubleOps float64_env) true uc (at_times [Some (w_t + four_years)%Z]) (Scalar (Fin 40)) (Scalar (Fin (-3))) "iqbal" refr eng = Ok sp' /\
    at_idx uc (elems (Scalar (Fin 40))) (elems (Scalar (Fin (-3)))) 0 0 0 (Fin 40) (Fin (-3)).
Proof.
  intros uc refr eng m H.
  destruct (one_cell64 float64_env uc w_t 40 (-3) "iqbal" refr eng m float64_like H w_t_representable ltac:(lra) ltac:(lra)) as (sp & C).
  destruct (one_cell64 float64_env uc (w_t + four_years) 40 (-3) "iqbal" refr eng m float64_like H rep_cycle ltac:(lra) ltac:(lra)) as (sp' & C').
  exists sp, sp'. split; [exact gregorian_calendar|]. split; [unfold same_day_and_time, in_year, w_t, four_years; repeat split; vm_compute; congruence|].
  split; [apply C|]. split; [apply C'|]. apply C.
Qed.
