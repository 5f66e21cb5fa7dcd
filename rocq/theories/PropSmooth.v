(** * PropSmooth: the sun moves at the speed of the sky (C78) *)
From Coq Require Import ZArith QArith Reals Bool List String Lra Lia.
From Flocq Require Import Core.Raux.
From Interval Require Import Tactic.
From Verif Require Import Num Arrays Libspa Time Core Usecases Spec GenericLemmas GenericLemmas2 TimeLemmas Ext ExtLemmas Witness
  AstroTac Sky SkyClose AstroSpec Astro AstroCell AstroCall AstroRefute Float32 PropAstro Psa PsaR Soltrack SoltrackR Iqbal IqbalR Nrel NrelR
  CalendarSpec CalendarLemmas PropCalendar Almanac AlmanacR AlmanacN AlmanacSky AlmanacTime AlmanacIqbal AlmanacPos
  PsaCell SoltrackCell NrelCell PropAlmanac SmoothR SmoothN SmoothE SmoothPos SmoothI.
Import ListNotations.
Open Scope R_scope.

(** ** Specification *)
(** The year of an instant ([day_number] numbers the days of the calendar, CalendarSpec). *)
Definition in_year (day_number : Z -> Z -> Z -> Z) (y t : Z) : Prop :=
  (86400 * day_number y 1 1 <= t / 1000000000 < 86400 * day_number (y + 1) 1 1)%Z.
(** Whole seconds between two instants (nanoseconds since 1970). For iqbal, which repeats the last day at the end of a leap year, a day more per
    29 February between the new year's days of their years. *)
Definition seconds_apart (alg : string) (day_number : Z -> Z -> Z -> Z) (t y t' y' : Z) : R :=
  IZR (Z.abs (t / 1000000000 - t' / 1000000000)) +
  (if String.eqb alg "iqbal" then 86400 * IZR (Z.abs (day_number y 1%Z 1%Z - day_number y' 1%Z 1%Z - 365 * (y - y'))) else 0).
(** Radians the direction of the sun may change in [D] seconds (15.09 arcseconds per second) and between two places
    (degrees; longitudes compared modulo [k] turns). *)
Definition travel (D la la' lo lo' : R) (k : Z) : R :=
  0.00007314 * D + 1.0002 * (PI / 180) * (Rabs (la - la') + Rabs (lo - lo' - 360 * IZR k)).
(** psa with the numpy engine rounds the cosine of the zenith angle to six decimals, which moves a sun near the zenith by up to a milliradian. *)
Definition round_tol (alg eng : string) : R := if (String.eqb alg "psa" && String.eqb eng "numpy")%bool then 0.001001 else 0.

(** ** Proof *)
Lemma plain_lip k alg eng eng' phi d h z a phi' d' h' z' a' : 0 <= k <= 0.0000437 -> alg <> "nrel"%string ->
  sky_plain k (cos_tol alg eng) phi d h z a -> sky_plain k (cos_tol alg eng') phi' d' h' z' a' ->
  dist (sky z a) (sky z' a') <= 1.0000437 * dist (hor phi d h) (hor phi' d' h') + round_tol alg eng + round_tol alg eng'.
Proof.
  intros Hk Hn H H'.
  assert (P0 : forall eng phi d h z a, sky_plain k (cos_tol alg eng) phi d h z a -> exists z0, 0 <= z0 <= PI /\ z = z0 + k * sin z0 /\ 1.0000437 * dist (sky z0 a) (hor phi d h) <= round_tol alg eng).
  { clear. intros eng phi d h z a H. destruct H as (z0 & B0 & H0 & E & Ha). exists z0. split; [exact B0|]. split; [exact E|].
    assert (Hp : sky_plain 0 (cos_tol alg eng) phi d h z0 a) by (exists z0; split; [exact B0|]; split; [exact H0|]; split; [ring|exact Ha]). unfold cos_tol, round_tol in *.
    destruct (String.eqb alg "psa" && String.eqb eng "numpy")%bool.
    - assert (D := dist_plain 0 (5 / 10000000) 0.001 phi d h z0 a ltac:(lra) ltac:(lra) ltac:(lra) Hp). lra.
    - assert (D := dist_plain 0 0 0 phi d h z0 a ltac:(lra) ltac:(lra) ltac:(lra) Hp). lra. }
  destruct (P0 _ _ _ _ _ _ H) as (z0 & B & -> & D). destruct (P0 _ _ _ _ _ _ H') as (z0' & B' & -> & D').
  eapply Rle_trans; [apply (parallax_lip k z0 a z0' a'); lra|]. assert (Q := dist_pos (sky z0 a) (sky z0' a')).
  assert (T1 := dist_tri (sky z0 a) (hor phi d h) (sky z0' a')). assert (T2 := dist_tri (hor phi d h) (hor phi' d' h') (sky z0' a')). rewrite (dist_sym (hor phi' d' h')) in T2.
  apply Rle_trans with (1.0000437 * dist (sky z0 a) (sky z0' a')); [|lra]. apply Rmult_le_compat_r; lra.
Qed.
Lemma sky_lip alg eng eng' phi d h ecf z a phi' d' h' ecf' z' a' : alg = "psa"%string \/ alg = "soltrack"%string \/ alg = "nrel"%string ->
  0 <= cos phi -> 0 <= cos phi' -> 0.96 <= ecf <= 1.04 -> 0.96 <= ecf' <= 1.04 ->
  sky_position alg eng phi d h ecf z a -> sky_position alg eng' phi' d' h' ecf' z' a' ->
  dist (sky z a) (sky z' a') <= 1.0000437 * (dist (hor phi d h) (hor phi' d' h') + 0.0000875 * Rabs (phi - phi') + Rabs (par ecf - par ecf')) + round_tol alg eng + round_tol alg eng'.
Proof.
  intros Ha Hc Hc' He He' H H'. unfold sky_position in H, H'. assert (P1 := Rabs_pos (phi - phi')). assert (P2 := Rabs_pos (par ecf - par ecf')).
  assert (C0 : forall eng, 0 <= round_tol alg eng) by (intros g; unfold round_tol; destruct (_ && _)%bool; lra). assert (C1 := C0 eng). assert (C2 := C0 eng').
  destruct (String.eqb_spec alg "nrel") as [->|Hn].
  - assert (T := topo_lip _ _ _ _ _ _ _ _ _ _ _ _ Hc Hc' He He' H H'). lra.
  - assert (K : 0 <= parallax_coef alg <= 0.0000437) by (unfold parallax_coef; destruct Ha as [->|[->| ->]]; cbn [String.eqb Ascii.eqb Bool.eqb]; lra).
    assert (T := plain_lip _ _ _ _ _ _ _ _ _ _ _ _ _ _ K Hn H H'). lra.
Qed.
(** A cell of a call, by its elements. *)
Lemma call_cell E uc times lat lon alg refr eng sp k j i t la lo : ideal E -> is_True refr = false -> alg <> "iqbal"%string ->
  evaluated_cell E uc times lat lon alg refr eng sp k j i t la lo ->
  exists z a d h, let s := IZR (t / 1000000000) in let phi := la * (PI / 180) in
    value (sp_zenith sp) (idx uc k j i) z /\ value (sp_azimuth sp) (idx uc k j i) a /\ 0 <= z <= PI /\ in_ns_range s /\ -90 <= la <= 90 /\ 0.96 <= el_ecf alg s <= 1.04 /\
    sky_position alg eng phi d h (el_ecf alg s) z a /\ hor phi d h = place (el_l alg s) (el_b alg s) (el_e alg s) (el_th alg s + lo * (PI / 180)) phi.
Proof.
  intros I R Ha ((Hc & Hk & Ht) & Hi). destruct (call_supported _ _ _ _ _ _ _ _ _ Hc) as (m & Hin).
  destruct (call_value E true uc times lat lon alg refr eng sp k t Hc Hk Ht j i la lo Hi (or_introl I)) as (d & eot & ecf & h & z & a & W1 & W2 & W3 & W4 & W5 & W6 & W7 & W8 & _ & W9).
  destruct (dispatch_lemma (O := ExtOps E) true uc times lat lon alg refr eng sp m k t NaN NaN Hc Hin Hk) as (H1 & H2 & H3 & _).
  assert (T : time_is E m (t / 1000000000) d eot ecf) by (unfold time_is; rewrite H3 in W1; rewrite H2 in W2; rewrite H1 in W3; split; [|split]; congruence).
  destruct (call_place E alg eng m t lo d eot ecf Hin Ha Ht T) as (Ee & Ep).
  assert (U : forall q, used E alg q = q) by (intros q; unfold used; destruct (String.eqb alg "nrel"); [reflexivity|apply I]). rewrite U in W7, W9. subst ecf h.
  destruct (C25_ecf_bound E _ _ _ _ _ _ _ _ _ _ (conj Hc (conj Hk Ht))) as (x1 & X1 & Bx). unfold value in X1. rewrite W3 in X1. injection X1 as <-.
  rewrite R in W4. destruct (call_bounds E true uc times lat lon alg refr eng sp k Hc j i la lo Hi) as (Bl & _).
  exists z, a, d, (hour_angle_of alg eng (nem E) t lo). cbv zeta. do 3 (split; [assumption|]). split; [exact (sec_range t Ht)|]. split; [exact Bl|]. split; [exact Bx|]. split; [exact W7|]. apply Ep.
Qed.
Lemma chord z a z' a' c : 0 <= c -> dist (sky z a) (sky z' a') <= c -> 1 - c * c / 2 <= cos z * cos z' + sin z * sin z' * cos (a - a').
Proof.
  intros Hc H. rewrite <- dot_sky. assert (E := dist_unit _ _ (sky_unit z a) (sky_unit z' a')). assert (P := dist_pos (sky z a) (sky z' a')). nra.
Qed.

Lemma motion3 E E' uc uc' times times' lat lat' lon lon' alg refr refr' eng eng' sp sp' k k' j j' i i' t t' la la' lo lo' n :
  ideal E -> ideal E' -> is_True refr = false -> is_True refr' = false -> alg <> "iqbal"%string ->
  evaluated_cell E uc times lat lon alg refr eng sp k j i t la lo ->
  evaluated_cell E' uc' times' lat' lon' alg refr' eng' sp' k' j' i' t' la' lo' ->
  exists z a z' a', value (sp_zenith sp) (idx uc k j i) z /\ value (sp_azimuth sp) (idx uc k j i) a /\
    value (sp_zenith sp') (idx uc' k' j' i') z' /\ value (sp_azimuth sp') (idx uc' k' j' i') a' /\ 0 <= z <= PI /\ 0 <= z' <= PI /\
    dist (sky z a) (sky z' a') <= travel (IZR (Z.abs (t / 1000000000 - t' / 1000000000))) la la' lo lo' n + round_tol alg eng + round_tol alg eng'.
Proof.
  intros I I' R R' Ha H H'.
  assert (A3 : alg = "psa"%string \/ alg = "soltrack"%string \/ alg = "nrel"%string).
  { destruct (call_supported _ _ _ _ _ _ _ _ _ (proj1 (proj1 H))) as (m & Hin). cbn [supported In] in Hin. destruct Hin as [H0|[H0|[H0|[H0|[H0|[H0|[H0|[]]]]]]]]; injection H0 as <- _ _; tauto. }
  destruct (call_cell E _ _ _ _ _ _ _ _ _ _ _ _ _ _ I R Ha H) as (z & a & d & h & V1 & V2 & Bz & Hs & Bl & Be & S & P).
  destruct (call_cell E' _ _ _ _ _ _ _ _ _ _ _ _ _ _ I' R' Ha H') as (z' & a' & d' & h' & V1' & V2' & Bz' & Hs' & Bl' & Be' & S' & P').
  cbv zeta in *. exists z, a, z', a'. set (s := IZR (t / 1000000000)) in *. set (s' := IZR (t' / 1000000000)) in *.
  assert (Hpi : 0 < PI / 180 < 1) by (split; interval).
  assert (CP : forall q, -90 <= q <= 90 -> 0 <= cos (q * (PI / 180))) by (intros q Hq; apply cos_ge_0; nra).
  assert (L := sky_lip alg eng eng' _ _ _ _ _ _ _ _ _ _ _ _ A3 (CP la Bl) (CP la' Bl') Be Be' S S'). rewrite P, P' in L.
  destruct (el_lip alg s s' Hs Hs' A3) as (L1 & L2 & L3 & L4 & _ & L6). cbv zeta in *. set (D := Rabs (s - s')) in *.
  assert (PD : 0 <= D) by apply Rabs_pos.
  assert (ED : IZR (Z.abs (t / 1000000000 - t' / 1000000000)) = D) by (unfold D, s, s'; now rewrite abs_IZR, minus_IZR).
  assert (T1 : near_turn (el_l alg s) (el_l alg s') (0.00000020661 * D)) by (apply turn_abs; exact L1).
  assert (Eo : Rabs ((lo - lo' - 360 * IZR n) * (PI / 180)) = Rabs (lo - lo' - 360 * IZR n) * (PI / 180)) by (rewrite Rabs_mult, (Rabs_pos_eq (PI / 180)) by lra; reflexivity).
  assert (T2 : near_turn (el_th alg s + lo * (PI / 180)) (el_th alg s' + lo' * (PI / 180)) (0.0000729222 * D + Rabs (lo - lo' - 360 * IZR n) * (PI / 180))).
  { exists n. replace (el_th alg s + lo * (PI / 180) - (el_th alg s' + lo' * (PI / 180)) - 2 * PI * IZR n) with ((el_th alg s - el_th alg s') + (lo - lo' - 360 * IZR n) * (PI / 180)) by field.
    eapply Rle_trans; [apply Rabs_triang|]. rewrite Eo. lra. }
  assert (Q := place_lip _ (el_b alg s) (el_e alg s) _ (la * (PI / 180)) _ (el_b alg s') (el_e alg s') _ (la' * (PI / 180)) _ _ T1 T2).
  assert (Ea : Rabs (la * (PI / 180) - la' * (PI / 180)) = Rabs (la - la') * (PI / 180)) by (rewrite <- Rmult_minus_distr_r, Rabs_mult, (Rabs_pos_eq (PI / 180)) by lra; reflexivity).
  rewrite Ea in L, Q. assert (Pa := Rabs_pos (la - la')). assert (Po := Rabs_pos (lo - lo' - 360 * IZR n)).
  assert (C0 : forall eng, 0 <= round_tol alg eng) by (intros g; unfold round_tol; destruct (_ && _)%bool; lra). assert (C1 := C0 eng). assert (C2 := C0 eng').
  unfold travel. rewrite ED. set (X := Rabs (la - la')) in *. set (Y := Rabs (lo - lo' - 360 * IZR n)) in *.
  set (c := 0.00007314 * D + 1.0002 * (PI / 180) * (X + Y) + round_tol alg eng + round_tol alg eng').
  assert (X0 : 0 <= X * (PI / 180)) by (apply Rmult_le_pos; lra). assert (Y0 : 0 <= Y * (PI / 180)) by (apply Rmult_le_pos; lra).
  assert (Hc : dist (sky z a) (sky z' a') <= c).
  { unfold c. replace (1.0002 * (PI / 180) * (X + Y)) with (1.0002 * (X * (PI / 180)) + 1.0002 * (Y * (PI / 180))) by ring. eapply Rle_trans; [exact L|]. lra. }
  do 6 (split; [assumption|]). exact Hc.
Qed.

(** ** Declination, equation of time and distance *)
Lemma equatorial_turn l b e a d k : equatorial (l + 2 * PI * IZR k) b e a d -> equatorial l b e a d.
Proof.
  unfold equatorial. rewrite <- (cos_2kpi (l + _) k), <- (sin_2kpi (l + _) k). replace (l + 2 * PI * IZR k - 2 * PI * IZR k) with l by ring. auto.
Qed.
Definition el_gap (alg : string) (s : R) : R := if String.eqb alg "psa" then p_gap s else if String.eqb alg "soltrack" then t_gap s else n_gap s.
Lemma call_ra E alg eng m t d eot ecf : In (alg, eng, m) (supported (O := ExtOps E)) -> alg <> "iqbal"%string -> representable t ->
  time_is E m (t / 1000000000) d eot ecf -> let s := IZR (t / 1000000000) in
  ecf = el_ecf alg s /\ Rabs (el_gap alg s) <= 0.036 /\ 0.408 <= el_e alg s <= 0.4102 /\ Rabs (el_b alg s) <= 0.000006 /\
  exists a, equatorial (el_l alg s) (el_b alg s) (el_e alg s) a d /\ eot_of_ra (el_l alg s + el_gap alg s) a eot.
Proof.
  intros Hin Hi Ht T s. assert (Hs := sec_range t Ht). unfold sec_of in *. fold s in Hs |- *. pose proof PI_RGT_0 as PP.
  assert (FI : forall a b, Fin a = Fin b -> a = b) by (intros a b H; now injection H).
  assert (PSA : equatorial (p_l s) 0 (p_ep s) (p_ra s) (p_delta s) /\ eot_of_ra (p_l s + p_gap s) (p_ra s) (p_eot s)).
  { destruct (p_eot_thm s Hs) as (_ & k & Ek). destruct (p_ra_spec s) as (_ & k1 & E1). split.
    - unfold p_delta. apply (equatorial_plain _ _ _ k1). rewrite E1. reflexivity.
    - exists k. rewrite Ek. unfold p_gap, deg. field. lra. }
  assert (SOL : forall md, mod_spec md -> equatorial (u_lon s) 0 (t_obl s) (t_ra md s) (t_dec md s) /\ eot_of_ra (u_lon s + t_gap s) (t_ra md s) (t_eot md s)).
  { intros md Hmd. destruct (t_eot_thm md Hmd s Hs) as (_ & k & Ek). destruct (Hmd (t_ra0 md s) (2 * PI)) as (k1 & E1 & _); [lra|]. fold (t_ra md s) in E1.
    destruct (Hmd (t_l0 s + t_sec s + - #9.93087e-5 / t_R s + t_dpsi s) (2 * PI)) as (k2 & Hk2 & _); [lra|]. fold (t_L md s) (u_lon s) in Hk2. split.
    - apply (equatorial_turn _ _ _ _ _ (- k2)). rewrite opp_IZR. replace (u_lon s + 2 * PI * - IZR k2) with (t_L md s) by (rewrite Hk2; ring).
      unfold t_dec. apply (equatorial_plain _ _ _ (- k1)). rewrite E1, opp_IZR. unfold t_ra0. ring.
    - exists k. rewrite Ek. unfold t_gap. field. lra. }
  assert (Z0 : Rabs 0 <= 0.000006) by (rewrite Rabs_R0; lra).
  assert (Bp := p_ep_b s Hs). assert (Bt := t_obl_b s Hs). assert (Bn := n_eps_b s Hs).
  cbn [supported In] in Hin.
  destruct Hin as [H|[H|[H|[H|[H|[H|[H|[]]]]]]]]; injection H as <- <- <-; try (exfalso; apply Hi; reflexivity); destruct T as (T1 & T2 & T3); unfold el_ecf, el_l, el_b, el_e, el_gap; cbn [String.eqb Ascii.eqb Bool.eqb].
  - destruct (py_psa_is E (t / 1000000000) Hs) as (V1 & V2 & V3). rewrite V1 in T1. rewrite V2 in T2. rewrite V3 in T3. apply FI in T1, T2, T3. subst d eot ecf. split; [reflexivity|]. split; [apply p_gap_b; assumption|]. split; [lra|]. split; [assumption|]. exists (p_ra s). exact PSA.
  - destruct (ne_psa_is E (t / 1000000000) Hs) as (V1 & V2 & V3). rewrite V1 in T1. rewrite V2 in T2. rewrite V3 in T3. apply FI in T1, T2, T3. subst d eot ecf. split; [reflexivity|]. split; [apply p_gap_b; assumption|]. split; [lra|]. split; [assumption|]. exists (p_ra s). exact PSA.
  - destruct (py_soltrack_is E (t / 1000000000) Hs) as (V1 & V2 & V3). rewrite V1 in T1. rewrite V2 in T2. rewrite V3 in T3. apply FI in T1, T2, T3. subst d eot ecf. split; [reflexivity|]. split; [apply t_gap_b; assumption|]. split; [lra|]. split; [assumption|]. eexists. apply SOL, floor_mod_mod_spec.
  - destruct (ne_soltrack_is E (t / 1000000000) Hs) as (V1 & V2 & V3). rewrite V1 in T1. rewrite V2 in T2. rewrite V3 in T3. apply FI in T1, T2, T3. subst d eot ecf. split; [reflexivity|]. split; [apply t_gap_b; assumption|]. split; [lra|]. split; [assumption|]. eexists. apply SOL, nem_mod_spec.
  - destruct (ne_nrel_is E (t / 1000000000) Hs) as (V1 & V2 & V3). rewrite V1 in T1. rewrite V2 in T2. rewrite V3 in T3. apply FI in T1, T2, T3. subst d eot ecf. split; [reflexivity|]. split; [apply n_gap_b; assumption|]. split; [lra|].
    assert (Bb := n_beta_b s Hs). split; [lra|].
    set (md := nem E) in *. assert (Hmd : mod_spec md) by apply nem_mod_spec. fold s.
    destruct (n_eot_thm md Hmd s Hs) as (_ & k & Ek).
    destruct (Hmd (n_ra0 md s * (180 / PI)) #360) as (k3 & E3 & _); [q2r|]. fold (n_alpha md s) in E3.
    destruct (Hmd ((180 / PI) * nj_Lrad (n_jme s) / #1e8) #360) as (k4 & E4 & _); [q2r|]. fold (n_L md s) in E4.
    destruct (Hmd (n_L md s + #180.0) #360) as (k5 & E5 & _); [q2r|]. fold (n_theta md s) in E5.
    assert (BR := n_R_b s Hs).
    assert (EL : n_lam md s = m_lam s + 2 * PI * IZR (- k4 - k5)).
    { unfold n_lam, m_lam, n_dtau. rewrite E5, E4, minus_IZR, opp_IZR. q2. field. lra. }
    exists (n_alpha md s * (PI / 180)). split.
    + apply (equatorial_turn _ _ _ _ _ (- k4 - k5)). rewrite <- EL. unfold n_delta, n_sind. replace (cos (n_beta s) * sin (n_eps s) * sin (n_lam md s)) with (cos (n_beta s) * sin (n_lam md s) * sin (n_eps s)) by ring.
      apply (equatorial_polar _ _ _ _ (- k3)).
      * apply Rabs_le_inv in Bb. apply cos_gt_0; assert (1.5 < PI / 2) by interval; lra.
      * rewrite E3, opp_IZR. unfold n_ra0. replace (#360) with 360 by q2r. field. lra.
    + exists k. rewrite Ek. unfold n_gap. field. lra.
Qed.
Lemma gap_lip alg s s' : in_ns_range s -> in_ns_range s' -> alg = "psa"%string \/ alg = "soltrack"%string \/ alg = "nrel"%string ->
  Rabs (el_gap alg s - el_gap alg s') <= 0.0000000083 * Rabs (s - s').
Proof.
  intros Hs Hs' [->|[->| ->]]; unfold el_gap; cbn [String.eqb Ascii.eqb Bool.eqb]; pose proof (Rabs_pos (s - s')).
  - assert (H0 := p_gap_lip s s'). lra.
  - assert (H0 := t_gap_lip s s' Hs Hs'). lra.
  - assert (H0 := n_gap_lip s s' Hs Hs'). assert (H1 := n_jce_lip s s'). lra.
Qed.
(** The equation of time is the gap plus the reduction to the equator, not only modulo a day. *)
Lemma eot_red l b e a d g m : 0.408 <= e <= 0.4102 -> Rabs b <= 0.000006 -> Rabs g <= 0.036 -> Rabs m <= 20 ->
  equatorial l b e a d -> eot_of_ra (l + g) a m -> m * (PI / 720) = g + atan (red l (cos e) (tan b * sin e)) - deg 0.0057183.
Proof.
  intros He Hb Hg Hm Q (k & Em). destruct (ra_red l b e a d He Hb Q) as (j & Ea). set (w := atan _) in *. pose proof PI_RGT_0 as PP.
  assert (Hw : Rabs w <= 0.0454).
  { unfold w. replace (atan _) with (atan (red l (cos e) (tan b * sin e)) - atan 0) by (rewrite atan_0; ring). eapply Rle_trans; [apply atan_lip|]. rewrite Rminus_0_r. apply red_b; [split; interval|]. apply Rabs_le_inv in Hb. unfold tan. clear - He Hb. interval. }
  assert (E1 : m * (PI / 720) = g + w - deg 0.0057183 + 2 * PI * IZR (k - j)) by (rewrite Em, Ea, minus_IZR; unfold deg; field; lra).
  assert (Z : (k - j = 0)%Z).
  { assert (A : -0.0873 <= m * (PI / 720) <= 0.0873) by (apply Rabs_le_inv in Hm; split; interval). assert (0 <= deg 0.0057183 <= 0.0001) by (unfold deg; split; interval).
    rewrite E1 in A. apply Rabs_le_inv in Hg, Hw. assert (3.14 < PI) by interval.
    assert (-1 < IZR (k - j) < 1) by (split; nra). destruct H1 as [H1 H2]. apply lt_IZR in H1, H2. lia. }
  rewrite Z, Rmult_0_r, Rplus_0_r in E1. exact E1.
Qed.
Lemma rates3 E E' uc uc' times times' lat lat' lon lon' alg refr refr' eng eng' sp sp' k k' t t' :
  alg <> "iqbal"%string ->
  evaluated_time E uc times lat lon alg refr eng sp k t ->
  evaluated_time E' uc' times' lat' lon' alg refr' eng' sp' k' t' ->
  exists d m x d' m' x', let D := IZR (Z.abs (t / 1000000000 - t' / 1000000000)) in
    value (sp_declination sp) [k] d /\ value (sp_eot sp) [k] m /\ value (sp_ecf sp) [k] x /\
    value (sp_declination sp') [k'] d' /\ value (sp_eot sp') [k'] m' /\ value (sp_ecf sp') [k'] x' /\
    Rabs (d - d') <= 0.0000000915 * D /\ Rabs (m - m') <= 0.0000064 * D /\ Rabs (x - x') <= 0.0000000083 * D.
Proof.
  intros Ha H H'.
  assert (A3 : alg = "psa"%string \/ alg = "soltrack"%string \/ alg = "nrel"%string).
  { destruct (call_supported _ _ _ _ _ _ _ _ _ (proj1 H)) as (m & Hin). cbn [supported In] in Hin. destruct Hin as [H0|[H0|[H0|[H0|[H0|[H0|[H0|[]]]]]]]]; injection H0 as <- _ _; tauto. }
  assert (C : forall E uc times lat lon refr eng sp k t, evaluated_time E uc times lat lon alg refr eng sp k t ->
    exists d m x a, let s := IZR (t / 1000000000) in value (sp_declination sp) [k] d /\ value (sp_eot sp) [k] m /\ value (sp_ecf sp) [k] x /\ Rabs m <= 20 /\ in_ns_range s /\
      x = el_ecf alg s /\ Rabs (el_gap alg s) <= 0.036 /\ 0.408 <= el_e alg s <= 0.4102 /\ Rabs (el_b alg s) <= 0.000006 /\ equatorial (el_l alg s) (el_b alg s) (el_e alg s) a d /\ eot_of_ra (el_l alg s + el_gap alg s) a m).
  { clear - Ha. intros E uc times lat lon refr eng sp k t H0. assert (H := H0). destruct H0 as (Hc & Hk & Ht). destruct (call_supported _ _ _ _ _ _ _ _ _ Hc) as (m & Hin).
    destruct (dispatch_lemma (O := ExtOps E) true uc times lat lon alg refr eng sp m k t NaN NaN Hc Hin Hk) as (H1 & H2 & H3 & _).
    destruct (time_elements E alg eng m t Hin Ht Ha) as (d & eot & ecf & V & _). assert (T := V). destruct V as (V1 & V2 & V3).
    destruct (C26_eot_bound E uc times lat lon alg refr eng sp k t H) as (y & Hy & By). unfold value in *. rewrite H2, V2 in Hy. injection Hy as <-.
    destruct (call_ra E alg eng m t d eot ecf Hin Ha Ht T) as (Q1 & Q2 & Q3 & Q4 & a & Q5 & Q6).
    exists d, eot, ecf, a. cbv zeta. rewrite H1, H2, H3, V1, V2, V3. do 3 (split; [reflexivity|]). split; [exact By|]. split; [exact (sec_range t Ht)|]. auto 10. }
  destruct (C _ _ _ _ _ _ _ _ _ _ H) as (d & m & x & a & V1 & V2 & V3 & Bm & Hs & Ex & Bg & Be & Bb & Q & M). destruct (C _ _ _ _ _ _ _ _ _ _ H') as (d' & m' & x' & a' & V1' & V2' & V3' & Bm' & Hs' & Ex' & Bg' & Be' & Bb' & Q' & M'). clear C.
  exists d, m, x, d', m', x'. cbv zeta in *. do 6 (split; [assumption|]). rewrite abs_IZR, minus_IZR. set (s := IZR (t / 1000000000)) in *. set (s' := IZR (t' / 1000000000)) in *.
  destruct (el_lip alg s s' Hs Hs' A3) as (L1 & L2 & L3 & _ & L5 & _). cbv zeta in *. assert (L6 := gap_lip alg s s' Hs Hs' A3). set (D := Rabs (s - s')) in *. assert (PD : 0 <= D) by apply Rabs_pos.
  split; [|split].
  - assert (Z := dec_lip _ _ _ _ _ _ _ _ _ _ Be Be' Bb Bb' Q Q'). lra.
  - assert (Z := eot_red _ _ _ _ _ _ _ Be Bb Bg Bm Q M). assert (Z' := eot_red _ _ _ _ _ _ _ Be' Bb' Bg' Bm' Q' M').
    assert (CB : forall e, 0.408 <= e <= 0.4102 -> 0.917 <= cos e <= 0.918 /\ Rabs (sin e) <= 0.3988) by (intros q Hq; split; [split; interval|interval]). destruct (CB _ Be) as [C1 S1]. destruct (CB _ Be') as [C1' S1'].
    assert (TB : forall b e, Rabs b <= 0.000006 -> 0.408 <= e <= 0.4102 -> Rabs (tan b) <= 0.00001 /\ Rabs (tan b * sin e) <= 0.000003) by (intros q r Hq Hr; apply Rabs_le_inv in Hq; unfold tan; clear - Hq Hr; split; interval). destruct (TB _ _ Bb Be) as [T1 T2]. destruct (TB _ _ Bb' Be') as [T1' T2'].
    assert (R := red_lip (el_l alg s) _ _ (el_l alg s') _ _ C1 C1' T2 T2'). assert (K1 := cos_lip (el_e alg s) (el_e alg s')).
    assert (K2 := tan_lip_small (el_b alg s) (el_b alg s') ltac:(lra) ltac:(lra)). assert (K3 := sin_lip (el_e alg s) (el_e alg s')).
    assert (K4 := mul_diff _ _ _ _ _ _ _ _ T1 S1' K2 K3).
    set (w := atan _) in *. set (w' := atan (red (el_l alg s') _ _)) in *. assert (W : Rabs (w - w') <= 0.0000000195 * D) by lra. clear R K1 K2 K3 K4.
    assert (F : Rabs ((m - m') * (PI / 720)) <= 0.0000000278 * D).
    { replace ((m - m') * (PI / 720)) with ((el_gap alg s - el_gap alg s') + (w - w')) by (rewrite Rmult_minus_distr_r, Z, Z'; ring). eapply Rle_trans; [apply Rabs_triang|]. lra. }
    assert (HP : 0.00436 <= PI / 720) by interval. rewrite Rabs_mult, (Rabs_pos_eq (PI / 720)) in F by lra. pose proof (Rabs_pos (m - m')). nra.
  - rewrite Ex, Ex'. exact L5.
Qed.

(** ** iqbal *)
Lemma iqbal_angle c y s y' s' : calendar c ->
  Rabs (2 * PI * year_day c y s / 365 - 2 * PI * year_day c y' s' / 365 - 2 * PI * IZR (y' - y)) <=
  0.00000019925 * (IZR (Z.abs (s - s')) + 86400 * IZR (Z.abs (c y 1%Z 1%Z - c y' 1%Z 1%Z - 365 * (y - y')))).
Proof.
  intros Hc. unfold year_day.
  match goal with |- Rabs ?e <= _ => replace e with (2 * PI / 365 / 86400 * (IZR (s - s') - 86400 * IZR (c y 1%Z 1%Z - c y' 1%Z 1%Z - 365 * (y - y')))) end.
  2:{ rewrite !minus_IZR, !mult_IZR, !minus_IZR. field. }
  rewrite !abs_IZR. set (u := IZR (s - s')). set (v := IZR (_ - 365 * _)%Z). rewrite Rabs_mult.
  assert (T : Rabs (u - 86400 * v) <= Rabs u + 86400 * Rabs v).
  { eapply Rle_trans; [apply Rabs_triang|]. rewrite Rabs_Ropp, Rabs_mult, (Rabs_pos_eq 86400) by lra. lra. }
  apply Rmult_le_compat; [apply Rabs_pos|apply Rabs_pos| |exact T]. interval.
Qed.
Lemma iqbal_rates E E' uc uc' times times' lat lat' lon lon' refr refr' eng eng' sp sp' k k' t t' c y y' : calendar c -> in_year c y t -> in_year c y' t' ->
  evaluated_time E uc times lat lon "iqbal" refr eng sp k t ->
  evaluated_time E' uc' times' lat' lon' "iqbal" refr' eng' sp' k' t' ->
  exists d m x d' m' x', let D := seconds_apart "iqbal" c t y t' y' in
    value (sp_declination sp) [k] d /\ value (sp_eot sp) [k] m /\ value (sp_ecf sp) [k] x /\
    value (sp_declination sp') [k'] d' /\ value (sp_eot sp') [k'] m' /\ value (sp_ecf sp') [k'] x' /\
    Rabs (d - d') <= 0.0000000802 * D /\ Rabs (m - m') <= 0.0000058 * D /\ Rabs (x - x') <= 0.0000000069 * D.
Proof.
  intros Hc Hy Hy' H H'. destruct (C30_iqbal_series _ _ _ _ _ _ _ _ _ _ _ Hc H) as (y0 & Y & V1 & V2 & V3). destruct (C30_iqbal_series _ _ _ _ _ _ _ _ _ _ _ Hc H') as (y0' & Y' & V1' & V2' & V3'). cbv zeta in *.
  rewrite (year_unique c y0 y _ Hc Y Hy) in *. rewrite (year_unique c y0' y' _ Hc Y' Hy') in *.
  assert (A := iqbal_angle c y (t / 1000000000) y' (t' / 1000000000) Hc). fold (seconds_apart "iqbal" c t y t' y') in A.
  do 6 eexists. cbv zeta. do 6 (split; [eassumption|]). set (a := 2 * PI * _ / 365) in *. set (a' := 2 * PI * year_day c y' _ / 365) in *.
  change (IZR (Z.abs (t / 1000000000 - t' / 1000000000)) + 86400 * IZR (Z.abs (c y 1%Z 1%Z - c y' 1%Z 1%Z - 365 * (y - y')))) with (seconds_apart "iqbal" c t y t' y') in A.
  assert (L1 := iqbal_dec_lip a a' (y' - y)). assert (L2 := iqbal_eot_lip a a' (y' - y)). assert (L3 := iqbal_ecf_lip a a' (y' - y)).
  set (D := seconds_apart _ _ _ _ _ _) in *. assert (0 <= D). { unfold D, seconds_apart. cbn [String.eqb Ascii.eqb Bool.eqb]. rewrite !abs_IZR. pose proof (Rabs_pos (IZR (t / 1000000000 - t' / 1000000000))). pose proof (Rabs_pos (IZR (c y 1%Z 1%Z - c y' 1%Z 1%Z - 365 * (y - y')))). lra. }
  repeat split; lra.
Qed.
Lemma iqbal_motion E E' uc uc' times times' lat lat' lon lon' refr refr' eng eng' sp sp' k k' j j' i i' t t' la la' lo lo' n c y y' : calendar c -> in_year c y t -> in_year c y' t' ->
  ideal E -> ideal E' -> is_True refr = false -> is_True refr' = false ->
  evaluated_cell E uc times lat lon "iqbal" refr eng sp k j i t la lo ->
  evaluated_cell E' uc' times' lat' lon' "iqbal" refr' eng' sp' k' j' i' t' la' lo' ->
  exists z a z' a', value (sp_zenith sp) (idx uc k j i) z /\ value (sp_azimuth sp) (idx uc k j i) a /\
    value (sp_zenith sp') (idx uc' k' j' i') z' /\ value (sp_azimuth sp') (idx uc' k' j' i') a' /\ 0 <= z <= PI /\ 0 <= z' <= PI /\
    dist (sky z a) (sky z' a') <= travel (seconds_apart "iqbal" c t y t' y') la la' lo lo' n.
Proof.
  intros Hc Hy Hy' I I' R R' H H'.
  destruct (iqbal_rates _ _ _ _ _ _ _ _ _ _ _ _ _ _ _ _ _ _ _ _ _ _ _ Hc Hy Hy' (proj1 H) (proj1 H')) as (d & m & x & d' & m' & x' & V1 & V2 & V3 & V1' & V2' & V3' & D1 & D2 & _).
  destruct (C31_local_apparent_time _ _ _ _ _ _ _ _ _ _ _ _ _ _ I R H) as (d0 & m0 & z & a & h & W1 & W2 & W3 & W4 & _ & (q & Hq & _) & Z & A).
  destruct (C31_local_apparent_time _ _ _ _ _ _ _ _ _ _ _ _ _ _ I' R' H') as (d0' & m0' & z' & a' & h' & W1' & W2' & W3' & W4' & _ & (q' & Hq' & _) & Z' & A').
  unfold value in *. rewrite V1 in W1. rewrite V2 in W2. rewrite V1' in W1'. rewrite V2' in W2'. injection W1 as <-. injection W2 as <-. injection W1' as <-. injection W2' as <-.
  exists z, a, z', a'. do 4 (split; [assumption|]). split; [exact (proj1 Z)|]. split; [exact (proj1 Z')|].
  assert (SK : forall phi d h z a, is_zenith z phi d h -> is_azimuth a phi d h -> sky z a = hor phi d h).
  { intros phi d1 h1 z1 a1 [Bz Cz] Q. destruct (is_azimuth_sky _ _ _ _ Q) as (zt & Bt & -> & Ct). f_equal. rewrite <- (acos_cos zt), <- (acos_cos z1) by lra. now rewrite Ct, Cz. }
  rewrite (SK _ _ _ _ _ Z A), (SK _ _ _ _ _ Z' A').
  set (D := seconds_apart "iqbal" c t y t' y') in *.
  assert (D0 : Rabs (IZR (t / 1000000000 - t' / 1000000000)) <= D). { unfold D, seconds_apart. cbn [String.eqb Ascii.eqb Bool.eqb]. rewrite !abs_IZR. pose proof (Rabs_pos (IZR (c y 1%Z 1%Z - c y' 1%Z 1%Z - 365 * (y - y')))). lra. }
  assert (PD : 0 <= D) by (eapply Rle_trans; [apply Rabs_pos|exact D0]).
  assert (Hpi : 0 < PI / 180) by (pose proof PI_RGT_0; lra).
  set (s := (t / 1000000000)%Z) in *. set (s' := (t' / 1000000000)%Z) in *.
  assert (T : near_turn (15 * (h - 12) * (PI / 180)) (15 * (h' - 12) * (PI / 180)) (0.0000727221 * D + 0.0000058 * D * 0.00437 + Rabs (lo - lo' - 360 * IZR n) * (PI / 180))).
  { exists (q - q' - (s / 86400 - s' / 86400) + n)%Z.
    assert (M : forall s, IZR (s mod 86400) = IZR s - 86400 * IZR (s / 86400)) by (intros w; rewrite <- mult_IZR, <- minus_IZR; f_equal; pose proof (Z.div_mod w 86400 ltac:(lia)); lia).
    match goal with |- Rabs ?e <= _ => replace e with (IZR (s - s') * (PI / 43200) + (m - m') * (PI / 720) + (lo - lo' - 360 * IZR n) * (PI / 180)) end.
    2:{ rewrite Hq, Hq'. unfold utc_hours. fold s s'. rewrite !M, !plus_IZR, !minus_IZR. field. }
    assert (B1 : Rabs (IZR (s - s') * (PI / 43200)) <= D * 0.0000727221) by (apply Rabs_prod_le; [exact D0|apply Rabs_le; split; interval]).
    assert (B2 : Rabs ((m - m') * (PI / 720)) <= 0.0000058 * D * 0.00437) by (apply Rabs_prod_le; [exact D2|apply Rabs_le; split; interval]).
    assert (B3 : Rabs ((lo - lo' - 360 * IZR n) * (PI / 180)) = Rabs (lo - lo' - 360 * IZR n) * (PI / 180)) by (rewrite Rabs_mult, (Rabs_pos_eq (PI / 180)) by lra; reflexivity).
    eapply Rle_trans; [apply Rabs_triang|]. rewrite B3. apply Rplus_le_compat_r. eapply Rle_trans; [apply Rabs_triang|]. lra. }
  eapply Rle_trans; [apply (hor_lip _ d _ _ d' _ _ T)|].
  rewrite <- Rmult_minus_distr_r, Rabs_mult, (Rabs_pos_eq (PI / 180)) by lra. unfold travel.
  set (X := Rabs (la - la')). set (Y := Rabs (lo - lo' - 360 * IZR n)). assert (X0 : 0 <= X * (PI / 180)) by (apply Rmult_le_pos; [apply Rabs_pos|lra]). assert (Y0 : 0 <= Y * (PI / 180)) by (apply Rmult_le_pos; [apply Rabs_pos|lra]).
  replace (1.0002 * (PI / 180) * (X + Y)) with (1.0002 * (X * (PI / 180)) + 1.0002 * (Y * (PI / 180))) by ring. lra.
Qed.

(** ** C78: nearby requests give nearby directions *)
Theorem C78_motion : forall day_number E E' uc uc' times times' lat lat' lon lon' alg refr refr' eng eng' sp sp' k k' j j' i i' t t' y y' la la' lo lo' n,
  calendar day_number -> in_year day_number y t -> in_year day_number y' t' ->
  ideal E -> ideal E' -> is_True refr = false -> is_True refr' = false ->
  evaluated_cell E uc times lat lon alg refr eng sp k j i t la lo ->
  evaluated_cell E' uc' times' lat' lon' alg refr' eng' sp' k' j' i' t' la' lo' ->
  exists z a z' a', let c := travel (seconds_apart alg day_number t y t' y') la la' lo lo' n + round_tol alg eng + round_tol alg eng' in
    value (sp_zenith sp) (idx uc k j i) z /\ value (sp_azimuth sp) (idx uc k j i) a /\
    value (sp_zenith sp') (idx uc' k' j' i') z' /\ value (sp_azimuth sp') (idx uc' k' j' i') a' /\
    1 - c * c / 2 <= cos z * cos z' + sin z * sin z' * cos (a - a') /\
    (c <= 0.1 -> separation_le z a z' a' (1.002 * c) /\ Rabs (z - z') <= 1.002 * c).
Proof.
  intros day_number E E' uc uc' times times' lat lat' lon lon' alg refr refr' eng eng' sp sp' k k' j j' i i' t t' y y' la la' lo lo' n Hc Hy Hy' I I' R R' H H'.
  assert (C : exists z a z' a', value (sp_zenith sp) (idx uc k j i) z /\ value (sp_azimuth sp) (idx uc k j i) a /\
    value (sp_zenith sp') (idx uc' k' j' i') z' /\ value (sp_azimuth sp') (idx uc' k' j' i') a' /\ 0 <= z <= PI /\ 0 <= z' <= PI /\
    dist (sky z a) (sky z' a') <= travel (seconds_apart alg day_number t y t' y') la la' lo lo' n + round_tol alg eng + round_tol alg eng').
  { unfold seconds_apart. destruct (String.eqb_spec alg "iqbal") as [->|Ha].
    - destruct (iqbal_motion _ _ _ _ _ _ _ _ _ _ _ _ _ _ _ _ _ _ _ _ _ _ _ _ _ _ _ _ n _ _ _ Hc Hy Hy' I I' R R' H H') as (z & a & z' & a' & Q). exists z, a, z', a'.
      unfold round_tol. cbn [String.eqb Ascii.eqb Bool.eqb andb]. rewrite !Rplus_0_r. exact Q.
    - rewrite Rplus_0_r. exact (motion3 _ _ _ _ _ _ _ _ _ _ _ _ _ _ _ _ _ _ _ _ _ _ _ _ _ _ _ _ _ n I I' R R' Ha H H'). }
  destruct C as (z & a & z' & a' & V1 & V2 & V1' & V2' & Bz & Bz' & Hd). exists z, a, z', a'. cbv zeta. set (c := _ + round_tol alg eng') in *.
  assert (Pc : 0 <= c) by (eapply Rle_trans; [apply dist_pos|exact Hd]).
  do 4 (split; [assumption|]). split; [apply chord; assumption|]. intros Hb.
  assert (HS : separation_le z a z' a' (1.002 * c)) by (apply dist_angle; [lra|exact Hd]). split; [exact HS|].
  apply (separation_zenith _ a _ a'); try assumption. assert (3 < PI) by interval. lra.
Qed.

(** ** C79: the declination changes by at most 0.46 degrees a day, the equation of time by 34 seconds a day, the eccentricity correction by 0.072 percent a day;
    whatever the arithmetic of the other coordinates *)
Theorem C79_rates : forall day_number E E' uc uc' times times' lat lat' lon lon' alg refr refr' eng eng' sp sp' k k' t t' y y',
  calendar day_number -> in_year day_number y t -> in_year day_number y' t' ->
  evaluated_time E uc times lat lon alg refr eng sp k t ->
  evaluated_time E' uc' times' lat' lon' alg refr' eng' sp' k' t' ->
  exists d m x d' m' x', let D := seconds_apart alg day_number t y t' y' in
    value (sp_declination sp) [k] d /\ value (sp_eot sp) [k] m /\ value (sp_ecf sp) [k] x /\
    value (sp_declination sp') [k'] d' /\ value (sp_eot sp') [k'] m' /\ value (sp_ecf sp') [k'] x' /\
    Rabs (d - d') <= 0.0000000915 * D /\ Rabs (m - m') <= 0.0000064 * D /\ Rabs (x - x') <= 0.0000000083 * D.
Proof.
  intros day_number E E' uc uc' times times' lat lat' lon lon' alg refr refr' eng eng' sp sp' k k' t t' y y' Hc Hy Hy' H H'.
  destruct (string_dec alg "iqbal") as [->|Ha].
  - destruct (iqbal_rates _ _ _ _ _ _ _ _ _ _ _ _ _ _ _ _ _ _ _ _ _ _ _ Hc Hy Hy' H H') as (d & m & x & d' & m' & x' & V1 & V2 & V3 & V1' & V2' & V3' & D1 & D2 & D3).
    exists d, m, x, d', m', x'. cbv zeta. do 6 (split; [assumption|]). pose proof (Rabs_pos (d - d')). repeat split; lra.
  - unfold seconds_apart. destruct (String.eqb_spec alg "iqbal") as [E0|_]; [contradiction|]. rewrite Rplus_0_r. exact (rates3 _ _ _ _ _ _ _ _ _ _ _ _ _ _ _ _ _ _ _ _ _ Ha H H').
Qed.

(** The extra day is needed for iqbal: over the last second of 2024 its equation of time jumps by more than 0.4 minutes and its declination by
    more than a milliradian. *)
Definition last_second : Z := 1735689599000000000.
Definition new_year : Z := 1735689600000000000.
Lemma years_2024 : in_year gregorian 2024 last_second /\ in_year gregorian 2025 new_year.
Proof. unfold in_year, last_second, new_year. split; vm_compute; split; congruence. Qed.
Theorem C79_leap_jump : forall E E' uc uc' times times' lat lat' lon lon' refr refr' eng eng' sp sp' k k',
  evaluated_time E uc times lat lon "iqbal" refr eng sp k last_second ->
  evaluated_time E' uc' times' lat' lon' "iqbal" refr' eng' sp' k' new_year ->
  exists d m d' m', value (sp_declination sp) [k] d /\ value (sp_eot sp) [k] m /\ value (sp_declination sp') [k'] d' /\ value (sp_eot sp') [k'] m' /\
    0.4 <= Rabs (m - m') /\ 0.001 <= Rabs (d - d').
Proof.
  intros E E' uc uc' times times' lat lat' lon lon' refr refr' eng eng' sp sp' k k' H H'. destruct years_2024 as [Hy Hy'].
  destruct (C30_iqbal_series _ _ _ _ _ _ _ _ _ _ _ gregorian_calendar H) as (y0 & Y & V1 & V2 & V3). destruct (C30_iqbal_series _ _ _ _ _ _ _ _ _ _ _ gregorian_calendar H') as (y0' & Y' & V1' & V2' & V3'). cbv zeta in *.
  rewrite (year_unique _ y0 2024 _ gregorian_calendar Y Hy) in *. rewrite (year_unique _ y0' 2025 _ gregorian_calendar Y' Hy') in *.
  do 4 eexists. do 4 (split; [eassumption|]).
  replace (year_day gregorian 2024 (last_second / 1000000000)) with (31622399 / 86400 + 1) by (unfold year_day; do 2 f_equal; apply (f_equal IZR); vm_compute; reflexivity).
  replace (year_day gregorian 2025 (new_year / 1000000000)) with 1 by (unfold year_day; replace (new_year / 1000000000 - 86400 * gregorian 2025 1 1)%Z with 0%Z by (vm_compute; reflexivity); lra).
  split.
  - rewrite Rabs_left1; unfold iqbal_eot; interval.
  - rewrite Rabs_pos_eq; unfold iqbal_dec; interval.
Qed.
(** The hypotheses of all three, met for the four algorithms: the last second of 2024 and the new year, 40 N 3 W and 41 N 179 E (the longitudes are 178
    degrees apart the other way round, n = -1). *)
Example C78_example : forall uc uc' alg eng m refr refr', In (alg, eng, m) (supported (O := ExtOps ideal_env)) ->
  exists sp sp', calendar gregorian /\ in_year gregorian 2024 last_second /\ in_year gregorian 2025 new_year /\ ideal ideal_env /\
    evaluated_cell ideal_env uc (at_times [Some last_second]) (Scalar (Fin 40)) (Scalar (Fin (-3))) alg refr eng sp 0 0 0 last_second 40 (-3) /\
    evaluated_cell ideal_env uc' (at_times [Some new_year]) (Scalar (Fin 41)) (Scalar (Fin 179)) alg refr' eng sp' 0 0 0 new_year 41 179.
Proof.
  intros uc uc' alg eng m refr refr' H.
  destruct (one_cell ideal_env uc last_second 40 (-3) alg refr eng m H ltac:(unfold representable, last_second; lia) ltac:(lra) ltac:(lra)) as (sp & Hsp).
  destruct (one_cell ideal_env uc' new_year 41 179 alg refr' eng m H ltac:(unfold representable, new_year; lia) ltac:(lra) ltac:(lra)) as (sp' & Hsp').
  exists sp, sp'. split; [exact gregorian_calendar|]. split; [exact (proj1 years_2024)|]. split; [exact (proj2 years_2024)|]. split; [exact ideal_ideal|]. now split.
Qed.
(** Sizes: in ten minutes at one place the sun moves at most 2.53 degrees; two places a hundredth of a degree apart in latitude and longitude see it
    less than 0.0201 degrees apart at the same time; iqbal repeats a day, 0.42 degrees, at the end of 2024. *)
Example C78_sizes : forall la lo, travel 600 la la lo lo 0 <= 0.1 /\ 1.002 * travel 600 la la lo lo 0 * (180 / PI) <= 2.53 /\ 1.002 * travel 0 la (la + 0.01) lo (lo + 0.01) 0 * (180 / PI) <= 0.0201 /\
  seconds_apart "iqbal" gregorian last_second 2024 new_year 2025 = 86401 /\ seconds_apart "nrel" gregorian last_second 2024 new_year 2025 = 1 /\
  seconds_apart "iqbal" gregorian last_second 2024 (last_second - 1000000000) 2024 = 1.
Proof.
  intros la lo. unfold travel. rewrite !Rminus_eq_0. replace (la - (la + 0.01)) with (- 0.01) by lra. replace (lo - (lo + 0.01) - 360 * 0) with (- 0.01) by lra. replace (0 - 360 * 0) with 0 by lra.
  rewrite Rabs_R0, (Rabs_left1 (- 0.01)) by lra. split; [interval|]. split; [interval|]. split; [interval|].
  unfold seconds_apart. cbn [String.eqb Ascii.eqb Bool.eqb].
  replace (Z.abs (last_second / 1000000000 - new_year / 1000000000)) with 1%Z by (vm_compute; reflexivity).
  replace (Z.abs (last_second / 1000000000 - (last_second - 1000000000) / 1000000000)) with 1%Z by (vm_compute; reflexivity).
  replace (Z.abs (gregorian 2024 1 1 - gregorian 2025 1 1 - 365 * (2024 - 2025))) with 1%Z by (vm_compute; reflexivity).
  replace (Z.abs (gregorian 2024 1 1 - gregorian 2024 1 1 - 365 * (2024 - 2024))) with 0%Z by (vm_compute; reflexivity). lra.
Qed.
