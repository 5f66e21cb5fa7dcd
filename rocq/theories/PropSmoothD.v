(** * PropSmoothD: the returned direction moves at the speed of the sky, in double precision (C78) *)
From Coq Require Import ZArith QArith Reals Bool List String Lra Lia.
From Flocq Require Import Core.Raux.
From Interval Require Import Tactic.
From Verif Require Import Num Arrays Libspa Time Core Usecases Spec GenericLemmas GenericLemmas2 TimeLemmas Ext ExtLemmas Witness
  AstroTac Sky SkyClose AstroSpec Astro AstroCell AstroCall AstroRefute Float32 PropAstro
  CalendarSpec CalendarLemmas PropCalendar Almanac AlmanacPos SingleSpec SingleLemmas PropSingle PropSinglePos SmoothR SmoothI PropSmooth
  Double DoubleSpec PsaD PropDouble PropDoublePos TopoSpec PropNrelD Float64.
Import ListNotations.
Open Scope R_scope.

(** ** Specification *)
(** Rounding of a returned direction at zenith angle [z], in radians ([point_tol64], PropDoublePos): some 0.00002 well away from the zenith and the
    nadir (up to 0.004 with soltrack's numpy engine at high latitudes), and a few milliradians (up to 0.042) there, where a small error of the cosine of the zenith angle is a large
    error of the angle; nrel about 0.0000001, respectively 0.0002. *)
Definition motion_tol (alg eng : string) (la z : R) : R :=
  if String.eqb alg "nrel" then 1.003 * nrel_place_tol z
  else 1.03 * point_tol64 (double_tol alg eng la) z + 5 / 1000000000.

(** ** Proof *)
Lemma dist_of_separation z a z' a' s : 0 <= s -> separation_le z a z' a' s -> dist (sky z a) (sky z' a') <= s.
Proof.
  unfold separation_le. intros Hs H. rewrite <- dot_sky in H. assert (E := dist_unit _ _ (sky_unit z a) (sky_unit z' a')). assert (P := dist_pos (sky z a) (sky z' a')).
  assert (C : 1 - s * s / 2 <= cos s).
  { assert (S : Rabs (sin (s / 2)) <= s / 2) by (assert (W := sin_lip (s / 2) 0); rewrite sin_0, !Rminus_0_r, (Rabs_pos_eq (s / 2)) in W; lra).
    replace (cos s) with (1 - 2 * sin (s / 2) * sin (s / 2)) by (rewrite <- cos_2a_sin; f_equal; field). apply Rabs_le_inv in S. nra. }
  nra.
Qed.
Lemma point_shift tol z y : 0.000003 <= tol <= 0.0007 -> Rabs (z - y) <= 0.000045 -> point_tol64 tol y <= 1.02 * point_tol64 tol z.
Proof.
  intros Ht Hz. assert (S := Rle_trans _ _ _ (sin_lip z y) Hz). apply Rabs_le_inv in S.
  assert (Q := sqrt_sqrt (2 * tol) ltac:(lra)). unfold point_tol64. set (g := sqrt (2 * tol)) in *. assert (Pg : 0 < g) by (apply sqrt_lt_R0; lra).
  assert (Pg' : 0.00244 <= g) by nra.
  assert (M : Rmax (sin z) g <= 1.019 * Rmax (sin y) g).
  { assert (A := Rmax_l (sin y) g). assert (B := Rmax_r (sin y) g). apply Rmax_lub; lra. }
  set (mz := Rmax (sin z) g) in *. set (my := Rmax (sin y) g) in *. assert (Pz : g <= mz) by apply Rmax_r. assert (Py : g <= my) by apply Rmax_r.
  assert (I : / (1.019 * my) <= / mz) by (apply Rinv_le_contravar; [lra|exact M]). rewrite Rinv_mult in I.
  assert (J : 0 < / my) by (apply Rinv_0_lt_compat; lra). assert (J' : 0 < / mz) by (apply Rinv_0_lt_compat; lra). unfold Rdiv in *.
  assert (/ my <= 1.02 * / mz) by lra.
  assert (2.002 * tol * / my <= 2.002 * tol * (1.02 * / mz)) by (apply Rmult_le_compat_l; lra). lra.
Qed.

(** A double precision cell beside an exact one of the same instant and place. *)
Lemma twin_cell D uc times lat lon alg refr eng sp k j i t la lo z : double_like D -> is_True refr = false ->
  evaluated_cell64 D uc times lat lon alg refr eng sp k j i t la lo -> value (sp_zenith sp) (idx uc k j i) z ->
  exists sp0 a z0 a0, evaluated_cell ideal_env Sites (at_times [Some t]) (Scalar (Fin la)) (Scalar (Fin lo)) alg RFalse "numexpr" sp0 0 0 0 t la lo /\
    value (sp_azimuth sp) (idx uc k j i) a /\ - / 1000000000 <= z <= PI + / 1000000000 /\
    value (sp_zenith sp0) (idx Sites 0 0 0) z0 /\ value (sp_azimuth sp0) (idx Sites 0 0 0) a0 /\ dist (sky z a) (sky z0 a0) <= motion_tol alg eng la z.
Proof.
  intros HD R C Hz. destruct (call_bounds64 _ _ _ _ _ _ _ _ _ _ _ _ _ _ _ HD C) as [Ba Bo]. assert (Ht : representable t) by apply C.
  destruct (call_supported (O := DoubleOps D) _ _ _ _ _ _ _ _ _ (proj1 (proj1 C))) as (q & Hq).
  assert (Hs : exists q', In (alg, "numexpr"%string, q') (supported (O := ExtOps ideal_env))).
  { clear - Hq. unfold supported in *. cbn [In] in *. repeat (destruct Hq as [Hq|Hq]; [injection Hq as <- _ _; eexists; tauto|]). destruct Hq. }
  destruct Hs as (q' & Hq'). destruct (one_cell ideal_env Sites t la lo alg RFalse "numexpr" q' Hq' Ht Ba Bo) as (sp0 & C0).
  assert (R0 : is_True RFalse = false) by reflexivity. exists sp0. unfold motion_tol. destruct (String.eqb_spec alg "nrel") as [->|Hn].
  - destruct (C72_exact_position _ _ _ _ _ _ _ _ _ _ _ _ _ _ _ _ _ _ _ _ _ _ _ _ _ z HD R R0 C C0 Hz) as (a & z0 & a0 & V1 & V2 & V3 & S & _). cbv zeta in *.
    destruct (call_nrel64_dist _ _ _ _ _ _ _ _ _ _ _ _ _ _ _ HD R C Hz) as (? & ? & ? & ? & ? & ? & ? & _ & _ & _ & _ & _ & _ & _ & _ & _ & Bz & _).
    exists a, z0, a0. split; [exact C0|]. split; [exact V1|]. split; [exact Bz|]. split; [exact V2|]. split; [exact V3|].
    assert (P := nrel_point_b z). assert (P' : 0 <= nrel_place_tol z) by (unfold nrel_place_tol; lra).
    eapply Rle_trans; [apply dist_of_separation; [|exact S]; lra|]. lra.
  - destruct (call_double _ _ _ _ _ _ _ _ _ _ _ _ _ _ _ HD Hn C) as (d & eot & h & a & H1 & H2 & _ & Eh & H4 & H5 & H6 & H7).
    destruct (C69_position_ranges _ _ _ _ _ _ _ _ _ _ _ _ _ _ _ HD Hn C) as [_ G]. unfold value in *.
    destruct (G R) as [(z' & G1 & G2)|[G1 _]]; rewrite Hz in G1; [injection G1 as <-|discriminate G1]. clear G.
    destruct H7 as [(y & Y1 & Y2 & Y3)|(_ & _ & Y3)]; [|rewrite Hz in Y3; discriminate Y3]. destruct (Y3 R) as (z' & E & Y4). unfold value in E. rewrite Hz in E. injection E as <-. clear Y3.
    destruct (C69_double_time _ _ _ _ _ _ _ _ _ _ _ _ _ _ _ _ _ _ _ _ HD Hn (proj1 C) (proj1 C0)) as (d1 & m1 & x1 & d' & m' & x' & V1 & _ & _ & V4 & _ & _ & B1 & _).
    unfold value in *. rewrite H1 in V1. injection V1 as <-.
    destruct C0 as ((Hc0 & Hk0 & Ht0) & Hi0).
    destruct (call_value ideal_env true _ _ _ _ alg _ _ sp0 0 t Hc0 Hk0 Ht 0%nat 0%nat la lo Hi0 (or_introl (fun x => eq_refl))) as (d2 & m2 & x2 & h0 & z0 & a0 & G1 & _ & _ & G4 & G5 & _ & G7 & G8 & _ & G9).
    rewrite V4 in G1. injection G1 as <-. cbn [is_True] in G4.
    assert (U : forall q, used ideal_env alg q = q) by (intros r; unfold used; destruct (String.eqb alg "nrel"); reflexivity). rewrite U in G7, G9.
    exists a, z0, a0. split; [exact (conj (conj Hc0 (conj Hk0 Ht0)) Hi0)|]. split; [exact H4|]. split; [exact G2|]. split; [exact G4|]. split; [exact G5|].
    assert (Nh : near_turn h0 h 0).
    { rewrite Eh, G9. destruct (hour_engines alg "numexpr" eng ideal_env (single D) t lo Ht) as [N|[N|N]]; [exact N|contradiction|].
      exfalso. assert (L := alg_listed _ _ _ _ _ _ _ _ Hc0). cbn [In] in L, N. intuition congruence. }
    set (phi := la * (PI / 180)) in *. set (tol := double_tol alg eng la) in *. assert (Bt : 0.000003 <= tol <= 0.0007) by apply double_tol_b. set (c := parallax_coef alg) in *.
    assert (Kc : 0 <= c <= 0.0000437) by (unfold c, parallax_coef; destruct (String.eqb alg "psa"), (String.eqb alg "soltrack"); lra).
    unfold sky_position in G7. destruct (String.eqb_spec alg "nrel") as [->|_]; [contradiction|].
    assert (Ec : cos_tol alg "numexpr" = 0) by (unfold cos_tol; rewrite andb_comm; reflexivity). rewrite Ec in G7. fold c in G7. destruct G7 as (w & Bw & Hw & Ez & Aw).
    assert (Dw := dist_plain 0 0 0 phi d' h0 w a0 ltac:(lra) ltac:(lra) ltac:(lra) ltac:(exists w; split; [exact Bw|]; split; [exact Hw|]; split; [ring|exact Aw])).
    assert (Dy := near_dist64 tol 0 y a phi d h ltac:(lra) ltac:(lra) ltac:(exists y; split; [exact Y1|]; split; [exact Y2|]; rewrite Rmult_0_l, Rplus_0_r, Rminus_eq_0, Rabs_R0; lra) H6).
    assert (Dh := hor_lip phi d' h0 phi d h 0 Nh). rewrite Rminus_eq_0, Rabs_R0 in Dh. rewrite Rabs_minus_sym in B1.
    assert (T1 := dist_tri (sky y a) (hor phi d h) (sky w a0)). assert (T2 := dist_tri (hor phi d h) (hor phi d' h0) (sky w a0)).
    rewrite (dist_sym (hor phi d h) (hor phi d' h0)), (dist_sym (hor phi d' h0) (sky w a0)) in T2.
    assert (Dp := parallax_lip c y a w a0 ltac:(lra) Y1 Bw).
    assert (T3 := dist_tri (sky z a) (sky (y + c * sin y) a) (sky z0 a0)). rewrite Ez in *. assert (Dz := dist_zen z (y + c * sin y) a).
    assert (SB := SIN_bound y). assert (Sy : Rabs (z - y) <= 0.000045).
    { apply Rabs_le_inv in Y4. unfold tol9 in Y4. apply Rabs_le. assert (-0.0000437 <= c * sin y <= 0.0000437) by (split; nra). lra. }
    assert (Ps := point_shift tol z y Bt Sy). unfold tol9 in Y4.
    assert (Q0 : dist (sky y a) (sky w a0) <= point_tol64 tol y + / 1000000000) by lra. assert (Pq := dist_pos (sky y a) (sky w a0)).
    assert (Q1 : (1 + c) * dist (sky y a) (sky w a0) <= 1.0000437 * (point_tol64 tol y + / 1000000000)) by (apply Rmult_le_compat; lra).
    destruct (point_tol64_b tol z Bt) as [[Pz _] _]. lra.
Qed.

(** ** C78 in double precision *)
Theorem C78_motion_double : forall day_number D D' uc uc' times times' lat lat' lon lon' alg refr refr' eng eng' sp sp' k k' j j' i i' t t' y y' la la' lo lo' n z z',
  calendar day_number -> in_year day_number y t -> in_year day_number y' t' ->
  double_like D -> double_like D' -> is_True refr = false -> is_True refr' = false ->
  evaluated_cell64 D uc times lat lon alg refr eng sp k j i t la lo ->
  evaluated_cell64 D' uc' times' lat' lon' alg refr' eng' sp' k' j' i' t' la' lo' ->
  value (sp_zenith sp) (idx uc k j i) z -> value (sp_zenith sp') (idx uc' k' j' i') z' ->
  exists a a', let c := travel (seconds_apart alg day_number t y t' y') la la' lo lo' n + motion_tol alg eng la z + motion_tol alg eng' la' z' in
    value (sp_azimuth sp) (idx uc k j i) a /\ value (sp_azimuth sp') (idx uc' k' j' i') a' /\
    1 - c * c / 2 <= cos z * cos z' + sin z * sin z' * cos (a - a') /\
    (c <= 0.09 -> separation_le z a z' a' (1.002 * c) /\ Rabs (z - z') <= 1.002 * (c + 4 / 1000000000)).
Proof.
  intros day_number D D' uc uc' times times' lat lat' lon lon' alg refr refr' eng eng' sp sp' k k' j j' i i' t t' y y' la la' lo lo' n z z' Hc Hy Hy' HD HD' R R' C C' Hz Hz'.
  destruct (twin_cell _ _ _ _ _ _ _ _ _ _ _ _ _ _ _ _ HD R C Hz) as (s0 & a & z0 & a0 & C0 & V & Bz & V1 & V2 & S).
  destruct (twin_cell _ _ _ _ _ _ _ _ _ _ _ _ _ _ _ _ HD' R' C' Hz') as (s0' & a' & z0' & a0' & C0' & V' & Bz' & V1' & V2' & S').
  exists a, a'. cbv zeta. set (c := _ + motion_tol alg eng' la' z'). split; [exact V|]. split; [exact V'|].
  assert (I : ideal ideal_env) by (intros x; reflexivity). assert (R0 : is_True RFalse = false) by reflexivity.
  assert (M : dist (sky z0 a0) (sky z0' a0') <= travel (seconds_apart alg day_number t y t' y') la la' lo lo' n).
  { unfold value in V1, V2, V1', V2'. unfold seconds_apart. destruct (String.eqb_spec alg "iqbal") as [->|Ha].
    - destruct (iqbal_motion _ _ _ _ _ _ _ _ _ _ _ _ _ _ _ _ _ _ _ _ _ _ _ _ _ _ _ _ n _ _ _ Hc Hy Hy' I I R0 R0 C0 C0') as (z1 & a1 & z2 & a2 & W1 & W2 & W3 & W4 & _ & _ & W5).
      unfold value in *. rewrite V1 in W1. rewrite V2 in W2. rewrite V1' in W3. rewrite V2' in W4. injection W1 as <-. injection W2 as <-. injection W3 as <-. injection W4 as <-. exact W5.
    - rewrite Rplus_0_r. destruct (motion3 _ _ _ _ _ _ _ _ _ _ _ _ _ _ _ _ _ _ _ _ _ _ _ _ _ _ _ _ _ n I I R0 R0 Ha C0 C0') as (z1 & a1 & z2 & a2 & W1 & W2 & W3 & W4 & _ & _ & W5).
      unfold value in *. rewrite V1 in W1. rewrite V2 in W2. rewrite V1' in W3. rewrite V2' in W4. injection W1 as <-. injection W2 as <-. injection W3 as <-. injection W4 as <-.
      unfold round_tol in W5. rewrite andb_comm in W5. cbn [String.eqb Ascii.eqb Bool.eqb andb] in W5. lra. }
  assert (Hd : dist (sky z a) (sky z' a') <= c).
  { assert (T1 := dist_tri (sky z a) (sky z0 a0) (sky z' a')). assert (T2 := dist_tri (sky z0 a0) (sky z0' a0') (sky z' a')). rewrite (dist_sym (sky z0' a0')) in T2. unfold c. lra. }
  assert (Pc : 0 <= c) by (eapply Rle_trans; [apply dist_pos|exact Hd]).
  split; [apply chord; assumption|]. intros Hb. apply close_directions; try assumption. lra.
Qed.

(** IEEE double precision evaluations with a returned zenith angle exist, and far from the zenith the rounding is small. *)
Example C78_double_example : forall uc, exists sp z, double_like float64_env /\ calendar gregorian /\ in_year gregorian 2024 w_t /\
  evaluated_cell64 float64_env uc (at_times [Some w_t]) (Scalar (Fin 40)) (Scalar (Fin (-3))) "psa" RFalse "numpy" sp 0 0 0 w_t 40 (-3) /\
  value (sp_zenith sp) (idx uc 0 0 0) z.
Proof.
  intros uc. destruct (C69_zenith_example uc) as (sp & z & H & Z). exists sp, z.
  split; [exact float64_like|]. split; [exact gregorian_calendar|]. split; [|now split]. unfold in_year, w_t. split; vm_compute; congruence.
Qed.
Example C78_double_size : forall la z, 0.5 <= z <= 2.6 -> motion_tol "psa" "numexpr" la z <= 0.00003 /\ motion_tol "nrel" "numexpr" la z <= 0.0000002.
Proof.
  intros la z Hz. unfold motion_tol, nrel_place_tol, point_tol64, double_tol. cbn [String.eqb Ascii.eqb Bool.eqb andb]. replace nrel_tol with (1.1 / 100000000) by reflexivity.
  assert (S : 0.479 <= sin z) by interval.
  assert (A : forall g, 0 < g -> 0.479 <= Rmax (sin z) g) by (intros g _; eapply Rle_trans; [exact S|apply Rmax_l]).
  assert (I : forall g, 0 < g -> / Rmax (sin z) g <= / 0.479) by (intros g Hg; apply Rinv_le_contravar; [lra|apply A, Hg]).
  assert (G : forall x, 0 < x -> 0 < sqrt (2 * x)) by (intros x Hx; apply sqrt_lt_R0; lra).
  assert (I1 := I _ (G (3 / 1000000) ltac:(lra))). assert (I2 := I _ (G (1.1 / 100000000) ltac:(lra))). unfold Rdiv in *. split; lra.
Qed.
