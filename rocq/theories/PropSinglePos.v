(** * PropSinglePos: the positions of the four algorithms agree in IEEE single precision (C55 without ideal rounding) *)

From Coq Require Import ZArith QArith Reals Bool List String Lra Lia.
From Flocq Require Import Core.Raux.
From Interval Require Import Tactic.
From Verif Require Import Num Arrays Libspa Time Core Usecases Spec GenericLemmas GenericLemmas2 Ext ExtLemmas
  Sky SkyClose AstroTac AstroSpec SingleSpec SingleLemmas SingleCell Astro AstroCell AstroCall AstroRefute Float32 Float32L
  PropAstro Almanac AlmanacPos PropAlmanac PropSingle.
Import ListNotations.
Open Scope R_scope.

(** ** Specification: what a rounding error [tol] of the unit vector does to the direction of zenith angle [z].
    The arc cosine is ill-conditioned overhead, where the error grows up to sqrt(2 tol). *)
Definition point_tol (tol z : R) : R := 4 * tol + 2.001 * tol / Rmax (sin z) (sqrt (2 * tol)).
Definition single_place_tol (alg eng : string) (la z T : R) : R :=
  dec_tol alg T + eot_tol alg T * (PI / 720) + hour_tol alg + 4 / 10000000 +
  (if String.eqb alg "nrel" then 0.0001 else parallax_coef alg + point_tol (single_tol alg eng la) z).

(** ** Proof *)
Lemma near_dist tol k z a phi d h : 0 < tol <= 0.001 -> 0 <= k <= 0.0001 -> near_zenith tol k z phi d h -> near_azimuth tol a phi d h -> 
  dist (sky z a) (hor phi d h) <= k + point_tol tol z.
Proof.
  intros Ht Hk (z0 & B0 & H0 & ->) (rho & Hr & HS & HW).
  set (r := sin z0). assert (Pr : 0 <= r) by (apply sin_ge_0; lra). assert (Cr := sc1 z0). fold r in Cr.
  set (w := horizontal phi d h). assert (Pw : 0 <= w) by apply sqrt_pos.
  assert (Ew : w * w = sun_S phi d h * sun_S phi d h + sun_W phi d h * sun_W phi d h).
  { unfold w, horizontal. rewrite sqrt_sqrt by nra. ring. }
  assert (Un := sun_unit phi d h). assert (BU := sun_U_bound phi d h). assert (Bc := COS_bound z0). assert (Sa := sc1 a).
  set (q := (rho * cos a, rho * sin a, sun_U phi d h) : vec). set (p := (w * cos a, w * sin a, sun_U phi d h) : vec).
  assert (D1 : dist q (hor phi d h) <= 1.415 * tol).
  { apply norm_le; [lra|]. unfold q, hor. cbn [sub dot]. apply Rabs_le_inv in HS, HW. 
    assert (forall x, - tol <= x <= tol -> x * x <= tol * tol) as S by (intros; nra).
    assert (S1 := S _ HS). assert (S2 := S _ HW). nra. }
  assert (D2 : dist p q <= 1.415 * tol).
  { eapply Rle_trans; [|exact D1]. apply norm_le; [apply norm_pos|]. unfold dist. rewrite norm_sq. unfold p, q, hor. cbn [sub dot].
    assert (C : sun_S phi d h * cos a + sun_W phi d h * sin a <= w).
    { apply Rnot_lt_le. intros C. assert (Q : (sun_S phi d h * cos a + sun_W phi d h * sin a) * (sun_S phi d h * cos a + sun_W phi d h * sin a) <= w * w).
      { rewrite Ew. set (S := sun_S phi d h) in *. set (W := sun_W phi d h) in *. clearbody S W.
        assert (I : (S * S + W * W) * 1 - (S * cos a + W * sin a) * (S * cos a + W * sin a) = (S * sin a - W * cos a) * (S * sin a - W * cos a)) by (rewrite <- Sa; ring). assert (P := Rle_0_sqr (S * sin a - W * cos a)). unfold Rsqr in P. lra. }
      nra. }
    replace ((w * cos a - rho * cos a) * (w * cos a - rho * cos a) + (w * sin a - rho * sin a) * (w * sin a - rho * sin a) + (sun_U phi d h - sun_U phi d h) * (sun_U phi d h - sun_U phi d h))
      with ((w - rho) * (w - rho) * (sin a * sin a + cos a * cos a)) by ring. rewrite Sa.
    replace ((rho * cos a - sun_S phi d h) * (rho * cos a - sun_S phi d h) + (rho * sin a - sun_W phi d h) * (rho * sin a - sun_W phi d h) + (sun_U phi d h - sun_U phi d h) * (sun_U phi d h - sun_U phi d h))
      with (rho * rho * (sin a * sin a + cos a * cos a) - 2 * rho * (sun_S phi d h * cos a + sun_W phi d h * sin a) + (sun_S phi d h * sun_S phi d h + sun_W phi d h * sun_W phi d h)) by ring.
    rewrite Sa, <- Ew. nra. }
  assert (Dq : Rabs (r * r - w * w) <= 2 * tol).
  { replace (r * r - w * w) with ((sun_U phi d h - cos z0) * (sun_U phi d h + cos z0)) by nra.
    rewrite Rabs_mult, (Rabs_minus_sym (sun_U phi d h)). assert (Rabs (sun_U phi d h + cos z0) <= 2) by (apply Rabs_le; lra).
    pose proof (Rabs_pos (cos z0 - sun_U phi d h)). pose proof (Rabs_pos (sun_U phi d h + cos z0)). nra. }
  replace (r * r - w * w) with ((r - w) * (r + w)) in Dq by ring. rewrite Rabs_mult, (Rabs_pos_eq (r + w)) in Dq by lra.
  set (m := Rabs (r - w)) in *. assert (Pm : 0 <= m) by apply Rabs_pos.
  assert (Sq := sqrt_sqrt (2 * tol) ltac:(lra)). set (g := sqrt (2 * tol)) in *. assert (Pg : 0 < g) by (apply sqrt_lt_R0; lra).
  assert (M1 : m <= g).
  { apply Rnot_lt_le. intros C. assert (m <= r + w) by (unfold m, Rabs; destruct (Rcase_abs (r - w)); lra). nra. }
  assert (M2 : m <= 2.001 * tol / Rmax (sin (z0 + k * r)) g).
  { assert (Px : 0 < Rmax (sin (z0 + k * r)) g) by (eapply Rlt_le_trans; [exact Pg|apply Rmax_r]).
    apply (Rmult_le_reg_r (Rmax (sin (z0 + k * r)) g)); [exact Px|]. unfold Rdiv. rewrite Rmult_assoc, Rinv_l, Rmult_1_r by lra.
    assert (Z : sin (z0 + k * r) <= 1.0002 * r).
    { rewrite sin_plus. fold r. assert (H1 := COS_bound (k * r)). assert (H2 := sin_lip (k * r) 0). rewrite sin_0, !Rminus_0_r in H2. rewrite (Rabs_pos_eq (k * r)) in H2 by nra.
      apply Rabs_le_inv in H2. assert (Bc' : Rabs (cos z0) <= 1) by (apply Rabs_le; lra). assert (cos z0 * sin (k * r) <= k * r) by nra. nra. }
    unfold Rmax. destruct (Rle_dec (sin (z0 + k * r)) g); nra. }
  assert (D3 : dist (sky z0 a) p <= m + tol).
  { apply norm_le; [lra|]. unfold sky, p. cbn [sub dot]. fold r.
    replace ((r * cos a - w * cos a) * (r * cos a - w * cos a) + (r * sin a - w * sin a) * (r * sin a - w * sin a) + (cos z0 - sun_U phi d h) * (cos z0 - sun_U phi d h))
      with ((r - w) * (r - w) * (sin a * sin a + cos a * cos a) + (cos z0 - sun_U phi d h) * (cos z0 - sun_U phi d h)) by ring.
    rewrite Sa. assert (A1 := abs_sq (r - w)). fold m in A1. assert (A2 := abs_sq (cos z0 - sun_U phi d h)). pose proof (Rabs_pos (cos z0 - sun_U phi d h)). nra. }
  assert (D4 : dist (sky (z0 + k * r) a) (sky z0 a) <= k).
  { eapply Rle_trans; [apply dist_zen|]. replace (z0 + k * r - z0) with (k * r) by ring. rewrite Rabs_pos_eq by nra. assert (r <= 1) by apply SIN_bound. nra. }
  assert (T1 := dist_tri (sky (z0 + k * r) a) (sky z0 a) (hor phi d h)). assert (T2 := dist_tri (sky z0 a) p (hor phi d h)). assert (T3 := dist_tri p q (hor phi d h)).
  unfold point_tol. fold r g. lra.
Qed.

Lemma single_tol_b alg eng la : 0 < single_tol alg eng la <= 0.0004.
Proof. unfold single_tol. destruct (String.eqb alg "soltrack" && String.eqb eng "numpy")%bool; [destruct (Rle_dec (Rabs la) 80)|]; lra. Qed.
Lemma parallax_coef_b alg : 0 <= parallax_coef alg <= 0.00005.
Proof. unfold parallax_coef. destruct (String.eqb alg "psa"), (String.eqb alg "soltrack"); lra. Qed.
Lemma point_tol_b tol z : 0 < tol <= 0.0004 -> 0 <= point_tol tol z <= 0.0301.
Proof.
  intros Ht. unfold point_tol. assert (Sq := sqrt_sqrt (2 * tol) ltac:(lra)). set (g := sqrt (2 * tol)) in *. assert (Pg : 0 < g) by (apply sqrt_lt_R0; lra).
  assert (Px : g <= Rmax (sin z) g) by apply Rmax_r.
  assert (0 <= 2.001 * tol / Rmax (sin z) g) by (apply Rle_mult_inv_pos; lra).
  assert (2.001 * tol / Rmax (sin z) g <= 1.0005 * g).
  { apply (Rmult_le_reg_r (Rmax (sin z) g)); [lra|]. unfold Rdiv. rewrite Rmult_assoc, Rinv_l, Rmult_1_r by lra. nra. }
  assert (g <= 0.02829) by nra. split; lra.
Qed.
Lemma single_place_b alg eng la z T : In alg ["psa"; "soltrack"; "iqbal"; "nrel"]%string -> -3.223 <= T <= 2.623 -> 0 <= single_place_tol alg eng la z T <= 0.035.
Proof.
  intros Hin B. assert (BA : 0 <= Rabs T <= 3.3) by (split; [apply Rabs_pos|apply Rabs_le; lra]). assert (C : 0.00436 <= PI / 720 <= 0.00437) by (split; interval).
  assert (P1 := point_tol_b (2 / 1000000) z ltac:(lra)). assert (P2 := point_tol_b (4 / 10000) z ltac:(lra)).
  assert (P3 : point_tol (2 / 1000000) z <= 0.0021).
  { unfold point_tol. assert (Sq := sqrt_sqrt (2 * (2 / 1000000)) ltac:(lra)). set (g := sqrt _) in *. assert (Pg : 0 < g) by (apply sqrt_lt_R0; lra).
    assert (Px : g <= Rmax (sin z) g) by apply Rmax_r.
    assert (2.001 * (2 / 1000000) / Rmax (sin z) g <= 1.0005 * g).
    { apply (Rmult_le_reg_r (Rmax (sin z) g)); [lra|]. unfold Rdiv. rewrite Rmult_assoc, Rinv_l, Rmult_1_r by lra. nra. }
    assert (g <= 0.002001) by nra. lra. }
  unfold single_place_tol, dec_tol, eot_tol, hour_tol, parallax_coef, single_tol. revert BA C.
  generalize (Rabs T) (PI / 720). intros q c BA C. assert (QC : 0 <= q * c <= 0.01443) by (split; nra).
  destruct Hin as [<-|[<-|[<-|[<-|[]]]]]; cbn [String.eqb Ascii.eqb Bool.eqb andb]; [split; lra| |split; lra|split; lra].
  destruct (String.eqb eng "numpy"); cbn [andb]; [destruct (Rle_dec (Rabs la) 80)|]; split; lra.
Qed.

(** One call: the returned direction is close to that of the sun at the returned declination and equation of time. *)
Lemma call_dist E uc times lat lon alg refr eng sp k j i t la lo z :
  float32_like E -> is_True refr = false -> evaluated_cell E uc times lat lon alg refr eng sp k j i t la lo ->
  value (sp_zenith sp) (idx uc k j i) z ->
  exists d eot h a, value (sp_declination sp) [k] d /\ value (sp_eot sp) [k] eot /\ value (sp_azimuth sp) (idx uc k j i) a /\ 0 <= z <= PI /\
    near_turn h (solar_hour_angle t lo eot) (hour_tol alg + 4 / 10000000) /\
    dist (sky z a) (hor (la * (PI / 180)) d h) <= (if String.eqb alg "nrel" then 0.0001 else parallax_coef alg + point_tol (single_tol alg eng la) z).
Proof.
  intros HE Hr He Hz. destruct (String.eqb_spec alg "nrel") as [->|Hn].
  - assert (He' := He). destruct He as ((Hc & Hk & Ht) & Hi).
    destruct (call_value E true uc times lat lon "nrel" refr eng sp k t Hc Hk Ht j i la lo Hi (or_intror (or_introl eq_refl))) as (d & m & x & h & z1 & a & W1 & W2 & W3 & W4 & W5 & W6 & W7 & W8 & _).
    rewrite Hr in W4. unfold value in Hz. rewrite Hz in W4. injection W4 as ->.
    destruct (C25_ecf_bound E _ _ _ _ _ _ _ _ _ _ (conj Hc (conj Hk Ht))) as (x1 & X1 & Bx). unfold value in X1. rewrite W3 in X1. injection X1 as <-.
    exists d, m, h, a. split; [exact W1|]. split; [exact W2|]. split; [exact W5|]. split; [exact W8|].
    change (used E "nrel" lo) with lo in W6. change (used E "nrel" la) with la in W7. split.
    + eapply near_turn_le; [|exact W6]. lra.
    + exact (dist_sky "nrel" eng _ _ _ _ _ _ Bx W7).
  - destruct (call_single _ _ _ _ _ _ _ _ _ _ _ _ _ _ _ HE Hn He) as (d & eot & h & a & H1 & H2 & H3 & _ & H4 & H5 & H6 & H7).
    rewrite Hr in H7. unfold value in Hz. destruct H7 as [(z1 & Z1 & Z2 & Z3)|(_ & _ & Z3)]; rewrite Hz in Z3; [|discriminate Z3].
    injection Z3 as ->. exists d, eot, h, a. do 3 (split; [assumption|]). split; [exact Z2|]. split; [exact H3|].
    assert (S := single_tol_b alg eng la). assert (P := parallax_coef_b alg). apply near_dist; [lra|lra|exact Z1|exact H6].
Qed.

(** ** C55: any two evaluations of the sun at one instant and place, by whatever algorithms, engines, use cases and
    requests, in IEEE single precision, give directions and zenith angles within the sum of their tolerances. *)
Theorem C55_single_positions : forall E E' uc uc' times times' lat lat' lon lon' alg alg' refr refr' eng eng' sp sp' k k' j j' i i' t la lo z z',
  float32_like E -> float32_like E' -> is_True refr = false -> is_True refr' = false ->
  evaluated_cell E uc times lat lon alg refr eng sp k j i t la lo ->
  evaluated_cell E' uc' times' lat' lon' alg' refr' eng' sp' k' j' i' t la lo ->
  value (sp_zenith sp) (idx uc k j i) z -> value (sp_zenith sp') (idx uc' k' j' i') z' ->
  exists a a', let tau := 1.002 * (single_place_tol alg eng la z (centuries t) + single_place_tol alg' eng' la z' (centuries t)) in
    value (sp_azimuth sp) (idx uc k j i) a /\ value (sp_azimuth sp') (idx uc' k' j' i') a' /\
    separation_le z a z' a' tau /\ Rabs (z - z') <= tau.
Proof.
  intros E E' uc uc' times times' lat lat' lon lon' alg alg' refr refr' eng eng' sp sp' k k' j j' i i' t la lo z z' I I' R R' H H' Vz Vz'.
  destruct (C55_agree _ _ _ _ _ _ _ _ _ _ _ _ _ _ _ _ _ _ _ _ _ (proj1 H) (proj1 H')) as (d & m & x & d' & m' & x' & V1 & V2 & V3 & V1' & V2' & V3' & D1 & D2 & _).
  destruct (call_dist _ _ _ _ _ _ _ _ _ _ _ _ _ _ _ _ I R H Vz) as (d0 & m0 & h & a & W1 & W2 & W3 & W4 & W5 & S1).
  destruct (call_dist _ _ _ _ _ _ _ _ _ _ _ _ _ _ _ _ I' R' H' Vz') as (d0' & m0' & h' & a' & W1' & W2' & W3' & W4' & W5' & S2).
  assert (Hin : In alg ["psa"; "soltrack"; "iqbal"; "nrel"]%string /\ In alg' ["psa"; "soltrack"; "iqbal"; "nrel"]%string).
  { destruct (call_supported _ _ _ _ _ _ _ _ _ (proj1 (proj1 H))) as (q & Hq). destruct (call_supported _ _ _ _ _ _ _ _ _ (proj1 (proj1 H'))) as (q' & Hq').
    clear - Hq Hq'. cbn [supported In] in Hq, Hq'. split.
    - destruct Hq as [X|[X|[X|[X|[X|[X|[X|[]]]]]]]]; injection X as <- _ _; cbn; tauto.
    - destruct Hq' as [X|[X|[X|[X|[X|[X|[X|[]]]]]]]]; injection X as <- _ _; cbn; tauto. }
  assert (Ht : representable t) by apply H. assert (BT := centuries_b t Ht). set (T := centuries t) in *.
  unfold value in *. rewrite V1 in W1. rewrite V2 in W2. rewrite V1' in W1'. rewrite V2' in W2'.
  injection W1 as <-. injection W2 as <-. injection W1' as <-. injection W2' as <-. set (phi := la * (PI / 180)) in *.
  assert (Hh : near_turn h h' (hour_tol alg + 4 / 10000000 + (hour_tol alg' + 4 / 10000000) + (eot_tol alg T + eot_tol alg' T) * (PI / 720))).
  { destruct W5 as (q & Hq), W5' as (q' & Hq'). exists (q - q')%Z. rewrite minus_IZR.
    assert (E1 : solar_hour_angle t lo m - solar_hour_angle t lo m' = (m - m') * (PI / 720)) by (unfold solar_hour_angle; field).
    assert (P : 0 < PI / 720) by (assert (P := PI_RGT_0); lra).
    assert (D : Rabs ((m - m') * (PI / 720)) <= (eot_tol alg T + eot_tol alg' T) * (PI / 720)) by (rewrite Rabs_mult, (Rabs_pos_eq (PI / 720)) by lra; apply Rmult_le_compat_r; lra).
    rewrite <- E1 in D. apply Rabs_le_inv in Hq, Hq', D. apply Rabs_le. lra. }
  assert (S3 := dist_hor phi d h d' h' _ Hh).
  assert (S4 : dist (sky z a) (sky z' a') <= single_place_tol alg eng la z T + single_place_tol alg' eng' la z' T).
  { eapply Rle_trans; [apply (dist_tri _ (hor phi d h))|]. assert (dist (hor phi d h) (sky z' a') <= dist (hor phi d h) (hor phi d' h') + dist (hor phi d' h') (sky z' a')) by apply dist_tri.
    rewrite (dist_sym (hor phi d' h')) in *. unfold single_place_tol. lra. }
  assert (B1 := single_place_b alg eng la z T (proj1 Hin) BT). assert (B2 := single_place_b alg' eng' la z' T (proj2 Hin) BT).
  assert (Hs : separation_le z a z' a' (1.002 * (single_place_tol alg eng la z T + single_place_tol alg' eng' la z' T))) by (apply dist_angle; [lra|exact S4]).
  exists a, a'. cbv zeta. do 2 (split; [assumption|]). split; [exact Hs|]. apply (separation_zenith _ a _ a'); try assumption. assert (3 < PI) by interval. lra.
Qed.
(** In this century, 30 degrees or more from the zenith and up to latitude 80, rounding adds less than 0.001 degrees per algorithm
    to C55_positions: soltrack and nrel are within 0.0905 degrees. *)
Example C55_single_sizes : forall T la z z', 0 <= T <= 1 -> Rabs la <= 80 -> 0.5 <= sin z -> 
  1.002 * (single_place_tol "soltrack" "numpy" la z T + single_place_tol "nrel" "numexpr" la z' T) * (180 / PI) <= 0.0905.
Proof.
  intros T la z z' B Hla Hz. unfold single_place_tol, dec_tol, eot_tol, hour_tol, parallax_coef, single_tol, point_tol. cbn [String.eqb Ascii.eqb Bool.eqb andb].
  destruct (Rle_dec (Rabs la) 80); [|lra].
  assert (G : 2.001 * (2 / 1000000) / Rmax (sin z) (sqrt (2 * (2 / 1000000))) <= 0.0000081).
  { assert (Hx : 0.5 <= Rmax (sin z) (sqrt (2 * (2 / 1000000)))) by (eapply Rle_trans; [exact Hz|apply Rmax_l]).
    revert Hx. generalize (Rmax (sin z) (sqrt (2 * (2 / 1000000)))). intros q Hq. apply (Rmult_le_reg_r q); [lra|]. unfold Rdiv. rewrite Rmult_assoc, Rinv_l, Rmult_1_r by lra. lra. }
  revert G. generalize (2.001 * (2 / 1000000) / Rmax (sin z) (sqrt (2 * (2 / 1000000)))). intros q G.
  assert (P : 3.1415 <= PI <= 3.1416) by (split; interval). assert (Q : 180 / PI <= 57.2976) by interval. assert (0 <= 180 / PI) by interval.
  assert (PI / 720 <= 0.0043634) by lra. nra.
Qed.
(** The hypotheses, in IEEE binary32: 21 June 2024, 10:00 UTC, 40 N 3 W. *)
Example C55_single_example : forall uc alg eng m, In (alg, eng, m) (supported (O := ExtOps float32_env)) ->
  (alg = "psa"%string \/ alg = "nrel"%string \/ eng = "numexpr"%string /\ alg = "soltrack"%string) ->
  exists sp z, float32_like float32_env /\
    evaluated_cell float32_env uc (at_times [Some w_t]) (Scalar (Fin 40)) (Scalar (Fin (-3))) alg RFalse eng sp 0 0 0 w_t 40 (-3) /\
    value (sp_zenith sp) (idx uc 0 0 0) z.
Proof.
  intros uc alg eng m H Ha. destruct (w_cell float32_env uc alg eng m RFalse H) as (sp & Hsp).
  destruct (C18_float32_partial _ _ _ _ _ _ RFalse _ _ _ _ _ _ _ _ r32_like eq_refl Hsp) as [(z & Hz & _)|(_ & B & C & _)].
  - exists sp, z. split; [exact r32_like|]. now split.
  - exfalso. destruct Ha as [->|[->|[-> ->]]]; [discriminate B|now apply C|discriminate B].
Qed.

(** ** C23 in IEEE single precision: east before noon, west after noon *)
Definition noon_margin (alg eng : string) (la : R) : R := hour_tol alg + 4 / 10000000 + 1.2 * single_tol alg eng la.
Lemma sin_margin x m : 0 <= m <= 0.01 -> m <= x <= PI - m -> 0.99 * m <= sin x.
Proof.
  intros Hm Hx. assert (P : 3.14 < PI < 3.15) by (split; interval).
  assert (K : 0.99 * m <= sin m).
  { destruct (Req_dec m 0) as [->|N]; [rewrite sin_0; lra|].
    destruct (MVT_cor2 sin cos 0 m ltac:(lra)) as (v & Hv & Bv); [intros; apply derivable_pt_lim_sin|]. rewrite sin_0, !Rminus_0_r in Hv.
    assert (B : 0 <= v <= 0.01) by lra. assert (0.99 <= cos v) by (clear - B; interval). nra. }
  eapply Rle_trans; [exact K|]. destruct (Rle_dec x (PI / 2)) as [H|H].
  - apply sin_incr_1; lra.
  - rewrite <- (sin_PI_x x). apply sin_incr_1; lra.
Qed.
Theorem C23_single_precision : forall E uc times lat lon alg refr eng sp k j i t la lo eot n,
  float32_like E -> alg <> "nrel"%string ->
  evaluated_cell E uc times lat lon alg refr eng sp k j i t la lo ->
  value (sp_eot sp) [k] eot ->
  let H := solar_hour_angle t lo eot - 2 * PI * IZR n in
  exists a, value (sp_azimuth sp) (idx uc k j i) a /\
    (noon_margin alg eng la <= H <= PI - noon_margin alg eng la -> 0 < a < PI) /\
    (- PI + noon_margin alg eng la <= H <= - noon_margin alg eng la -> - PI < a < 0).
Proof.
  intros E uc times lat lon alg refr eng sp k j i t la lo eot n HE Hn C Heot H.
  destruct (C68_single_precision _ _ _ _ _ _ _ _ _ _ _ _ _ _ _ HE Hn C) as (d & eot' & h & V1 & V2 & N & (a & A1 & A2 & (rho & R0 & _ & RW)) & _).
  unfold value in V2, Heot. rewrite Heot in V2. injection V2 as <-. exists a. split; [exact A1|].
  destruct C as [(Hc & Hk & Ht) Hi]. destruct (call_time E true uc times lat lon alg refr eng sp k t Hc Hk Ht) as (d0 & _ & _ & G1 & _ & _ & B1 & _).
  unfold value in V1. rewrite V1 in G1. injection G1 as <-. assert (Cd := cos_dec_b d B1).
  destruct N as (q & Hq). apply Rabs_le_inv in Hq. unfold sun_W in RW. apply Rabs_le_inv in RW.
  set (x := h - 2 * PI * IZR (q + n)). assert (Es : sin h = sin x) by (unfold x; now rewrite sin_2kpi).
  assert (Hx : Rabs (x - H) <= hour_tol alg + 4 / 10000000) by (apply Rabs_le; unfold x, H; rewrite plus_IZR; lra). apply Rabs_le_inv in Hx.
  assert (T := single_tol_b alg eng la). set (tol := single_tol alg eng la) in *. unfold noon_margin. fold tol. rewrite Es in RW.
  assert (Sa : 0 < sin a -> 0 < a < PI).
  { intros S. split; apply Rnot_le_lt; intros L; [|replace a with PI in S by lra; rewrite sin_PI in S; lra].
    assert (sin (- a) >= 0) by (apply Rle_ge, sin_ge_0; lra). rewrite sin_neg in H0. lra. }
  assert (Sa' : sin a < 0 -> - PI < a < 0).
  { intros S. split; apply Rnot_le_lt; intros L; [replace a with (- PI) in S by lra; rewrite sin_neg, sin_PI in S; lra|].
    assert (sin a >= 0) by (apply Rle_ge, sin_ge_0; lra). lra. }
  split; intros B.
  - apply Sa. assert (S := sin_margin x (1.2 * tol) ltac:(lra) ltac:(lra)). apply Rnot_le_lt. intros L. assert (rho * sin a <= 0) by nra. nra.
  - apply Sa'. assert (S := sin_margin (- x) (1.2 * tol) ltac:(lra) ltac:(lra)). rewrite sin_neg in S. apply Rnot_le_lt. intros L. assert (0 <= rho * sin a) by nra. nra.
Qed.
(** 21 June 2024, 10:00 UTC, 40 N 3 W is a morning for iqbal in binary32: the margins are met (n = 0). *)
Example C23_single_example eot : -18 <= eot <= 18 -> - PI + noon_margin "iqbal" "numexpr" 40 <= solar_hour_angle w_t (-3) eot - 2 * PI * IZR 0 <= - noon_margin "iqbal" "numexpr" 40.
Proof.
  intros He. assert (Hu : utc_hours w_t = 10) by (unfold utc_hours; change ((w_t / 1000000000) mod 86400)%Z with 36000%Z; lra).
  unfold noon_margin, single_tol, hour_tol, solar_hour_angle. rewrite Hu. cbn [String.eqb Ascii.eqb Bool.eqb andb]. assert (P := pi_b). split; nra.
Qed.
