(** * SmoothR: how fast the computed directions move, psa and soltrack *)
From Coq Require Import ZArith QArith Reals Bool List String Lra Lia.
From Flocq Require Import Core.Raux.
From Interval Require Import Tactic.
From Verif Require Import Num Ext ExtLemmas Sky SkyClose AstroTac AstroSpec PsaR PsaCell SoltrackR SoltrackCell Almanac AlmanacR AlmanacSky AlmanacPos.
Open Scope R_scope.

(** ** Rotations: ecliptic to equator, turning sky, local horizon *)
Definition ecl (l b : R) : vec := (cos b * cos l, cos b * sin l, sin b).
Definition tilt (e : R) (u : vec) : vec := let '(x, y, z) := u in (x, y * cos e - z * sin e, y * sin e + z * cos e).
Definition spin (th : R) (u : vec) : vec := let '(x, y, z) := u in (x * cos th + y * sin th, x * sin th - y * cos th, z).
Definition look (phi : R) (u : vec) : vec := let '(x, y, z) := u in (x * sin phi - z * cos phi, y, x * cos phi + z * sin phi).

Lemma dist_sq u v : dist u v * dist u v = dot (sub u v) (sub u v).
Proof. apply norm_sq. Qed.
Lemma dist_pos u v : 0 <= dist u v. Proof. apply norm_pos. Qed.
Lemma dist_le u v c : 0 <= c -> dot (sub u v) (sub u v) <= c * c -> dist u v <= c.
Proof. apply norm_le. Qed.

Lemma ecl_norm l b : dot (ecl l b) (ecl l b) = 1.
Proof. cbn. pose proof (sc1 l). pose proof (sc1 b). nra. Qed.
Lemma tilt_norm e u : dot (tilt e u) (tilt e u) = dot u u.
Proof. destruct u as [[x y] z]. cbn. pose proof (sc1 e) as S. transitivity (x * x + (y * y + z * z) * (sin e * sin e + cos e * cos e)); [ring|]. rewrite S. ring. Qed.
Lemma spin_norm e u : dot (spin e u) (spin e u) = dot u u.
Proof. destruct u as [[x y] z]. cbn. pose proof (sc1 e) as S. transitivity (z * z + (y * y + x * x) * (sin e * sin e + cos e * cos e)); [ring|]. rewrite S. ring. Qed.
Lemma look_norm e u : dot (look e u) (look e u) = dot u u.
Proof. destruct u as [[x y] z]. cbn. pose proof (sc1 e) as S. transitivity (y * y + (x * x + z * z) * (sin e * sin e + cos e * cos e)); [ring|]. rewrite S. ring. Qed.
Lemma tilt_sub e u v : sub (tilt e u) (tilt e v) = tilt e (sub u v).
Proof. destruct u as [[x y] z], v as [[a b] c]. cbn. apply (f_equal2 pair); [apply (f_equal2 pair)|]; ring. Qed.
Lemma spin_sub e u v : sub (spin e u) (spin e v) = spin e (sub u v).
Proof. destruct u as [[x y] z], v as [[a b] c]. cbn. apply (f_equal2 pair); [apply (f_equal2 pair)|]; ring. Qed.
Lemma look_sub e u v : sub (look e u) (look e v) = look e (sub u v).
Proof. destruct u as [[x y] z], v as [[a b] c]. cbn. apply (f_equal2 pair); [apply (f_equal2 pair)|]; ring. Qed.

Lemma turn_vers x y e : near_turn x y e -> 2 - 2 * cos (x - y) <= e * e.
Proof.
  intros (k & Hk). assert (V := vers (x - y - 2 * PI * IZR k)). rewrite cos_2kpi in V. rewrite <- abs_sq in V. pose proof (Rabs_pos (x - y - 2 * PI * IZR k)). nra.
Qed.
Lemma turn_pos x y e : near_turn x y e -> 0 <= e.
Proof. intros (k & Hk). eapply Rle_trans; [apply Rabs_pos|exact Hk]. Qed.
Lemma turn_abs x y e : Rabs (x - y) <= e -> near_turn x y e.
Proof. intros H. exists 0%Z. replace (x - y - 2 * PI * 0) with (x - y) by ring. exact H. Qed.

Lemma tilt_lip e e' u v d : near_turn e e' d -> dot v v <= 1 -> dist (tilt e u) (tilt e' v) <= dist u v + d.
Proof.
  intros H Hv. assert (V := turn_vers _ _ _ H). assert (P := turn_pos _ _ _ H).
  eapply Rle_trans; [apply (dist_tri _ (tilt e v))|]. apply Rplus_le_compat.
  - unfold dist, norm. rewrite tilt_sub, tilt_norm. apply Rle_refl.
  - apply dist_le; [exact P|]. destruct v as [[x y] z]. cbn in *. rewrite cos_minus in V.
    pose proof (sc1 e). pose proof (sc1 e'). assert (0 <= y * y + z * z <= 1) by nra.
    apply Rle_trans with ((y * y + z * z) * (2 - 2 * (cos e * cos e' + sin e * sin e'))); [|nra].
    apply Req_le. transitivity ((y * y + z * z) * ((sin e * sin e + cos e * cos e) + (sin e' * sin e' + cos e' * cos e') - 2 * (cos e * cos e' + sin e * sin e'))); [ring|]. rewrite !sc1. ring.
Qed.
Lemma spin_lip e e' u v d : near_turn e e' d -> dot v v <= 1 -> dist (spin e u) (spin e' v) <= dist u v + d.
Proof.
  intros H Hv. assert (V := turn_vers _ _ _ H). assert (P := turn_pos _ _ _ H).
  eapply Rle_trans; [apply (dist_tri _ (spin e v))|]. apply Rplus_le_compat.
  - unfold dist, norm. rewrite spin_sub, spin_norm. apply Rle_refl.
  - apply dist_le; [exact P|]. destruct v as [[x y] z]. cbn in *. rewrite cos_minus in V.
    assert (0 <= x * x + y * y <= 1) by nra.
    apply Rle_trans with ((x * x + y * y) * (2 - 2 * (cos e * cos e' + sin e * sin e'))); [|nra].
    apply Req_le. transitivity ((x * x + y * y) * ((sin e * sin e + cos e * cos e) + (sin e' * sin e' + cos e' * cos e') - 2 * (cos e * cos e' + sin e * sin e'))); [ring|]. rewrite !sc1. ring.
Qed.
Lemma look_lip e e' u v d : near_turn e e' d -> dot v v <= 1 -> dist (look e u) (look e' v) <= dist u v + d.
Proof.
  intros H Hv. assert (V := turn_vers _ _ _ H). assert (P := turn_pos _ _ _ H).
  eapply Rle_trans; [apply (dist_tri _ (look e v))|]. apply Rplus_le_compat.
  - unfold dist, norm. rewrite look_sub, look_norm. apply Rle_refl.
  - apply dist_le; [exact P|]. destruct v as [[x y] z]. cbn in *. rewrite cos_minus in V.
    assert (0 <= x * x + z * z <= 1) by nra.
    apply Rle_trans with ((x * x + z * z) * (2 - 2 * (cos e * cos e' + sin e * sin e'))); [|nra].
    apply Req_le. transitivity ((x * x + z * z) * ((sin e * sin e + cos e * cos e) + (sin e' * sin e' + cos e' * cos e') - 2 * (cos e * cos e' + sin e * sin e'))); [ring|]. rewrite !sc1. ring.
Qed.
Lemma ecl_lip l l' b b' d : near_turn l l' d -> dist (ecl l b) (ecl l' b') <= d + Rabs (b - b').
Proof.
  intros H. assert (V := turn_vers _ _ _ H). assert (P := turn_pos _ _ _ H).
  eapply Rle_trans; [apply (dist_tri _ (ecl l' b))|]. apply Rplus_le_compat.
  - apply dist_le; [exact P|]. rewrite <- dist_sq, dist_unit by apply ecl_norm. cbn. rewrite cos_minus in V. pose proof (sc1 b).
    assert (0 <= cos b * cos b <= 1) by nra. nra.
  - apply dist_le; [apply Rabs_pos|]. rewrite abs_sq. rewrite <- dist_sq, dist_unit by apply ecl_norm. cbn. eapply Rle_trans; [|apply vers]. rewrite cos_minus.
    replace (cos b * cos l' * (cos b' * cos l') + cos b * sin l' * (cos b' * sin l') + sin b * sin b') with (cos b * cos b' * (sin l' * sin l' + cos l' * cos l') + sin b * sin b') by ring. rewrite sc1. lra.
Qed.

(** The direction of the sun from ecliptic position, obliquity, sidereal angle and latitude. *)
Definition place (l b e th phi : R) : vec := look phi (spin th (tilt e (ecl l b))).
Lemma place_norm l b e th phi : dot (place l b e th phi) (place l b e th phi) = 1.
Proof. unfold place. now rewrite look_norm, spin_norm, tilt_norm, ecl_norm. Qed.
Lemma place_lip l b e th phi l' b' e' th' phi' dl dth : near_turn l l' dl -> near_turn th th' dth ->
  dist (place l b e th phi) (place l' b' e' th' phi') <= dl + Rabs (b - b') + Rabs (e - e') + dth + Rabs (phi - phi').
Proof.
  intros Hl Hth. unfold place.
  assert (A := look_lip phi phi' (spin th (tilt e (ecl l b))) (spin th' (tilt e' (ecl l' b'))) _ (turn_abs _ _ _ (Rle_refl _)) ltac:(rewrite spin_norm, tilt_norm, ecl_norm; lra)).
  assert (B := spin_lip th th' (tilt e (ecl l b)) (tilt e' (ecl l' b')) _ Hth ltac:(rewrite tilt_norm, ecl_norm; lra)).
  assert (C := tilt_lip e e' (ecl l b) (ecl l' b') _ (turn_abs _ _ _ (Rle_refl _)) ltac:(rewrite ecl_norm; lra)).
  assert (D := ecl_lip l l' b b' _ Hl). lra.
Qed.
Lemma place_hor l b e a d th phi h k : equatorial l b e a d -> h = th - a + 2 * PI * IZR k -> hor phi d h = place l b e th phi.
Proof.
  intros (E1 & E2 & E3 & _) ->. unfold place, hor, ecl, tilt, spin, look, sun_S, sun_W, sun_U.
  assert (C : cos (th - a + 2 * PI * IZR k) = cos th * cos a + sin th * sin a) by (rewrite <- (cos_2kpi _ k); replace (th - a + 2 * PI * IZR k - 2 * PI * IZR k) with (th - a) by ring; apply cos_minus).
  assert (S : sin (th - a + 2 * PI * IZR k) = sin th * cos a - cos th * sin a) by (rewrite <- (sin_2kpi _ k); replace (th - a + 2 * PI * IZR k - 2 * PI * IZR k) with (th - a) by ring; apply sin_minus).
  rewrite C, S, E3.
  assert (X : cos d * (cos th * cos a + sin th * sin a) = cos b * cos l * cos th + (cos b * sin l * cos e - sin b * sin e) * sin th) by (rewrite <- E1, <- E2; ring).
  assert (Y : cos d * (sin th * cos a - cos th * sin a) = cos b * cos l * sin th - (cos b * sin l * cos e - sin b * sin e) * cos th) by (rewrite <- E1, <- E2; ring).
  apply (f_equal2 pair); [apply (f_equal2 pair)|].
  - rewrite (Rmult_assoc (sin phi)), X. ring.
  - rewrite Y. reflexivity.
  - rewrite (Rmult_assoc (cos phi)), X. ring.
Qed.

(** ** The parallax correction stretches distances by at most its coefficient *)
Lemma abs_le_sq x y : 0 <= y -> Rabs x <= y -> x * x <= y * y.
Proof. intros H H0. rewrite <- (abs_sq x). pose proof (Rabs_pos x). nra. Qed.
Lemma dist_half z a z' a' : dist (sky z a) (sky z' a') * dist (sky z a) (sky z' a') =
  4 * (sin ((z - z') / 2) * sin ((z - z') / 2)) + 4 * (sin z * sin z' * (sin ((a - a') / 2) * sin ((a - a') / 2))).
Proof.
  rewrite dist_unit by apply sky_unit. rewrite dot_sky.
  assert (A : cos (a - a') = 1 - 2 * sin ((a - a') / 2) * sin ((a - a') / 2)) by (rewrite <- cos_2a_sin; f_equal; field).
  assert (Z : cos z * cos z' + sin z * sin z' = 1 - 2 * sin ((z - z') / 2) * sin ((z - z') / 2)) by (rewrite <- cos_2a_sin, <- cos_minus; f_equal; field).
  rewrite A. lra.
Qed.
Lemma parallax_lip k z a z' a' : 0 <= k <= 0.001 -> 0 <= z <= PI -> 0 <= z' <= PI ->
  dist (sky (z + k * sin z) a) (sky (z' + k * sin z') a') <= (1 + k) * dist (sky z a) (sky z' a').
Proof.
  intros Hk Hz Hz'. assert (P := dist_pos (sky z a) (sky z' a')). apply dist_le; [nra|]. rewrite <- dist_sq.
  replace ((1 + k) * dist (sky z a) (sky z' a') * ((1 + k) * dist (sky z a) (sky z' a'))) with ((1 + k) * (1 + k) * (dist (sky z a) (sky z' a') * dist (sky z a) (sky z' a'))) by ring.
  rewrite !dist_half.
  assert (S1 : 0 <= sin z) by (apply sin_ge_0; lra). assert (S2 : 0 <= sin z') by (apply sin_ge_0; lra).
  assert (G : forall y, 0 <= y <= PI -> 0 <= sin (y + k * sin y) <= (1 + k) * sin y).
  { intros y Hy. assert (S : 0 <= sin y) by (apply sin_ge_0; lra). pose proof (SIN_bound y). split.
    - assert (E : sin (y + k * sin y) = sin y * cos (k * sin y) + cos y * sin (k * sin y)) by apply sin_plus.
      assert (B : 0 <= k * sin y <= 0.001) by nra. assert (L := sin_lip (k * sin y) 0). rewrite sin_0, !Rminus_0_r in L. rewrite (Rabs_pos_eq (k * sin y)) in L by lra. apply Rabs_le_inv in L.
      assert (0.99 <= cos (k * sin y)) by (generalize dependent (k * sin y); intros w; clear; intros; interval). pose proof (COS_bound y). rewrite E. set (q := sin (k * sin y)) in *. set (v := cos (k * sin y)) in *. assert (k * sin y <= 0.001 * sin y) by nra.
      assert (- (0.001 * sin y) <= cos y * q) by (clear E; clearbody q v; nra). assert (0.99 * sin y <= sin y * v) by (rewrite Rmult_comm; apply Rmult_le_compat_l; assumption). lra.
    - assert (L := sin_lip (y + k * sin y) y). replace (y + k * sin y - y) with (k * sin y) in L by ring. rewrite (Rabs_pos_eq (k * sin y)) in L by nra. apply Rabs_le_inv in L. lra. }
  assert (G1 := G z Hz). assert (G2 := G z' Hz'). clear G.
  set (x := (z - z') / 2). set (w := sin ((a - a') / 2) * sin ((a - a') / 2)). assert (Hw : 0 <= w) by (unfold w; nra).
  assert (Ex : (z + k * sin z - (z' + k * sin z')) / 2 = x + k * (cos ((z + z') / 2) * sin x)).
  { replace (z + k * sin z - (z' + k * sin z')) with (z - z' + k * (sin z - sin z')) by ring. rewrite form4. unfold x. field. }
  rewrite Ex. set (c := cos ((z + z') / 2)). assert (Bc : -1 <= c <= 1) by apply COS_bound.
  assert (Hx : sin (x + k * (c * sin x)) * sin (x + k * (c * sin x)) <= (1 + k) * (1 + k) * (sin x * sin x)).
  { replace ((1 + k) * (1 + k) * (sin x * sin x)) with (((1 + k) * Rabs (sin x)) * ((1 + k) * Rabs (sin x))) by (rewrite <- (abs_sq (sin x)); ring).
    pose proof (Rabs_pos (sin x)). apply abs_le_sq; [nra|]. assert (L := sin_lip (x + k * (c * sin x)) x). replace (x + k * (c * sin x) - x) with (k * (c * sin x)) in L by ring.
    assert (M : Rabs (k * (c * sin x)) <= k * Rabs (sin x)). { rewrite !Rabs_mult, (Rabs_pos_eq k) by lra. assert (Rabs c <= 1) by (apply Rabs_le; lra). apply Rmult_le_compat_l; [lra|]. rewrite <- (Rmult_1_l (Rabs (sin x))) at 2. apply Rmult_le_compat_r; [apply Rabs_pos|assumption]. }
    assert (T := Rabs_triang (sin (x + k * (c * sin x)) - sin x) (sin x)). replace (sin (x + k * (c * sin x)) - sin x + sin x) with (sin (x + k * (c * sin x))) in T by ring. lra. }
  assert (Hq : sin (z + k * sin z) * sin (z' + k * sin z') <= (1 + k) * (1 + k) * (sin z * sin z')).
  { apply Rle_trans with ((1 + k) * sin z * ((1 + k) * sin z')); [apply Rmult_le_compat; lra|]. apply Req_le. ring. }
  assert (Hq' := Rmult_le_compat_r w _ _ Hw Hq). lra.
Qed.

(** ** Elements *)
Section Pair.
  Variables s s' : R.
  Hypothesis Hs : in_ns_range s.
  Hypothesis Hs' : in_ns_range s'.
  Let D : R := Rabs (s - s').
  Lemma D_pos : 0 <= D. Proof. apply Rabs_pos. Qed.
  Lemma lin_diff (f : R -> R) c x y : (forall x, f x = f 0 + c * x) -> f x - f y = c * (x - y).
  Proof. intros H. rewrite (H x), (H y). ring. Qed.

  Lemma mul_diff a b a' b' A B da db : Rabs a <= A -> Rabs b' <= B -> Rabs (a - a') <= da -> Rabs (b - b') <= db -> Rabs (a * b - a' * b') <= A * db + B * da.
  Proof.
    intros Ha Hb Hda Hdb. replace (a * b - a' * b') with (a * (b - b') + b' * (a - a')) by ring. eapply Rle_trans; [apply Rabs_triang|]. rewrite !Rabs_mult.
    pose proof (Rabs_pos a). pose proof (Rabs_pos b'). pose proof (Rabs_pos (a - a')). pose proof (Rabs_pos (b - b')). apply Rplus_le_compat; apply Rmult_le_compat; lra.
  Qed.

  (** psa *)
  Definition p_th (x : R) : R := (#6.697096103 + #6.570984737e-2 * p_jde x + x / 3600) * (PI / 12).
  Lemma p_jde_lip : Rabs (p_jde s - p_jde s') = D / 86400.
  Proof. unfold p_jde. replace (s / #86400 - #10957.5 - (s' / #86400 - #10957.5)) with ((s - s') * / 86400) by (q2; field). rewrite Rabs_mult, (Rabs_pos_eq (/ 86400)) by lra. reflexivity. Qed.
  Lemma p_omega_lip : Rabs (p_omega s - p_omega s') <= 0.00000001077 * D.
  Proof. assert (H := p_jde_lip). unfold p_omega. replace (_ - _ - _) with (- #9.300339267e-4 * (p_jde s - p_jde s')) by ring. rewrite Rabs_mult, H, Rabs_Ropp, Rabs_pos_eq by (q2; lra). pose proof D_pos. q2. lra. Qed.
  Lemma p_g_lip : Rabs (p_g s - p_g s') <= 0.000000199098 * D.
  Proof. assert (H := p_jde_lip). unfold p_g. replace (_ + _ - _) with (#1.720200135e-2 * (p_jde s - p_jde s')) by ring. rewrite Rabs_mult, H, Rabs_pos_eq by (q2; lra). pose proof D_pos. q2. lra. Qed.
  Lemma p_L_lip : Rabs (p_L s - p_L s') <= 0.000000199107 * D.
  Proof. assert (H := p_jde_lip). unfold p_L. replace (_ + _ - _) with (#1.720279602e-2 * (p_jde s - p_jde s')) by ring. rewrite Rabs_mult, H, Rabs_pos_eq by (q2; lra). pose proof D_pos. q2. lra. Qed.
  Lemma scal_sin c x y d : 0 <= c -> Rabs (x - y) <= d -> Rabs (c * sin x - c * sin y) <= c * d.
  Proof. intros Hc H. rewrite <- Rmult_minus_distr_l, Rabs_mult, (Rabs_pos_eq c Hc). apply Rmult_le_compat_l; [exact Hc|]. eapply Rle_trans; [apply sin_lip|exact H]. Qed.
  Lemma cos_lip x y : Rabs (cos x - cos y) <= Rabs (x - y).
  Proof. rewrite <- (sin_shift x), <- (sin_shift y). eapply Rle_trans; [apply sin_lip|]. replace (PI / 2 - x - (PI / 2 - y)) with (- (x - y)) by ring. rewrite Rabs_Ropp. lra. Qed.
  Lemma scal_cos c x y d : 0 <= c -> Rabs (x - y) <= d -> Rabs (c * cos x - c * cos y) <= c * d.
  Proof. intros Hc H. rewrite <- Rmult_minus_distr_l, Rabs_mult, (Rabs_pos_eq c Hc). apply Rmult_le_compat_l; [exact Hc|]. eapply Rle_trans; [apply cos_lip|exact H]. Qed.
  Lemma p_l_lip : Rabs (p_l s - p_l s') <= 0.0000002059 * D.
  Proof.
    assert (H1 := p_L_lip). assert (H2 := p_g_lip). assert (H3 := p_omega_lip). assert (P := D_pos).
    assert (G1 := scal_sin #3.338320972e-2 _ _ _ ltac:(q2; lra) H2).
    assert (H2' : Rabs (#2 * p_g s - #2 * p_g s') <= 0.000000398196 * D) by (replace (#2 * p_g s - #2 * p_g s') with (2 * (p_g s - p_g s')) by (q2; lra); rewrite Rabs_mult, (Rabs_pos_eq 2) by lra; lra).
    assert (G2 := scal_sin #3.497596876e-4 _ _ _ ltac:(q2; lra) H2').
    assert (G3 := scal_sin #8.689729360e-6 _ _ _ ltac:(q2; lra) H3).
    unfold p_l. apply Rabs_le_inv in H1, G1, G2, G3. clear H2 H3 H2'.
    set (x1 := _ * sin (p_g s)) in *. set (x2 := _ * sin (p_g s')) in *. set (y1 := _ * sin (#2 * p_g s)) in *. set (y2 := _ * sin (#2 * p_g s')) in *. set (w1 := _ * sin (p_omega s)) in *. set (w2 := _ * sin (p_omega s')) in *.
    clearbody x1 x2 y1 y2 w1 w2 D. revert H1 G1 G2 G3. q2. intros. apply Rabs_le. lra.
  Qed.
  Lemma p_ep_lip : Rabs (p_ep s - p_ep s') <= 0.000000000001 * D.
  Proof.
    assert (H := p_jde_lip). assert (H3 := p_omega_lip). assert (P := D_pos). assert (G3 := scal_cos #4.418094944e-5 _ _ _ ltac:(q2; lra) H3).
    unfold p_ep. assert (H1 : Rabs (p_jde s - p_jde s') <= D / 86400) by lra. apply Rabs_le_inv in H1, G3. clear H H3.
    set (w1 := _ * cos (p_omega s)) in *. set (w2 := _ * cos (p_omega s')) in *. clearbody w1 w2 D. revert H1 G3. q2. intros. apply Rabs_le. lra.
  Qed.
  Lemma p_th_lip : Rabs (p_th s - p_th s') <= 0.0000729213 * D.
  Proof.
    assert (P := D_pos). unfold p_th, p_jde. replace (_ - _) with ((s - s') * ((#6.570984737e-2 / 86400 + / 3600) * (PI / 12))) by (q2; field). rewrite Rabs_mult. fold D. rewrite Rmult_comm. apply Rmult_le_compat_r; [exact P|]. q2. interval.
  Qed.

  (** soltrack *)
  Definition u_lon (x : R) : R := t_l0 x + t_sec x + - #9.93087e-5 / t_R x + t_dpsi x.
  Lemma t_JC_lip : Rabs (t_JC s - t_JC s') <= 0.00000000031689 * D.
  Proof. assert (P := D_pos). unfold t_JC, t_JD. replace (_ - _) with ((s - s') * / 3155760000) by (q2; field). rewrite Rabs_mult. fold D. rewrite (Rabs_pos_eq (/ _)) by lra. lra. Qed.
  Lemma t_JC2_lip : Rabs (t_JC2 s - t_JC2 s') <= 0.0000000020428 * D.
  Proof.
    assert (P := D_pos). assert (H := t_JC_lip). assert (B := t_JC_b s Hs). assert (B' := t_JC_b s' Hs'). unfold t_JC2. replace (t_JC s ^ 2 - t_JC s' ^ 2) with ((t_JC s + t_JC s') * (t_JC s - t_JC s')) by ring.
    rewrite Rabs_mult. apply Rle_trans with (6.446 * (0.00000000031689 * D)); [|lra]. apply Rmult_le_compat; try apply Rabs_pos; [apply Rabs_le; lra|exact H].
  Qed.
  Lemma abs_sin x : Rabs (sin x) <= 1. Proof. apply Rabs_le, SIN_bound. Qed.
  Lemma abs_cos x : Rabs (cos x) <= 1. Proof. apply Rabs_le, COS_bound. Qed.
  Lemma div_diff a b a' b' A da db m : 0 < m -> m <= b -> m <= b' -> Rabs a' <= A -> Rabs (a - a') <= da -> Rabs (b - b') <= db ->
    Rabs (a / b - a' / b') <= da / m + A * db / (m * m).
  Proof.
    intros Hm Hb Hb' Ha Hda Hdb. replace (a / b - a' / b') with ((a - a') * / b + a' * ((b' - b) * (/ b * / b'))) by (field; lra).
    assert (0 < / b <= / m) by (split; [apply Rinv_0_lt_compat; lra|apply Rinv_le_contravar; lra]). assert (0 < / b' <= / m) by (split; [apply Rinv_0_lt_compat; lra|apply Rinv_le_contravar; lra]).
    pose proof (Rabs_pos a'). pose proof (Rabs_pos (a - a')). pose proof (Rabs_pos (b - b')).
    assert (0 <= / b * / b') by nra.
    eapply Rle_trans; [apply Rabs_triang|]. rewrite !Rabs_mult, (Rabs_minus_sym b' b), (Rabs_pos_eq (/ b)), (Rabs_pos_eq (/ b')) by lra. apply Rplus_le_compat.
    - unfold Rdiv. apply Rmult_le_compat; lra.
    - replace (A * db / (m * m)) with (A * (db * (/ m * / m))) by (field; lra). apply Rmult_le_compat; [lra|apply Rmult_le_pos; lra|lra|].
      apply Rmult_le_compat; [lra|lra|lra|]. apply Rmult_le_compat; lra.
  Qed.

  Lemma t_l0_lip : Rabs (t_l0 s - t_l0 s') <= 0.000000199114 * D.
  Proof. assert (P := D_pos). assert (H := t_JC_lip). assert (H2 := t_JC2_lip). apply Rabs_le_inv in H, H2. unfold t_l0. clearbody D. q2. apply Rabs_le. lra. Qed.
  Lemma t_ma_lip : Rabs (t_ma s - t_ma s') <= 0.000000199105 * D.
  Proof. assert (P := D_pos). assert (H := t_JC_lip). assert (H2 := t_JC2_lip). apply Rabs_le_inv in H, H2. unfold t_ma. clearbody D. q2. apply Rabs_le. lra. Qed.
  Lemma t_omg_lip : Rabs (t_omg s - t_omg s') <= 0.0000000108 * D.
  Proof. assert (P := D_pos). assert (H := t_JC_lip). assert (H2 := t_JC2_lip). apply Rabs_le_inv in H, H2. unfold t_omg. clearbody D. q2. apply Rabs_le. lra. Qed.
  Lemma t_ecc_lip : Rabs (t_ecc s - t_ecc s') <= 0.0000000000001 * D.
  Proof. assert (P := D_pos). assert (H := t_JC_lip). assert (H2 := t_JC2_lip). apply Rabs_le_inv in H, H2. unfold t_ecc. clearbody D. q2. apply Rabs_le. lra. Qed.
  Lemma t_dpsi_lip : Rabs (t_dpsi s - t_dpsi s') <= 0.000000000001 * D.
  Proof.
    assert (P := D_pos). assert (H := scal_sin #8.338601e-5 _ _ _ ltac:(q2; lra) t_omg_lip). unfold t_dpsi. replace (- #8.338601e-5 * sin (t_omg s) - - #8.338601e-5 * sin (t_omg s')) with (- (#8.338601e-5 * sin (t_omg s) - #8.338601e-5 * sin (t_omg s'))) by ring.
    rewrite Rabs_Ropp. eapply Rle_trans; [exact H|]. q2. lra.
  Qed.
  Lemma t_obl_lip : Rabs (t_obl s - t_obl s') <= 0.000000000001 * D.
  Proof.
    assert (P := D_pos). assert (G := scal_cos #4.4615e-5 _ _ _ ltac:(q2; lra) t_omg_lip). assert (H := t_JC_lip). assert (H2 := t_JC2_lip). apply Rabs_le_inv in H, H2, G. unfold t_obl.
    set (w1 := _ * cos (t_omg s)) in *. set (w2 := _ * cos (t_omg s')) in *. clearbody w1 w2 D. revert H H2 G. q2. intros. apply Rabs_le. lra.
  Qed.
  Lemma t_sec_lip : Rabs (t_sec s - t_sec s') <= 0.000000007 * D.
  Proof.
    assert (P := D_pos). assert (H := t_JC_lip). assert (H2 := t_JC2_lip). assert (Hm := t_ma_lip). assert (B := t_JC_b s Hs).
    assert (Hm2 : Rabs (#2 * t_ma s - #2 * t_ma s') <= 0.00000039821 * D) by (replace (#2 * t_ma s - #2 * t_ma s') with (2 * (t_ma s - t_ma s')) by (q2; lra); rewrite Rabs_mult, (Rabs_pos_eq 2) by lra; lra).
    unfold t_sec.
    set (a := #3.34161088e-2 - #8.40725e-5 * t_JC s - #2.443e-7 * t_JC2 s). set (a' := #3.34161088e-2 - #8.40725e-5 * t_JC s' - #2.443e-7 * t_JC2 s').
    set (b := #3.489437e-4 - #1.76278e-6 * t_JC s). set (b' := #3.489437e-4 - #1.76278e-6 * t_JC s').
    assert (A1 : Rabs a <= 0.03369) by (unfold a, t_JC2; clear - B; generalize dependent (t_JC s); intros j Hj; q2; apply Rabs_le; split; interval).
    assert (A2 : Rabs (a - a') <= 0.00000000000003 * D) by (unfold a, a'; apply Rabs_le_inv in H, H2; clear - H H2 P; clearbody D; q2; apply Rabs_le; lra).
    assert (B1 : Rabs b <= 0.00036) by (unfold b; clear - B; generalize dependent (t_JC s); intros j Hj; q2; apply Rabs_le; lra).
    assert (B2 : Rabs (b - b') <= 0.000000000000001 * D) by (unfold b, b'; apply Rabs_le_inv in H; clear - H P; clearbody D; q2; apply Rabs_le; lra).
    assert (C1 := mul_diff a (sin (t_ma s)) a' (sin (t_ma s')) _ 1 _ _ A1 (abs_sin _) A2 (Rle_trans _ _ _ (sin_lip _ _) Hm)).
    assert (C2 := mul_diff b (sin (#2 * t_ma s)) b' (sin (#2 * t_ma s')) _ 1 _ _ B1 (abs_sin _) B2 (Rle_trans _ _ _ (sin_lip _ _) Hm2)).
    apply Rabs_le_inv in C1, C2. clearbody D. apply Rabs_le. lra.
  Qed.
  Lemma t_R_lip : Rabs (t_R s - t_R s') <= 0.0000000038 * D.
  Proof.
    assert (P := D_pos). assert (He := t_ecc_lip). assert (B := t_ecc_b s Hs). assert (B' := t_ecc_b s' Hs'). assert (Db := t_den_b s Hs). assert (Db' := t_den_b s' Hs').
    assert (Hn : Rabs ((t_ma s + t_sec s) - (t_ma s' + t_sec s')) <= 0.00000020611 * D) by (assert (H1 := t_ma_lip); assert (H2 := t_sec_lip); apply Rabs_le_inv in H1, H2; apply Rabs_le; lra).
    assert (C1 := mul_diff (t_ecc s) (cos (t_ma s + t_sec s)) (t_ecc s') (cos (t_ma s' + t_sec s')) 0.0169 1 _ _ ltac:(apply Rabs_le; lra) (abs_cos _) He (Rle_trans _ _ _ (cos_lip _ _) Hn)).
    assert (C2 := mul_diff (t_ecc s) (t_ecc s) (t_ecc s') (t_ecc s') 0.0169 0.0169 _ _ ltac:(apply Rabs_le; lra) ltac:(apply Rabs_le; lra) He He).
    unfold t_R. eapply Rle_trans; [apply (div_diff _ _ _ _ 1.001 (0.00000000000001 * D) (0.0000000035 * D) 0.98)|].
    - lra. - lra. - lra.
    - q2. apply Rabs_le. clear - B'. generalize dependent (t_ecc s'). intros e B'. nra.
    - replace (#1.0000010178 * (#1.0 - t_ecc s ^ 2) - #1.0000010178 * (#1.0 - t_ecc s' ^ 2)) with (- (#1.0000010178 * (t_ecc s * t_ecc s - t_ecc s' * t_ecc s'))) by ring.
      rewrite Rabs_Ropp, Rabs_mult. clear C1. set (q := Rabs (_ - t_ecc s' * _)) in *. assert (0 <= q) by apply Rabs_pos. clearbody q D. rewrite Rabs_pos_eq by (q2; lra). q2. lra.
    - match goal with |- Rabs ?e <= _ => replace e with (t_ecc s * cos (t_ma s + t_sec s) - t_ecc s' * cos (t_ma s' + t_sec s')) by ring end. lra.
    - clearbody D. lra.
  Qed.
  Lemma inv_R r r' d : 0.98 <= r -> 0.98 <= r' -> Rabs (r - r') <= d -> Rabs (1 / r - 1 / r') <= 1.0413 * d.
  Proof.
    intros H H' Hd. eapply Rle_trans; [apply (div_diff 1 r 1 r' 1 0 d 0.98); try lra; [rewrite Rabs_R1; lra|rewrite Rminus_eq_0, Rabs_R0; lra]|].
    pose proof (Rabs_pos (r - r')). lra.
  Qed.
  Lemma u_lon_lip : Rabs (u_lon s - u_lon s') <= 0.00000020613 * D.
  Proof.
    assert (P := D_pos). assert (H1 := t_l0_lip). assert (H2 := t_sec_lip). assert (H3 := t_dpsi_lip). assert (H4 := t_R_lip). assert (B := t_R_b s Hs). assert (B' := t_R_b s' Hs').
    assert (H5 := inv_R (t_R s) (t_R s') _ ltac:(lra) ltac:(lra) H4). unfold u_lon.
    replace (- #9.93087e-5 / t_R s) with (- #9.93087e-5 * (1 / t_R s)) by (q2; field; lra). replace (- #9.93087e-5 / t_R s') with (- #9.93087e-5 * (1 / t_R s')) by (q2; field; lra).
    apply Rabs_le_inv in H1, H2, H3, H5. clear H4. set (i := 1 / t_R s) in *. set (i' := 1 / t_R s') in *. clearbody i i' D. q2. apply Rabs_le. lra.
  Qed.
  Lemma t_agst_lip : Rabs (t_agst s - t_agst s') <= 0.000072922 * D.
  Proof.
    assert (P := D_pos). assert (H := t_JC2_lip). assert (H1 := t_dpsi_lip). assert (H2 := t_obl_lip).
    assert (C := mul_diff (t_dpsi s) (cos (t_obl s)) (t_dpsi s') (cos (t_obl s')) 0.0001 1 _ _ ltac:(unfold t_dpsi; rewrite Rabs_mult, Rabs_Ropp; pose proof (abs_sin (t_omg s)); pose proof (Rabs_pos (sin (t_omg s))); rewrite Rabs_pos_eq by (q2; lra); q2; lra) (abs_cos _) H1 (Rle_trans _ _ _ (cos_lip _ _) H2)).
    assert (HJ : Rabs (t_JD s - t_JD s') <= / 86400 * D) by (unfold t_JD; replace (_ - _) with ((s - s') * / 86400) by (q2; field); rewrite Rabs_mult, (Rabs_pos_eq (/ 86400)) by lra; fold D; lra).
    unfold t_agst, t_gmst. apply Rabs_le_inv in H, C, HJ. clear H1 H2. set (w := t_dpsi s * _) in *. set (w' := t_dpsi s' * _) in *. clearbody w w' D. q2. apply Rabs_le. lra.
  Qed.
  Lemma t_ecf_lip : Rabs (t_ecf s - t_ecf s') <= 0.0000000082 * D.
  Proof.
    assert (P := D_pos). assert (H4 := t_R_lip). assert (B := t_R_b s Hs). assert (B' := t_R_b s' Hs'). assert (H5 := inv_R (t_R s) (t_R s') _ ltac:(lra) ltac:(lra) H4).
    unfold t_ecf. replace (#1 / t_R s ^ 2) with (1 / t_R s * (1 / t_R s)) by (q2; field; lra). replace (#1 / t_R s' ^ 2) with (1 / t_R s' * (1 / t_R s')) by (q2; field; lra).
    assert (I : forall r, 0.982 <= r -> Rabs (1 / r) <= 1.0184). { intros r Hr. unfold Rdiv. rewrite Rmult_1_l. assert (0 < / r <= / 0.982) by (split; [apply Rinv_0_lt_compat; lra|apply Rinv_le_contravar; lra]). rewrite Rabs_pos_eq; lra. }
    assert (C := mul_diff (1 / t_R s) (1 / t_R s) (1 / t_R s') (1 / t_R s') _ _ _ _ (I _ (proj1 B)) (I _ (proj1 B')) H5 H5). clearbody D. lra.
  Qed.
End Pair.
