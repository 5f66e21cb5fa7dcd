(** * SmoothE: how fast declination and equation of time change *)
From Coq Require Import ZArith QArith Qabs Qreals Reals Bool List String Lra Lia.
From Flocq Require Import Core.Raux.
Set Warnings "-ambiguous-paths".
From Coquelicot Require Import Coquelicot.
From Interval Require Import Tactic.
From Verif Require Import Num Ext ExtLemmas Sky SkyClose AstroTac AstroSpec PsaR SoltrackR NrelTables NrelR NrelCell Almanac AlmanacR AlmanacSky AlmanacPos SmoothR SmoothN.
Import ListNotations.
Open Scope R_scope.

(** ** Longitude minus right ascension *)
Definition redN (l c p : R) : R := (1 - c) * (sin l * cos l) + p * cos l.
Definition redD (l c p : R) : R := 1 - (1 - c) * (sin l * sin l) - p * sin l.
Definition red (l c p : R) : R := redN l c p / redD l c p.
Section Red.
  Variables c p : R.
  Hypothesis Hc : 0.917 <= c <= 0.918.
  Hypothesis Hp : Rabs p <= 0.000003.
  Lemma redD_b l : 0.9169 <= redD l c p.
  Proof. unfold redD. apply Rabs_le_inv in Hp. pose proof (SIN_bound l). set (s := sin l) in *. clearbody s. assert (0 <= s * s <= 1) by nra. nra. Qed.
  Lemma redN_b l : Rabs (redN l c p) <= 0.0416.
  Proof.
    unfold redN. assert (U := sc1 l). assert (K := abs_cos l). set (s := sin l) in *. set (k := cos l) in *. clearbody s k.
    assert (Hsk : Rabs (s * k) <= 0.5) by (pose proof (Rle_0_sqr (s - k)); pose proof (Rle_0_sqr (s + k)); unfold Rsqr in *; apply Rabs_le; lra).
    assert (A1 : Rabs ((1 - c) * (s * k)) <= 0.083 * 0.5) by (apply Rabs_prod_le; [apply Rabs_le; lra|exact Hsk]).
    assert (A2 : Rabs (p * k) <= 0.000003 * 1) by (apply Rabs_prod_le; assumption). eapply Rle_trans; [apply Rabs_triang|]. lra.
  Qed.
  Lemma atan_lip x y : Rabs (atan x - atan y) <= Rabs (x - y).
  Proof.
    assert (W : forall x y, x < y -> 0 <= atan y - atan x <= y - x).
    { intros u v H. split; [left; apply Rlt_Rminus, atan_increasing, H|]. destruct (MVT_cor2 atan (fun z => / (1 + z ^ 2)) u v H) as (z & Hz & _).
      - intros z _. replace (/ (1 + z ^ 2)) with (/ (1 + z ^ 2)) by reflexivity. apply derivable_pt_lim_atan.
      - rewrite Hz. assert (0 < / (1 + z ^ 2) <= 1). { split; [apply Rinv_0_lt_compat; pose proof (pow2_ge_0 z); lra|]. rewrite <- Rinv_1. apply Rinv_le_contravar; [lra|pose proof (pow2_ge_0 z); lra]. } nra. }
    destruct (Rtotal_order x y) as [H|[->|H]].
    - specialize (W x y H). rewrite !Rabs_left1 by lra. lra.
    - rewrite !Rminus_eq_0, Rabs_R0. lra.
    - specialize (W y x H). rewrite !Rabs_pos_eq by lra. lra.
  Qed.
  Lemma red_rate s k : s * s + k * k = 1 ->
    Rabs ((((1 - c) * (k * k - s * s) - p * s) * (1 - (1 - c) * (s * s) - p * s) - ((1 - c) * (s * k) + p * k) * (- (2 * (1 - c) * (s * k)) - p * k)) /
          (1 - (1 - c) * (s * s) - p * s) ^ 2) <= 0.0915.
  Proof.
    intros U. assert (Bs : -1 <= s <= 1) by nra. apply Rabs_le_inv in Hp.
    match goal with |- Rabs (?n / _) <= _ => replace n with (((1 - c) * (1 - 2 * s ^ 2) - p * s) * (1 - (1 - c) * s ^ 2 - p * s) + ((1 - c) * s + p) * (2 * (1 - c) * s + p) * (1 - s ^ 2)) end.
    2:{ replace (1 - s ^ 2) with (k * k) by (rewrite <- U; ring). replace (1 - 2 * s ^ 2) with (k * k - s * s) by (rewrite <- U; ring). ring. }
    replace (s * s) with (s ^ 2) by ring. clear U. interval with (i_bisect s, i_depth 25).
  Qed.
  Lemma red_lon l l' : Rabs (red l c p - red l' c p) <= 0.0915 * Rabs (l - l').
  Proof.
    set (f' := fun l => (((1 - c) * (cos l * cos l - sin l * sin l) - p * sin l) * (1 - (1 - c) * (sin l * sin l) - p * sin l) - ((1 - c) * (sin l * cos l) + p * cos l) * (- (2 * (1 - c) * (sin l * cos l)) - p * cos l)) /
          (1 - (1 - c) * (sin l * sin l) - p * sin l) ^ 2).
    assert (W : forall x y, x < y -> Rabs (red y c p - red x c p) <= 0.0915 * (y - x)).
    { intros x y Hxy. destruct (MVT_cor2 (fun l => red l c p) f' x y Hxy) as (z & Hz & _).
      - intros z _. apply is_derive_Reals. unfold f', red, redN, redD. assert (B := redD_b z). unfold redD in B. auto_derive; [lra|]. field. lra.
      - cbn beta in Hz. rewrite Hz, Rabs_mult, (Rabs_pos_eq (y - x)) by lra. apply Rmult_le_compat_r; [lra|]. apply red_rate, sc1. }
    destruct (Rtotal_order l l') as [H|[->|H]].
    - specialize (W l l' H). rewrite Rabs_minus_sym, (Rabs_left1 (l - l')) by lra. lra.
    - rewrite !Rminus_eq_0, Rabs_R0. lra.
    - specialize (W l' l H). rewrite (Rabs_pos_eq (l - l')) by lra. lra.
  Qed.
End Red.
Lemma red_b l c p : 0.917 <= c <= 0.918 -> Rabs p <= 0.000003 -> Rabs (red l c p) <= 0.0454.
Proof.
  intros Hc Hp. assert (N := redN_b c p Hc Hp l). assert (D := redD_b c p Hc Hp l). unfold red, Rdiv. rewrite Rabs_mult. assert (0 < / redD l c p <= / 0.9169) by (split; [apply Rinv_0_lt_compat; lra|apply Rinv_le_contravar; lra]).
  rewrite (Rabs_pos_eq (/ _)) by lra. pose proof (Rabs_pos (redN l c p)). apply Rle_trans with (0.0416 * / 0.9169); [apply Rmult_le_compat; lra|lra].
Qed.
Lemma red_lip l c p l' c' p' : 0.917 <= c <= 0.918 -> 0.917 <= c' <= 0.918 -> Rabs p <= 0.000003 -> Rabs p' <= 0.000003 ->
  Rabs (atan (red l c p) - atan (red l' c' p')) <= 0.0915 * Rabs (l - l') + 0.6 * Rabs (c - c') + 1.15 * Rabs (p - p').
Proof.
  intros Hc Hc' Hp Hp'. eapply Rle_trans; [apply atan_lip|]. assert (A := red_lon c p Hc Hp l l').
  assert (S1 := abs_sin l'). assert (S2 := abs_cos l'). pose proof (Rabs_pos (c - c')) as P1. pose proof (Rabs_pos (p - p')) as P2.
  assert (Hsk : Rabs (sin l' * cos l') <= 0.5) by (assert (U := sc1 l'); pose proof (Rle_0_sqr (sin l' - cos l')); pose proof (Rle_0_sqr (sin l' + cos l')); unfold Rsqr in *; apply Rabs_le; lra).
  assert (Hss : Rabs (sin l' * sin l') <= 1 * 1) by (apply Rabs_prod_le; assumption).
  assert (B : Rabs (red l' c p - red l' c' p') <= (0.5 * Rabs (c - c') + Rabs (p - p')) / 0.9169 + 0.0416 * (Rabs (c - c') + Rabs (p - p')) / (0.9169 * 0.9169)).
  { unfold red. apply div_diff; [lra|apply redD_b; assumption|apply redD_b; assumption|apply redN_b; assumption| |].
    - unfold redN. replace (_ - _) with (- ((c - c') * (sin l' * cos l')) + (p - p') * cos l') by ring. eapply Rle_trans; [apply Rabs_triang|]. rewrite Rabs_Ropp, !Rabs_mult. rewrite Rabs_mult in Hsk.
      pose proof (Rabs_pos (sin l')). pose proof (Rabs_pos (cos l')). nra.
    - unfold redD. replace (_ - _) with ((c - c') * (sin l' * sin l') - (p - p') * sin l') by ring. eapply Rle_trans; [apply Rabs_triang|]. rewrite Rabs_Ropp, !Rabs_mult. rewrite Rabs_mult in Hss.
      pose proof (Rabs_pos (sin l')). nra. }
  replace (red l c p - red l' c' p') with ((red l c p - red l' c p) + (red l' c p - red l' c' p')) by ring. eapply Rle_trans; [apply Rabs_triang|]. lra.
Qed.
Lemma tan_lip_small b b' : Rabs b <= 0.001 -> Rabs b' <= 0.001 -> Rabs (tan b - tan b') <= 1.001 * Rabs (b - b').
Proof.
  assert (W : forall x y, -0.001 <= x <= 0.001 -> -0.001 <= y <= 0.001 -> x < y -> Rabs (tan y - tan x) <= 1.001 * (y - x)).
  { intros x y Hx Hy Hxy. destruct (MVT_cor2 tan (fun z => 1 + tan z ^ 2) x y Hxy) as (z & Hz & Bz).
    - intros z Hz. apply is_derive_Reals. assert (0 < cos z) by (apply cos_gt_0; assert (1.5 < PI / 2) by interval; lra). evar_last. { apply is_derive_tan. lra. } unfold tan. ring.
    - rewrite Hz, Rabs_mult, (Rabs_pos_eq (y - x)) by lra. apply Rmult_le_compat_r; [lra|]. assert (B : -0.001 <= z <= 0.001) by lra. clear - B. unfold tan. interval. }
  intros H H'. apply Rabs_le_inv in H, H'. destruct (Rtotal_order b b') as [L|[->|L]].
  - specialize (W b b' ltac:(lra) ltac:(lra) L). rewrite Rabs_minus_sym, (Rabs_left1 (b - b')) by lra. lra.
  - rewrite !Rminus_eq_0, Rabs_R0. lra.
  - specialize (W b' b ltac:(lra) ltac:(lra) L). rewrite (Rabs_pos_eq (b - b')) by lra. lra.
Qed.
(** Right ascension: longitude minus the reduction to the equator. *)
Lemma ra_red l b e a d : 0.408 <= e <= 0.4102 -> Rabs b <= 0.000006 -> equatorial l b e a d ->
  exists k : Z, a = l - atan (red l (cos e) (tan b * sin e)) + 2 * PI * IZR k.
Proof.
  intros He Hb (E1 & E2 & _ & Bd). assert (Cb : 0.99 < cos b) by (apply Rabs_le_inv in Hb; clear - Hb; interval).
  assert (Hc : 0.917 <= cos e <= 0.918) by (split; interval).
  assert (Hp : Rabs (tan b * sin e) <= 0.000003).
  { apply Rabs_le_inv in Hb. unfold tan. clear - He Hb. interval. }
  set (c := cos e) in *. set (p := tan b * sin e) in *. assert (B := redD_b c p Hc Hp l).
  assert (Ep : cos b * p = sin b * sin e) by (unfold p, tan; field; lra).
  assert (F1 : cos d * sin (l - a) = cos b * redN l c p).
  { rewrite sin_minus. replace (cos d * (sin l * cos a - cos l * sin a)) with (sin l * (cos d * cos a) - cos l * (cos d * sin a)) by ring. rewrite E1, E2, <- Ep. unfold redN. ring. }
  assert (F2 : cos d * cos (l - a) = cos b * redD l c p).
  { rewrite cos_minus. replace (cos d * (cos l * cos a + sin l * sin a)) with (cos l * (cos d * cos a) + sin l * (cos d * sin a)) by ring. rewrite E1, E2, <- Ep. unfold redD.
    replace 1 with (sin l * sin l + cos l * cos l) at 1 by apply sc1. ring. }
  assert (Cd : 0 <= cos d) by (apply cos_ge_0; lra). assert (P2 : 0 < cos b * redD l c p) by (apply Rmult_lt_0_compat; lra).
  assert (Cd' : 0 < cos d) by (destruct Cd as [Cd|Cd]; [exact Cd|rewrite <- Cd in F2; lra]). assert (Cla : 0 < cos (l - a)) by (apply (Rmult_lt_reg_l (cos d)); lra).
  set (w := atan (red l c p)). assert (Cw : 0 < cos w) by (assert (W := atan_bound (red l c p)); apply cos_gt_0; unfold w; lra).
  assert (Tw : sin w = red l c p * cos w). { assert (T := atan_right_inv (red l c p)). fold w in T. rewrite <- T. unfold tan. field. lra. }
  assert (F3 : sin (l - a) = red l c p * cos (l - a)).
  { apply (Rmult_eq_reg_l (cos d)); [|lra]. rewrite F1. replace (cos d * (red l c p * cos (l - a))) with (red l c p * (cos d * cos (l - a))) by ring. rewrite F2. unfold red. field. lra. }
  destruct (small_tan (l - a - w) 0) as (k & Hk).
  - rewrite cos_minus, F3, Tw. replace (cos (l - a) * cos w + red l c p * cos (l - a) * (red l c p * cos w)) with (cos (l - a) * cos w * (1 + red l c p * red l c p)) by ring.
    apply Rmult_lt_0_compat; [apply Rmult_lt_0_compat; assumption|]. pose proof (Rle_0_sqr (red l c p)). unfold Rsqr in *. lra.
  - rewrite sin_minus, F3, Tw. replace (red l c p * cos (l - a) * cos w - cos (l - a) * (red l c p * cos w)) with 0 by ring. rewrite Rabs_R0. lra.
  - exists (- k)%Z. assert (Z : l - a - w - 2 * PI * IZR k = 0). { pose proof (Rabs_pos (l - a - w - 2 * PI * IZR k)). destruct (Req_dec (l - a - w - 2 * PI * IZR k) 0) as [|Hn]; [assumption|]. apply Rabs_no_R0 in Hn. lra. }
    rewrite opp_IZR. lra.
Qed.

(** ** Declination *)
Lemma dec_lip l b e a d l' b' e' a' d' : 0.408 <= e <= 0.4102 -> 0.408 <= e' <= 0.4102 -> Rabs b <= 0.000006 -> Rabs b' <= 0.000006 ->
  equatorial l b e a d -> equatorial l' b' e' a' d' ->
  Rabs (d - d') <= 0.4372 * Rabs (l - l') + 1.1 * Rabs (b - b') + 1.1 * Rabs (e - e').
Proof.
  intros He He' Hb Hb' (_ & _ & Ed & Rd) (_ & _ & Ed' & Rd').
  assert (S : forall e, 0.408 <= e <= 0.4102 -> Rabs (sin e) <= 0.3988) by (intros x Hx; apply Rabs_le; split; interval).
  assert (SB : forall b, Rabs b <= 0.000006 -> Rabs (sin b) <= 0.000006) by (intros x Hx; eapply Rle_trans; [|exact Hx]; replace (sin x) with (sin x - sin 0) by (rewrite sin_0; ring); replace x with (x - 0) at 2 by ring; apply sin_lip).
  assert (D1 : forall l b e d, 0.408 <= e <= 0.4102 -> Rabs b <= 0.000006 -> sin d = sin b * cos e + cos b * sin l * sin e -> - (PI / 2) <= d <= PI / 2 -> Rabs d <= 0.42).
  { intros l0 b0 e0 d0 H1 H2 H3 H4. apply (dec_small d0 _ H4 H3). eapply Rle_trans; [apply Rabs_triang|].
    assert (U1 : Rabs (sin b0 * cos e0) <= 0.000006 * 1) by (apply Rabs_prod_le; [apply SB, H2|apply abs_cos]).
    assert (U2 : Rabs (cos b0 * sin l0 * sin e0) <= 1 * 1 * 0.3988) by (repeat apply Rabs_prod_le; [apply abs_cos|apply abs_sin|apply S, H1]). lra. }
  assert (H1 := D1 _ _ _ _ He Hb Ed Rd). assert (H2 := D1 _ _ _ _ He' Hb' Ed' Rd').
  eapply Rle_trans; [apply (sin_expand d d' H1 H2)|]. rewrite Ed, Ed'.
  set (x := Rabs (l - l')). set (y := Rabs (b - b')). set (z := Rabs (e - e')). assert (Px : 0 <= x) by apply Rabs_pos. assert (Py : 0 <= y) by apply Rabs_pos. assert (Pz : 0 <= z) by apply Rabs_pos.
  assert (L1 : Rabs (sin l - sin l') <= x) by apply sin_lip. assert (L2 : Rabs (sin e - sin e') <= z) by apply sin_lip. assert (L3 : Rabs (cos e - cos e') <= z) by apply cos_lip.
  assert (L4 : Rabs (sin b - sin b') <= y) by apply sin_lip. assert (L5 : Rabs (cos b - cos b') <= y) by apply cos_lip.
  assert (M1 := mul_diff _ (cos e) _ (cos e') _ 1 _ _ (SB b Hb) (abs_cos e') L4 L3).
  assert (CB : Rabs (cos b - cos b') <= 0.000012 * y).
  { rewrite form2. rewrite !Rabs_mult, (Rabs_left (-2)) by lra. assert (A1 : Rabs (sin ((b - b') / 2)) <= y / 2). { replace (sin ((b - b') / 2)) with (sin ((b - b') / 2) - sin 0) by (rewrite sin_0; ring). eapply Rle_trans; [apply sin_lip|]. replace ((b - b') / 2 - 0) with ((b - b') * / 2) by field. rewrite Rabs_mult, (Rabs_pos_eq (/ 2)) by lra. unfold y. lra. }
    assert (A2 : Rabs (sin ((b + b') / 2)) <= 0.000006). { apply SB. apply Rabs_le_inv in Hb, Hb'. apply Rabs_le. lra. }
    pose proof (Rabs_pos (sin ((b - b') / 2))). pose proof (Rabs_pos (sin ((b + b') / 2))). nra. }
  assert (M2 := mul_diff (cos b) (sin l) (cos b') (sin l') 1 1 _ _ (abs_cos b) (abs_sin l') CB L1).
  assert (CS : Rabs (cos b * sin l) <= 1 * 1) by (apply Rabs_prod_le; [apply abs_cos|apply abs_sin]).
  assert (M3 := mul_diff (cos b * sin l) (sin e) (cos b' * sin l') (sin e') _ _ _ _ CS (S e' He') M2 L2).
  assert (M : Rabs (sin b * cos e + cos b * sin l * sin e - (sin b' * cos e' + cos b' * sin l' * sin e')) <= 0.3988 * x + 1.0001 * y + 1.00001 * z).
  { replace (_ - _) with ((sin b * cos e - sin b' * cos e') + (cos b * sin l * sin e - cos b' * sin l' * sin e')) by ring. eapply Rle_trans; [apply Rabs_triang|]. lra. }
  lra.
Qed.

(** ** Mean longitude minus longitude *)
Definition p_gap (x : R) : R := p_L x + deg 0.0057183 - p_l x.
Definition t_gap (x : R) : R := t_l0 x + t_dpsi x * cos (t_obl x) - u_lon x.
Definition n_gap (x : R) : R := (n_m x + n_dpsi x * cos (n_eps x)) * (PI / 180) - m_lam x.
Section Gap.
  Variables s s' : R.
  Hypothesis Hs : in_ns_range s.
  Hypothesis Hs' : in_ns_range s'.
  Let D : R := Rabs (s - s').
  Let P : 0 <= D. Proof. apply Rabs_pos. Qed.
  Lemma p_gap_lip : Rabs (p_gap s - p_gap s') <= 0.0000000069 * D.
  Proof.
    assert (H2 := p_g_lip s s'). assert (H3 := p_omega_lip s s'). fold D in H2, H3.
    assert (G1 := scal_sin #3.338320972e-2 _ _ _ ltac:(q2; lra) H2).
    assert (H2' : Rabs (#2 * p_g s - #2 * p_g s') <= 0.000000398196 * D) by (replace (#2 * p_g s - #2 * p_g s') with (2 * (p_g s - p_g s')) by (q2; lra); rewrite Rabs_mult, (Rabs_pos_eq 2) by lra; lra).
    assert (G2 := scal_sin #3.497596876e-4 _ _ _ ltac:(q2; lra) H2').
    assert (G3 := scal_sin #8.689729360e-6 _ _ _ ltac:(q2; lra) H3).
    unfold p_gap, p_l. apply Rabs_le_inv in G1, G2, G3. clear H2 H3 H2'. generalize (p_L s) (p_L s') (deg 0.0057183). intros L L' dg.
    set (x1 := _ * sin (p_g s)) in *. set (x2 := _ * sin (p_g s')) in *. set (y1 := _ * sin (#2 * p_g s)) in *. set (y2 := _ * sin (#2 * p_g s')) in *. set (w1 := _ * sin (p_omega s)) in *. set (w2 := _ * sin (p_omega s')) in *.
    clearbody x1 x2 y1 y2 w1 w2 D. revert G1 G2 G3. q2. intros. apply Rabs_le. lra.
  Qed.
  Lemma p_gap_b : Rabs (p_gap s) <= 0.036.
  Proof. assert (H := p_L_l s). unfold p_gap. assert (0 <= deg 0.0057183 <= 0.00010) by (unfold deg; split; interval). apply Rabs_le_inv in H. apply Rabs_le. lra. Qed.
  Lemma t_gap_lip : Rabs (t_gap s - t_gap s') <= 0.0000000071 * D.
  Proof.
    assert (H2 := t_sec_lip s s' Hs Hs'). assert (H3 := t_dpsi_lip s s' Hs Hs'). assert (H4 := t_R_lip s s' Hs Hs'). assert (H6 := t_obl_lip s s' Hs Hs'). fold D in H2, H3, H4, H6. assert (B := t_R_b s Hs). assert (B' := t_R_b s' Hs').
    assert (H5 := inv_R (t_R s) (t_R s') _ ltac:(lra) ltac:(lra) H4).
    assert (C := mul_diff (t_dpsi s) (cos (t_obl s)) (t_dpsi s') (cos (t_obl s')) 0.0001 1 _ _ ltac:(unfold t_dpsi; rewrite Rabs_mult, Rabs_Ropp; pose proof (abs_sin (t_omg s)); pose proof (Rabs_pos (sin (t_omg s))); rewrite Rabs_pos_eq by (q2; lra); q2; lra) (abs_cos _) H3 (Rle_trans _ _ _ (cos_lip _ _) H6)).
    unfold t_gap, u_lon.
    replace (- #9.93087e-5 / t_R s) with (- #9.93087e-5 * (1 / t_R s)) by (q2; field; lra). replace (- #9.93087e-5 / t_R s') with (- #9.93087e-5 * (1 / t_R s')) by (q2; field; lra).
    apply Rabs_le_inv in C, H2, H3, H5. clear H4 H6. set (i := 1 / t_R s) in *. set (i' := 1 / t_R s') in *. set (w := t_dpsi s * _) in *. set (w' := t_dpsi s' * _) in *. clearbody i i' w w' D. q2. apply Rabs_le. lra.
  Qed.
  Lemma t_gap_b : Rabs (t_gap s) <= 0.036.
  Proof.
    assert (B := t_R_b s Hs). assert (Bj := t_JC_b s Hs). unfold t_gap, u_lon, t_dpsi, t_sec, t_JC2. generalize dependent (t_R s). intros r B. generalize dependent (t_JC s). intros j Bj. generalize (t_l0 s) (t_omg s) (t_obl s) (t_ma s). intros l o b m.
    match goal with |- Rabs ?e <= _ => replace e with (- #8.338601e-5 * sin o * cos b - ((#3.34161088e-2 - #8.40725e-5 * j - #2.443e-7 * j ^ 2) * sin m + (#3.489437e-4 - #1.76278e-6 * j) * sin (#2 * m)) + #9.93087e-5 / r + #8.338601e-5 * sin o) by (field; lra) end.
    q2. interval.
  Qed.
  Lemma L1_rest j : r_series T_L1 j = 628331966747 + r_series (tl T_L1) j.
  Proof. change T_L1 with ((628331966747.0, 0.0, 0.0)%Q :: tl T_L1) at 1. cbn [r_series r_term]. replace (Q2R 0.0) with 0 by q2r. replace (0 + 0 * j) with 0 by ring. rewrite cos_0. q2. lra. Qed.
  Lemma n_gap_lip : Rabs (n_gap s - n_gap s') <= 26 * Rabs (n_jce s - n_jce s').
  Proof.
    assert (J := n_jme_lip s s'). assert (H1 := n_dpsi_lip s s' Hs Hs'). assert (HR := n_R_lip s s' Hs Hs'). assert (He := n_eps_lip s s' Hs Hs'). assert (B := n_R_b s Hs). assert (B' := n_R_b s' Hs'). assert (Bp := n_dpsi_b s Hs).
    assert (C := mul_diff (n_dpsi s) (cos (n_eps s)) (n_dpsi s') (cos (n_eps s')) 0.00541 1 _ _ Bp (abs_cos _) H1 (Rle_trans _ _ _ (cos_lip _ _) He)).
    assert (H2 := inv_R (n_R s) (n_R s') _ ltac:(lra) ltac:(lra) HR). assert (Hj := n_jme_b s Hs). assert (Hj' := n_jme_b s' Hs').
    pose proof (Rabs_pos (n_jce s - n_jce s')) as Pd. set (d := Rabs (n_jce s - n_jce s')) in *. clear HR He. unfold n_gap, m_lam, n_m, nj_Lrad. set (j := n_jme s) in *. set (j' := n_jme s') in *.
    assert (Aj : Rabs j <= 0.3223) by (apply Rabs_le; lra). assert (Aj' : Rabs j' <= 0.3223) by (apply Rabs_le; lra).
    assert (K0 := rate_le T_L0 21820000000 j j' ltac:(vm_compute; reflexivity)).
    assert (K1a := series_le (tl T_L1) 230000 j ltac:(vm_compute; reflexivity)).
    assert (K1b := rate_le (tl T_L1) 1400000000 j j' ltac:(vm_compute; reflexivity)).
    assert (K1 := mul_diff _ _ _ _ _ _ _ _ K1a Aj' K1b (Rle_refl (Rabs (j - j')))).
    assert (K2 := term_lip T_L2 63000 60000000 2 _ j j' ltac:(vm_compute; reflexivity) ltac:(vm_compute; reflexivity) Aj Aj' ltac:(lra)).
    assert (K3 := term_lip T_L3 400 3000000 3 _ j j' ltac:(vm_compute; reflexivity) ltac:(vm_compute; reflexivity) Aj Aj' ltac:(lra)).
    assert (K4 := term_lip T_L4 200 200000 4 _ j j' ltac:(vm_compute; reflexivity) ltac:(vm_compute; reflexivity) Aj Aj' ltac:(lra)).
    assert (K5 := term_lip T_L5 10 20000 5 _ j j' ltac:(vm_compute; reflexivity) ltac:(vm_compute; reflexivity) Aj Aj' ltac:(lra)).
    assert (Q2 := pow_lip 2 j j' ltac:(lra) ltac:(lra)). assert (Q3 := pow_lip 3 j j' ltac:(lra) ltac:(lra)). assert (Q4 := pow_lip 4 j j' ltac:(lra) ltac:(lra)). assert (Q5 := pow_lip 5 j j' ltac:(lra) ltac:(lra)).
    cbn [INR] in *. rewrite J in *. rewrite !L1_rest.
    set (i := 1 / n_R s) in *. set (i' := 1 / n_R s') in *. set (w := n_dpsi s * _) in *. set (w' := n_dpsi s' * _) in *. set (u := n_dpsi s) in *. set (u' := n_dpsi s') in *.
    set (x0 := r_series T_L0 j) in *. set (y0 := r_series T_L0 j') in *. rewrite !(Rmult_plus_distr_r 628331966747). set (x1 := r_series (tl T_L1) j * j) in *. set (y1 := r_series (tl T_L1) j' * j') in *.
    set (x2 := r_series T_L2 j * j ^ 2) in *. set (y2 := r_series T_L2 j' * j' ^ 2) in *. set (x3 := r_series T_L3 j * j ^ 3) in *. set (y3 := r_series T_L3 j' * j' ^ 3) in *.
    set (x4 := r_series T_L4 j * j ^ 4) in *. set (y4 := r_series T_L4 j' * j' ^ 4) in *. set (x5 := r_series T_L5 j * j ^ 5) in *. set (y5 := r_series T_L5 j' * j' ^ 5) in *.
    set (a2 := j ^ 2) in *. set (a3 := j ^ 3) in *. set (a4 := j ^ 4) in *. set (a5 := j ^ 5) in *. set (b2 := j' ^ 2) in *. set (b3 := j' ^ 3) in *. set (b4 := j' ^ 4) in *. set (b5 := j' ^ 5) in *.
    assert (X : Rabs ((0.03032028 * (a2 - b2) + (a3 - b3) / 49931 - (a4 - b4) / 15300 - (a5 - b5) / 2000000 + (w - w') - (u - u') + 20.4898 / 3600 * (i - i'))) <= 101 * d).
    { apply Rabs_le_inv in Q2, Q3, Q4, Q5, C, H1, H2. clearbody a2 a3 a4 a5 b2 b3 b4 b5 w w' u u' i i' d. clear - Q2 Q3 Q4 Q5 C H1 H2 Pd. apply Rabs_le. lra. }
    set (y := _ + 20.4898 / 3600 * (i - i')) in X.
    assert (Y : Rabs (y * (PI / 180)) <= 101 * d * 0.0175) by (apply Rabs_prod_le; [exact X|apply Rabs_le; split; interval]).
    assert (Z : Rabs ((360007.6982779 * (PI / 180) - 6283.31966747) * (j - j')) <= 0.0001 * (d / 10)) by (apply Rabs_prod_le; [interval|rewrite J; lra]).
    match goal with |- Rabs ?e <= _ => replace e with (y * (PI / 180) + (360007.6982779 * (PI / 180) - 6283.31966747) * (j - j') - ((x0 - y0) + (x1 - y1) + (x2 - y2) + (x3 - y3) + (x4 - y4) + (x5 - y5)) / 100000000) by (unfold y; q2; field) end.
    set (yy := y * _) in *. set (zz := _ * (j - j')) in *. clearbody yy zz.
    clear K1a K1b. apply Rabs_le_inv in K0, K1, K2, K3, K4, K5, Y, Z. clearbody x0 x1 x2 x3 x4 x5 y0 y1 y2 y3 y4 y5 d. revert K0 K1 K2 K3 K4 K5 Y Z. clear - Pd. q2. intros. apply Rabs_le. lra.
  Qed.
  Lemma n_gap_b : Rabs (n_gap s) <= 0.036.
  Proof.
    assert (B := n_R_b s Hs). assert (Bp := Rabs_le_inv _ _ (n_dpsi_b s Hs)). assert (Hj := n_jme_b s Hs). assert (Be := n_eps_b s Hs). unfold n_gap, m_lam, n_m, nj_Lrad.
    generalize dependent (n_jme s). intros j Hj. generalize dependent (n_R s). intros r B. generalize dependent (n_dpsi s). intros u Bu. generalize dependent (n_eps s). intros e Be.
    assert (H0 : Rabs (r_series T_L0 j - #175347046.0) <= #3405500) by (apply series_head_le; [reflexivity|vm_compute; reflexivity|discriminate]).
    assert (H1 : Rabs (r_series T_L1 j - #628331966747.0) <= #211800) by (apply series_head_le; [reflexivity|vm_compute; reflexivity|discriminate]).
    assert (H2 : Rabs (r_series T_L2 j) <= #62100) by (apply series_le; vm_compute; reflexivity).
    assert (H3 : Rabs (r_series T_L3 j) <= #350) by (apply series_le; vm_compute; reflexivity).
    assert (H4 : Rabs (r_series T_L4 j) <= #130) by (apply series_le; vm_compute; reflexivity).
    assert (H5 : Rabs (r_series T_L5 j) <= #2) by (apply series_le; vm_compute; reflexivity).
    apply Rabs_le_inv in H0, H1, H2, H3, H4, H5.
    set (r0 := r_series T_L0 j - #175347046.0) in *. replace (r_series T_L0 j) with (r0 + #175347046.0) by (unfold r0; ring).
    set (r1 := r_series T_L1 j - #628331966747.0) in *. replace (r_series T_L1 j) with (r1 + #628331966747.0) by (unfold r1; ring).
    clearbody r0 r1.
    generalize dependent (r_series T_L2 j). generalize dependent (r_series T_L3 j). generalize dependent (r_series T_L4 j). generalize dependent (r_series T_L5 j).
    intros r5 H5 r4 H4 r3 H3 r2 H2.
    match goal with |- Rabs ?x <= _ => replace x with
      ((#280.4664567 * (PI / 180) - #1.75347046 - PI) + (#360007.6982779 * (PI / 180) - #6283.31966747) * j
       + (#0.03032028 * j ^ 2 + j ^ 3 / #49931 - j ^ 4 / #15300 - j ^ 5 / #2000000) * (PI / 180)
       - (r0 + r1 * j + r2 * j ^ 2 + r3 * j ^ 3 + r4 * j ^ 4 + r5 * j ^ 5) / #1e8 + (u * (cos e - 1) + 20.4898 / 3600 * (1 / r)) * (PI / 180)) by (q2; field; lra) end.
    q2. interval.
  Qed.
End Gap.
