(** * Sky: spherical astronomy of the horizon frame (specification and facts, reals only)

    Local frame at latitude [phi]: S(outh), W(est), U(p).  [sun_*] are the coordinates of the unit
    vector towards declination [del] and hour angle [h] (positive after noon). *)

From Coq Require Import Reals Lra Lia ZArith.
From Verif Require Import Num Ext.
Open Scope R_scope.

Definition sun_S (phi del h : R) : R := sin phi * cos del * cos h - cos phi * sin del.
Definition sun_W (phi del h : R) : R := cos del * sin h.
Definition sun_U (phi del h : R) : R := sin phi * sin del + cos phi * cos del * cos h.

(** [z] is the angle between the vertical and the sun. *)
Definition is_zenith (z phi del h : R) : Prop := 0 <= z <= PI /\ cos z = sun_U phi del h.
(** [az] is the direction of the horizontal projection, from south, positive to the west. *)
Definition is_azimuth (az phi del h : R) : Prop :=
  exists rho, 0 <= rho /\ sun_S phi del h = rho * cos az /\ sun_W phi del h = rho * sin az.

Lemma sc1 x : sin x * sin x + cos x * cos x = 1.
Proof. pose proof (sin2_cos2 x). unfold Rsqr in *. lra. Qed.

Lemma sun_unit phi del h :
  sun_S phi del h ^ 2 + sun_W phi del h ^ 2 + sun_U phi del h ^ 2 = 1.
Proof.
  unfold sun_S, sun_W, sun_U.
  pose proof (sc1 phi) as Hp. pose proof (sc1 del) as Hd. pose proof (sc1 h) as Hh.
  set (sp := sin phi) in *. set (cp := cos phi) in *. set (sd := sin del) in *.
  set (cd := cos del) in *. set (sh := sin h) in *. set (ch := cos h) in *.
  replace ((sp * cd * ch - cp * sd) ^ 2 + (cd * sh) ^ 2 + (sp * sd + cp * cd * ch) ^ 2)
    with ((sp*sp + cp*cp) * (cd*cd*(ch*ch) + sd*sd) + cd*cd*(sh*sh)) by ring.
  rewrite Hp. replace (1 * (cd*cd*(ch*ch) + sd*sd) + cd*cd*(sh*sh)) with (cd*cd*(sh*sh+ch*ch)+sd*sd) by ring.
  rewrite Hh. lra.
Qed.

Lemma sun_U_bound phi del h : -1 <= sun_U phi del h <= 1.
Proof.
  pose proof (sun_unit phi del h) as H.
  pose proof (pow2_ge_0 (sun_S phi del h)). pose proof (pow2_ge_0 (sun_W phi del h)).
  split; nra.
Qed.

(** ** arctan2 *)
Lemma mul_pn a b : 0 < a -> b < 0 -> a * b < 0. Proof. nra. Qed.
Lemma mul_np a b : a < 0 -> 0 < b -> a * b < 0. Proof. nra. Qed.
Lemma mul_nn a b : a < 0 -> b < 0 -> 0 < a * b. Proof. nra. Qed.
Lemma Ratan2_range y x : - PI < Ratan2 y x <= PI.
Proof.
  unfold Ratan2. pose proof PI_RGT_0 as HP. pose proof (atan_bound (y / x)) as [H1 H2].
  destruct (Rlt_dec 0 x) as [Hx|Hx]; [lra|]. destruct (Rlt_dec x 0) as [Hx'|Hx'].
  - destruct (Rle_dec 0 y) as [Hy|Hy].
    + split; [lra|]. assert (atan (y / x) <= 0).
      { destruct (Req_dec y 0) as [->|Hy0].
        - unfold Rdiv. rewrite Rmult_0_l, atan_0. lra.
        - assert (y / x < 0). { apply mul_pn; [lra|]. apply Rinv_lt_0_compat; lra. }
          left. rewrite <- atan_0. now apply atan_increasing. }
      lra.
    + split; [|lra]. assert (0 < atan (y / x)).
      { rewrite <- atan_0. apply atan_increasing. apply mul_nn; [lra|]. apply Rinv_lt_0_compat; lra. }
      lra.
  - destruct (Rlt_dec 0 y); [lra|]. destruct (Rlt_dec y 0); lra.
Qed.

Lemma cos_atan_pos t : 0 < cos (atan t).
Proof. pose proof (atan_bound t). apply cos_gt_0; lra. Qed.

(** Polar coordinates: the point (x, y) at distance rho in direction Ratan2 y x. *)
Lemma Ratan2_polar y x :
  x = sqrt (x ^ 2 + y ^ 2) * cos (Ratan2 y x) /\ y = sqrt (x ^ 2 + y ^ 2) * sin (Ratan2 y x).
Proof.
  assert (Key : forall a b, 0 < a -> sqrt (a ^ 2 + b ^ 2) * cos (atan (b / a)) = a /\
                                      sqrt (a ^ 2 + b ^ 2) * sin (atan (b / a)) = b).
  { intros a b Ha.
    assert (Hc := cos_atan_pos (b / a)). assert (Ht := tan_atan (b / a)). unfold tan in Ht.
    assert (Hs : sin (atan (b / a)) = b / a * cos (atan (b / a))) by (rewrite <- Ht at 2; field; lra).
    assert (H1 := sc1 (atan (b / a))). rewrite Hs in H1.
    set (c := cos (atan (b / a))) in *.
    assert (Hcc : c * c * (a ^ 2 + b ^ 2) = a ^ 2).
    { replace (c * c * (a ^ 2 + b ^ 2)) with (a ^ 2 * (b / a * c * (b / a * c) + c * c)) by (field; lra).
      rewrite H1. ring. }
    assert (Hr : sqrt (a ^ 2 + b ^ 2) * c = a).
    { assert (H0 : 0 <= a ^ 2 + b ^ 2) by nra.
      assert (Hq := sqrt_sqrt _ H0). assert (Hq0 := sqrt_pos (a ^ 2 + b ^ 2)).
      set (q := sqrt (a ^ 2 + b ^ 2)) in *.
      assert ((q * c - a) * (q * c + a) = 0).
      { replace ((q * c - a) * (q * c + a)) with (q * q * (c * c) - a ^ 2) by ring. rewrite Hq. lra. }
      assert (0 < q * c + a) by nra. 
      apply Rmult_integral in H. lra. }
    split; [exact Hr|]. rewrite Hs. replace (sqrt (a ^ 2 + b ^ 2) * (b / a * c)) with (b / a * (sqrt (a ^ 2 + b ^ 2) * c)) by ring.
    rewrite Hr. field. lra. }
  unfold Ratan2. destruct (Rlt_dec 0 x) as [Hx|Hx].
  - destruct (Key x y Hx) as [H1 H2]. split; symmetry; assumption.
  - destruct (Rlt_dec x 0) as [Hx'|Hx'].
    + destruct (Key (- x) (- y)) as [H1 H2]; [lra|].
      replace (- y / - x) with (y / x) in * by (field; lra).
      replace ((- x) ^ 2 + (- y) ^ 2) with (x ^ 2 + y ^ 2) in * by ring.
      destruct (Rle_dec 0 y).
      * rewrite neg_cos, neg_sin. split; lra.
      * replace (atan (y / x) - PI) with (- (PI - atan (y / x))) by ring.
        rewrite cos_neg, sin_neg. replace (PI - atan (y / x)) with (- atan (y / x) + PI) by ring.
        rewrite neg_cos, neg_sin, cos_neg, sin_neg. split; lra.
    + assert (x = 0) by lra. subst x. replace (0 ^ 2 + y ^ 2) with (Rsqr y) by (unfold Rsqr; ring).
      rewrite sqrt_Rsqr_abs.
      destruct (Rlt_dec 0 y).
      * rewrite cos_PI2, sin_PI2, Rabs_pos_eq by lra. lra.
      * destruct (Rlt_dec y 0).
        -- rewrite cos_neg, sin_neg, cos_PI2, sin_PI2, Rabs_left by lra. lra.
        -- assert (y = 0) by lra. subst y. rewrite Rabs_R0, cos_0, sin_0. lra.
Qed.

Lemma Ratan2_neg y x : Ratan2 y x < 0 <-> y < 0.
Proof.
  pose proof PI_RGT_0 as HP. unfold Ratan2. pose proof (atan_bound (y / x)) as [H1 H2].
  destruct (Rlt_dec 0 x) as [Hx|Hx].
  - assert (Hs : atan (y / x) < 0 <-> y / x < 0).
    { split; intros H.
      - destruct (Rlt_or_le (y / x) 0) as [|Hn]; [assumption|].
        destruct (Req_dec (y / x) 0) as [E|E]; [rewrite E, atan_0 in H; lra|].
        assert (atan 0 < atan (y / x)) by (apply atan_increasing; lra). rewrite atan_0 in *. lra.
      - rewrite <- atan_0. now apply atan_increasing. }
    rewrite Hs. split; intros H.
    + apply Rnot_le_lt. intros Hy. assert (0 <= y / x) by (apply Rmult_le_pos; [lra|]; left; now apply Rinv_0_lt_compat). lra.
    + apply mul_np; [assumption|now apply Rinv_0_lt_compat].
  - destruct (Rlt_dec x 0) as [Hx'|Hx'].
    + destruct (Rle_dec 0 y); split; lra.
    + destruct (Rlt_dec 0 y); [split; lra|]. destruct (Rlt_dec y 0); split; lra.
Qed.

(** ** The two azimuth formulas of the code *)

(** soltrack, nrel: arctan2(sin H, cos H sin lat - tan dec cos lat). *)
Lemma azimuth_south phi del h :
  0 < cos del -> is_azimuth (Ratan2 (sin h) (cos h * sin phi - tan del * cos phi)) phi del h.
Proof.
  intros Hd. unfold is_azimuth, sun_S, sun_W.
  destruct (Ratan2_polar (sin h) (cos h * sin phi - tan del * cos phi)) as [Hx Hy].
  set (q := sqrt _) in *. set (a := Ratan2 _ _) in *.
  exists (cos del * q). split; [apply Rmult_le_pos; [lra|apply sqrt_pos]|].
  rewrite !Rmult_assoc, <- Hx, <- Hy. split; [|reflexivity]. unfold tan. field. lra.
Qed.

(** psa, iqbal: arctan2(-sin H, tan dec cos lat - sin lat cos H), turned by 180 degrees. *)
Definition turn (a : R) : R := where_ (Rltb a 0) (a + PI) (a - PI).
Lemma cos_turn a : cos (turn a) = - cos a.
Proof.
  unfold turn, where_. destruct (Rltb a 0); [apply neg_cos|].
  replace (a - PI) with (- (- a + PI)) by ring. now rewrite cos_neg, neg_cos, cos_neg.
Qed.
Lemma sin_turn a : sin (turn a) = - sin a.
Proof.
  unfold turn, where_. destruct (Rltb a 0); [apply neg_sin|].
  replace (a - PI) with (- (- a + PI)) by ring. rewrite sin_neg, neg_sin, sin_neg. ring.
Qed.
Lemma turn_range a : - PI < a <= PI -> - PI <= turn a < PI.
Proof. intros H. unfold turn, where_, Rltb. destruct (Rlt_dec a 0); lra. Qed.
Lemma azimuth_turn phi del h :
  0 < cos del -> is_azimuth (turn (Ratan2 (- sin h) (tan del * cos phi - sin phi * cos h))) phi del h.
Proof.
  intros Hd. unfold is_azimuth, sun_S, sun_W. rewrite cos_turn, sin_turn.
  destruct (Ratan2_polar (- sin h) (tan del * cos phi - sin phi * cos h)) as [Hx Hy].
  set (q := sqrt _) in *. set (a := Ratan2 _ _) in *.
  exists (cos del * q). split; [apply Rmult_le_pos; [lra|apply sqrt_pos]|].
  replace (cos del * q * - cos a) with (- cos del * (q * cos a)) by ring.
  replace (cos del * q * - sin a) with (- cos del * (q * sin a)) by ring.
  rewrite <- Hx, <- Hy. split; [|ring]. unfold tan. field. lra.
Qed.

(** Morning and afternoon. *)
Lemma azimuth_sign az phi del h :
  is_azimuth az phi del h -> 0 < cos del -> (0 < sin h -> 0 < sin az) /\ (sin h < 0 -> sin az < 0).
Proof.
  intros (rho & Hr & _ & Hw) Hd. unfold sun_W in Hw. split; intros Hs.
  - assert (0 < rho * sin az) by (rewrite <- Hw; nra). nra.
  - assert (rho * sin az < 0) by (rewrite <- Hw; nra). nra.
Qed.

(** The radius is the sine of the zenith angle. *)
Lemma azimuth_rho az z phi del h :
  is_azimuth az phi del h -> is_zenith z phi del h ->
  sun_S phi del h = sin z * cos az /\ sun_W phi del h = sin z * sin az.
Proof.
  intros (rho & Hr & HS & HW) [Hz Hc].
  assert (Hu := sun_unit phi del h). rewrite HS, HW, <- Hc in Hu.
  assert (Hsz : 0 <= sin z) by (apply sin_ge_0; lra).
  assert (H1 := sc1 az). assert (H2 := sc1 z).
  assert (rho * rho = sin z * sin z).
  { replace (rho * rho) with (rho * rho * (sin az * sin az + cos az * cos az)) by (rewrite H1; ring). nra. }
  assert (rho = sin z). { apply Rsqr_inj; [assumption..|]. unfold Rsqr. assumption. }
  subst rho. now split.
Qed.
(** ... so away from zenith and nadir the azimuth is determined up to whole turns. *)
Lemma azimuth_unique az az' z phi del h :
  is_azimuth az phi del h -> is_azimuth az' phi del h -> is_zenith z phi del h -> sin z <> 0 ->
  cos az = cos az' /\ sin az = sin az'.
Proof.
  intros H H' Hz Hs. destruct (azimuth_rho _ _ _ _ _ H Hz) as [H1 H2]. destruct (azimuth_rho _ _ _ _ _ H' Hz) as [H3 H4].
  split; apply Rmult_eq_reg_l with (sin z); congruence || assumption.
Qed.
