(** * AlmanacIqbal: the Fourier series of the iqbal algorithm against the almanac, 1677-2262 *)
From Coq Require Import ZArith QArith Reals Bool List String Lra Lia.
From Flocq Require Import Core.Raux.
From Interval Require Import Tactic.
From Verif Require Import Num Ext ExtLemmas Sky SkyClose AstroTac AstroSpec CalendarSpec CalendarLemmas Almanac AlmanacR AlmanacSky AlmanacTime.
Import ListNotations.
Open Scope R_scope.

(** ** Phase of the mean longitude on 1 January *)
Definition phase_num (y : Z) : Z := (28046646 * 73050 + 3600076983 * (2 * jan1 y - 21917))%Z.
Definition phase_n (y : Z) : Z := ((phase_num y - 100 * 7305000000) / (360 * 7305000000))%Z.
Definition phase_ok (y : Z) : bool := (Z.abs (phase_num y - 27936146 * 73050 - phase_n y * (360 * 7305000000)) <=? 111260 * 73050)%Z.
Fixpoint phases (n : nat) (y : Z) : bool := match n with O => true | S n => phase_ok y && phases n (y + 1) end.
Lemma phases_spec n : forall y, phases n y = true -> forall z, (y <= z < y + Z.of_nat n)%Z -> phase_ok z = true.
Proof.
  induction n; intros y H z Hz; [lia|]. cbn [phases] in H. apply andb_prop in H as [H1 H2].
  destruct (Z.eq_dec z y) as [->|]; [exact H1|]. apply (IHn (y + 1)%Z H2). lia.
Qed.
Lemma phases_all : phases 588 1676 = true.
Proof. vm_compute. reflexivity. Qed.

Definition rate : R := 36000.76983 / 36525.
Definition Ls (x : R) : R := deg (279.36146 + rate * x).
Definition Ms (x : R) : R := deg (279.36146 - 282.42 + rate * x).
Definition Cs (x : R) : R := deg (1.914602 * sin (Ms x) + 0.019993 * sin (2 * Ms x) + 0.000289 * sin (3 * Ms x)).
Definition ls (x : R) : R := Ls x + Cs x.
Definition obs : R := deg 23.439291.

(** ** The published series against a fixed ecliptic, one variable *)
Definition ia (x : R) : R := 2 * PI * x / 365.
Lemma dec_base x : 1 <= x <= 367 -> Rabs (sin (iqbal_dec (ia x)) - sin obs * sin (ls x)) <= 0.0055.
Proof.
  intros H. unfold iqbal_dec, ia, obs, ls, Cs, Ls, Ms, rate, deg. apply Rabs_le. split; interval with (i_bisect x, i_taylor x, i_degree 5).
Qed.
Definition qs : R := (1 - cos obs) / (1 + cos obs).
Definition gs (x : R) : R := qs * sin (2 * ls x) / (1 + qs * cos (2 * ls x)).
Lemma eot_base x : 1 <= x <= 367 -> Rabs (iqbal_eot (ia x) - 720 / PI * (atan (gs x) - Cs x)) <= 0.32.
Proof.
  intros H. unfold iqbal_eot, ia, gs, qs, obs, ls, Cs, Ls, Ms, rate, deg. apply Rabs_le. split; interval with (i_bisect x, i_taylor x, i_degree 5).
Qed.
Definition es : R := 0.016708634.
Definition Rs (x : R) : R := 1.000001018 * (1 - es ^ 2) / (1 + es * cos (Ms x + Cs x)).
Lemma ecf_base x : 1 <= x <= 367 -> Rabs (iqbal_ecf (ia x) - 1 / Rs x ^ 2) <= 0.0002.
Proof.
  intros H. unfold iqbal_ecf, ia, Rs, es, Cs, Ms, rate, deg. apply Rabs_le. split; interval with (i_bisect x, i_taylor x, i_degree 5).
Qed.

Lemma year_range c y s : calendar c -> (-9223372037 <= s <= 9223372037)%Z -> (86400 * c y 1 1 <= s < 86400 * c (y + 1) 1 1)%Z -> (1676 <= y < 1676 + Z.of_nat 588)%Z.
Proof.
  intros Hc Hs H. rewrite !(calendar_unique c Hc) in H by lia. unfold gregorian, before_month in H. cbn [Z.ltb Z.compare Pos.compare Pos.compare_cont] in H. rewrite !andb_false_r in H.
  unfold jan1 in H. change (Z.of_nat 588) with 588%Z. Z.div_mod_to_equations. lia.
Qed.
Lemma phase_near y : phase_ok y = true -> exists n, Rabs (280.46646 + 36000.76983 / 36525 * (IZR (jan1 y) - 10958.5) - 279.36146 - 360 * IZR n) <= 1.1126.
Proof.
  intros H. unfold phase_ok in H. apply Z.leb_le in H. exists (phase_n y). generalize dependent (phase_n y). intros n H. unfold phase_num in H.
  apply Z.abs_le in H as [H1 H2]. apply IZR_le in H1, H2.
  repeat rewrite ?minus_IZR, ?plus_IZR, ?mult_IZR, ?opp_IZR in H1, H2. generalize dependent (IZR (jan1 y)). intros j H1 H2. generalize dependent (IZR n). intros m H1 H2.
  change (IZR (- (111260 * 73050))) with (-8127543000) in H1. change (IZR (111260 * 73050)) with 8127543000 in H2. apply Rabs_le. lra.
Qed.

Lemma rate_split j x : 36000.76983 / 36525 * (j - 10958.5) + 36000.76983 / 36525 * x = 36000.76983 * ((j - 10958.5 + x) / 36525).
Proof. lra. Qed.

Lemma sin_turn m n k e : Rabs (m - n - 2 * PI * IZR k) <= e -> Rabs (sin m - sin n) <= e /\ Rabs (sin (2 * m) - sin (2 * n)) <= 2 * e /\ Rabs (sin (3 * m) - sin (3 * n)) <= 3 * e /\ Rabs (cos m - cos n) <= e.
Proof.
  intros H. assert (P : forall j : Z, (0 < j)%Z -> Rabs (sin (IZR j * m) - sin (IZR j * n)) <= IZR j * e).
  { intros j Hj. assert (J : 0 < IZR j) by (apply IZR_lt; exact Hj). replace (sin (IZR j * m)) with (sin (IZR j * m - 2 * PI * IZR (j * k))) by apply sin_2kpi.
    eapply Rle_trans; [apply sin_lip|]. rewrite mult_IZR. replace (IZR j * m - 2 * PI * (IZR j * IZR k) - IZR j * n) with (IZR j * (m - n - 2 * PI * IZR k)) by ring.
    rewrite Rabs_mult, (Rabs_pos_eq (IZR j)) by lra. apply Rmult_le_compat_l; lra. }
  split; [generalize (P 1%Z ltac:(lia)); rewrite !Rmult_1_l; trivial|]. split; [apply (P 2%Z); lia|]. split; [apply (P 3%Z); lia|].
  replace (cos m) with (cos (m - 2 * PI * IZR k)) by apply cos_2kpi. eapply Rle_trans; [apply cos_lip|]. replace (m - 2 * PI * IZR k - n) with (m - n - 2 * PI * IZR k) by ring. exact H.
Qed.
(** From sines to angles. *)
Lemma asin_close d d' e : -0.411 <= d <= 0.411 -> -0.411 <= d' <= 0.411 -> Rabs (sin d - sin d') <= e -> e <= 0.0157 -> Rabs (d - d') <= 1.0912 * e.
Proof.
  intros B B' H He. set (u := (d - d') / 2). set (v := (d + d') / 2). assert (E : sin d - sin d' = 2 * cos v * sin u) by (unfold u, v; rewrite form4; ring).
  assert (Hv : 0.9167 <= cos v <= 1) by (assert (-0.411 <= v <= 0.411) by (unfold v; lra); clearbody v; interval).
  assert (K : forall u, 0 <= u <= 0.411 -> 2 * cos v * sin u <= 0.0157 -> 0.9999 * u <= sin u).
  { clear - Hv. intros u Hu Hs. destruct (Req_dec u 0) as [->|Hn]; [rewrite sin_0; lra|].
    destruct (MVT_cor2 sin cos 0 u ltac:(lra)) as (w & Hw & Bw); [intros; apply derivable_pt_lim_sin|]. rewrite sin_0, !Rminus_0_r in Hw.
    assert (W1 : 0 <= w <= 0.411) by lra. assert (0.9166 <= cos w) by (clear - W1; interval). assert (0.9166 * u <= sin u) by nra. assert (u <= 0.0094) by nra. assert (W2 : 0 <= w <= 0.0094) by lra. assert (0.9999 <= cos w) by (clear - W2; interval). nra. }
  assert (Bu : -0.411 <= u <= 0.411) by (unfold u; lra). rewrite E in H. apply Rabs_le_inv in H. replace (d - d') with (2 * u) by (unfold u; field). clearbody u v.
  destruct (Rle_or_lt 0 u) as [Hp|Hn].
  - assert (Hk := K u ltac:(lra) ltac:(lra)). apply Rabs_le. nra.
  - assert (Hk := K (- u) ltac:(lra)). rewrite sin_neg in Hk. specialize (Hk ltac:(nra)). apply Rabs_le. nra.
Qed.
Section At.
  Variables (c : Z -> Z -> Z -> Z) (y s : Z).
  Hypothesis Hc : calendar c.
  Hypothesis Hs : (-9223372037 <= s <= 9223372037)%Z.
  Hypothesis Hy : (86400 * c y 1 1 <= s < 86400 * c (y + 1) 1 1)%Z.
  Let x := year_day c y s.
  Let T := TT (IZR s).
  Lemma x_range : 1 <= x <= 367.
  Proof.
    unfold x, year_day. assert (H : (0 <= s - 86400 * c y 1 1 < 86400 * 366)%Z).
    { assert (E : (c (y + 1) 1 1 <= c y 1 1 + 366)%Z).
      { rewrite !(calendar_unique c Hc) by lia. unfold gregorian, before_month. cbn [Z.ltb Z.compare Pos.compare Pos.compare_cont]. rewrite !andb_false_r, jan1_next. unfold year_length. destruct (leap y); lia. }
      lia. }
    destruct H as [H1 H2]. apply IZR_le in H1. apply IZR_lt in H2. rewrite mult_IZR in H2. generalize dependent (IZR (s - 86400 * c y 1%Z 1%Z)). intros r H1 H2. lra.
  Qed.
  Lemma T_x : T = (IZR (jan1 y) - 10958.5 + x) / 36525.
  Proof.
    unfold T, TT, x, year_day. rewrite (calendar_unique c Hc) by lia. unfold gregorian, before_month. cbn [Z.ltb Z.compare Pos.compare Pos.compare_cont]. rewrite !andb_false_r.
    replace (jan1 y + (0 + 0) + 1 - 1)%Z with (jan1 y) by lia. rewrite minus_IZR, mult_IZR. generalize (IZR s) (IZR (jan1 y)). intros a b. lra.
  Qed.
  Lemma T_range : -3.223 <= T <= 2.623.
  Proof. apply TT_b. unfold in_ns_range. split; apply IZR_le; lia. Qed.
  Lemma L_phase : exists n, Rabs (al_L0 T - Ls x - 2 * PI * IZR n) <= 0.01948 /\ Rabs (al_M T - Ms x - 2 * PI * IZR (n + 1)) <= 0.1074.
  Proof.
    destruct (phase_near y (phases_spec _ _ phases_all y (year_range c y s Hc Hs Hy))) as (n & Hn). exists n. assert (B := T_range).
    assert (E : al_L0 T - Ls x - 2 * PI * IZR n = deg (280.46646 + 36000.76983 / 36525 * (IZR (jan1 y) - 10958.5) - 279.36146 - 360 * IZR n + 0.0003032 * T ^ 2)).
    { assert (E0 : 36000.76983 * T = 36000.76983 / 36525 * (IZR (jan1 y) - 10958.5) + 36000.76983 / 36525 * x).
      { rewrite (rate_split (IZR (jan1 y)) x). f_equal. apply T_x. }
      unfold al_L0, Ls, rate, deg. rewrite E0. field. }
    assert (E' : al_M T - Ms x - 2 * PI * IZR (n + 1) = al_L0 T - Ls x - 2 * PI * IZR n + deg (77.06265 + 282.42 - 360 - 1.71954 * T - 0.0004569 * T ^ 2 )).
    { rewrite plus_IZR. unfold al_L0, al_M, Ls, Ms, deg. generalize rate. intros r. lra. }
    split; [rewrite E; clear E'|rewrite E', E; clear E'].
    - generalize dependent (280.46646 + 36000.76983 / 36525 * (IZR (jan1 y) - 10958.5) - 279.36146 - 360 * IZR n). intros q Hq _. apply Rabs_le_inv in Hq. clearbody T. clear - Hq B. unfold deg. interval.
    - generalize dependent (280.46646 + 36000.76983 / 36525 * (IZR (jan1 y) - 10958.5) - 279.36146 - 360 * IZR n). intros q Hq _. apply Rabs_le_inv in Hq. clearbody T. clear - Hq B. unfold deg.
      interval with (i_prec 60).
  Qed.
  Let Bx := x_range.
  Let BT := T_range.
  Lemma C_near : Rabs (al_C T - Cs x) <= 0.00396.
  Proof.
    destruct L_phase as (n & _ & HM). destruct (sin_turn _ _ _ _ HM) as (S1 & S2 & S3 & _). assert (B := BT). clearbody Bx BT.
    unfold al_C, Cs. assert (U1 := SIN_bound (al_M T)). assert (U2 := SIN_bound (2 * al_M T)). assert (U3 := SIN_bound (3 * al_M T)).
    apply Rabs_le_inv in S1, S2, S3.
    generalize dependent (sin (al_M T)). intros a S1 U1. generalize dependent (sin (2 * al_M T)). intros b S2 U2. generalize dependent (sin (3 * al_M T)). intros d S3 U3.
    set (d1 := a - sin (Ms x)) in *. set (d2 := b - sin (2 * Ms x)) in *. set (d3 := d - sin (3 * Ms x)) in *.
    match goal with |- Rabs ?X <= _ => replace X with (deg (1.914602 * d1 + 0.019993 * d2 + 0.000289 * d3 + (- 0.004817 * T - 0.000014 * T ^ 2) * a - 0.000101 * T * b)) by (unfold d1, d2, d3, deg; generalize (sin (Ms x)) (sin (2 * Ms x)) (sin (3 * Ms x)); clear; intros; lra) end.
    clearbody d1 d2 d3 T. assert (Q1 : -0.1074 <= d1 <= 0.1074) by lra. assert (Q2 : -0.2148 <= d2 <= 0.2148) by lra. assert (Q3 : -0.3222 <= d3 <= 0.3222) by lra. clear - U1 U2 Q1 Q2 Q3 B. unfold deg. interval with (i_prec 60).
  Qed.
  Lemma lon_phase : exists n, Rabs (al_lon T - ls x - 2 * PI * IZR n) <= 0.02354.
  Proof.
    destruct L_phase as (n & HL & _). exists n. assert (H := C_near). clearbody Bx BT. unfold al_lon, ls. apply Rabs_le_inv in HL, H. assert (0 <= deg 0.00569 <= 0.0001) by (unfold deg; split; interval). apply Rabs_le. lra.
  Qed.
  Lemma obl_phase : Rabs (al_obl T - obs) <= 0.000732.
  Proof. assert (B := BT). clearbody Bx BT. unfold al_obl, obs, deg. clearbody T. clear - B. apply Rabs_le. split; interval. Qed.
  Lemma sindec_near : Rabs (sin (al_obl T) * sin (al_lon T) - sin obs * sin (ls x)) <= 0.0101.
  Proof.
    destruct lon_phase as (n & Hn). destruct (sin_turn _ _ _ _ Hn) as (S1 & _). assert (Ho := obl_phase). assert (So := sin_lip (al_obl T) obs).
    assert (Q : 0 <= sin obs <= 0.3978) by (unfold obs, deg; split; interval). assert (U := SIN_bound (al_lon T)).
    generalize dependent (sin (al_obl T)). intros so So. generalize dependent (sin obs). intros sb Q So. generalize dependent (sin (al_lon T)). intros sl S1 U. generalize dependent (sin (ls x)). intros sx S1.
    assert (D : Rabs (so - sb) <= 0.000732) by lra. clear - D Q S1 U. apply Rabs_le_inv in D, S1.
    replace (so * sl - sb * sx) with ((so - sb) * sl + sb * (sl - sx)) by ring. generalize dependent (so - sb). intros d1 D. generalize dependent (sl - sx). intros d2 S1. interval.
  Qed.
  Theorem iqbal_dec_near : Rabs (iqbal_dec (ia x) - al_dec T) <= 0.0171.
  Proof.
    assert (H1 := dec_base x Bx). assert (H2 := sindec_near). assert (Bo := al_obl_b T BT).
    assert (S : sin (al_dec T) = sin (al_obl T) * sin (al_lon T)).
    { destruct (al_dec_eq T) as (a & _ & _ & Q & _). rewrite Q, sin_0, cos_0. ring. }
    assert (Bd : -0.411 <= al_dec T <= 0.411).
    { assert (Bs : -0.3987 <= sin (al_dec T) <= 0.3987).
      { rewrite S. assert (0 <= sin (al_obl T) <= 0.39855) by (clear - Bo; generalize dependent (al_obl T); intros o Bo; split; interval). pose proof (SIN_bound (al_lon T)). split; nra. }
      destruct (al_dec_eq T) as (a & _ & _ & _ & Br). clear - Bs Br. generalize dependent (al_dec T). intros d Bs Br. assert (3.14 <= PI) by interval.
      split; apply Rnot_lt_le; intros C.
      - assert (sin d < sin (-0.411)) by (apply sin_increasing_1; lra). assert (sin (-0.411) <= -0.3992) by (clear; interval). lra.
      - assert (sin 0.411 < sin d) by (apply sin_increasing_1; lra). assert (0.3992 <= sin 0.411) by (clear; interval). lra. }
    assert (Bi : -0.411 <= iqbal_dec (ia x) <= 0.411).
    { assert (B := IqbalR.i_dec_b (ia x)). replace (iqbal_dec (ia x)) with (IqbalR.i_dec0 (ia x)); [lra|]. unfold IqbalR.i_dec0, iqbal_dec. rewrite IqbalR.Q2_, IqbalR.Q3_. q2. lra. }
    apply Rle_trans with (1.0912 * 0.0156); [|lra]. apply asin_close; [exact Bi|exact Bd| |lra]. rewrite S. apply Rabs_le_inv in H1, H2. apply Rabs_le. lra.
  Qed.
  Let q := (1 - cos (al_obl T)) / (1 + cos (al_obl T)).
  Lemma q_near : Rabs (q - qs) <= 0.00017 /\ 0.0428 <= q <= 0.0433.
  Proof.
    assert (Ho := obl_phase). unfold q. replace (al_obl T) with (obs + (al_obl T - obs)) by ring. generalize dependent (al_obl T - obs). intros e He. apply Rabs_le_inv in He. clear - He.
    unfold qs, obs, deg. split; [apply Rabs_le|]; split; interval with (i_autodiff e, i_prec 60).
  Qed.
  Lemma q_pos : 0.95 <= 1 + q * cos (2 * al_lon T).
  Proof. destruct q_near as [_ Bq]. pose proof (COS_bound (2 * al_lon T)). clearbody q. nra. Qed.
  Let g := q * sin (2 * al_lon T) / (1 + q * cos (2 * al_lon T)).
  Lemma g_near : Rabs (g - gs x) <= 0.0026.
  Proof.
    destruct lon_phase as (n & Hn). destruct (sin_turn _ _ _ _ Hn) as (_ & S2 & _). destruct q_near as [Hq Bq]. unfold g, gs.
    assert (Bs : 0.0428 <= qs <= 0.0433) by (unfold qs, obs, deg; split; interval).
    assert (S3 : Rabs (sin (2 * al_lon T) * cos (2 * ls x) - sin (2 * ls x) * cos (2 * al_lon T)) <= 0.04708).
    { replace (sin (2 * ls x) * cos (2 * al_lon T)) with (cos (2 * al_lon T) * sin (2 * ls x)) by ring. rewrite <- sin_minus.
      replace (2 * al_lon T - 2 * ls x) with (2 * (al_lon T - ls x - 2 * PI * IZR n) - 2 * PI * IZR (- (2 * n))) by (rewrite opp_IZR, mult_IZR; ring). rewrite sin_2kpi.
      generalize dependent (al_lon T - ls x - 2 * PI * IZR n). intros e He. assert (L := sin_lip (2 * e) 0). rewrite sin_0, !Rminus_0_r, Rabs_mult, (Rabs_pos_eq 2) in L by lra. lra. }
    assert (U1 := SIN_bound (2 * al_lon T)). assert (U2 := COS_bound (2 * al_lon T)). assert (U3 := COS_bound (2 * ls x)).
    clearbody q. revert Hq Bs Bq S2 S3 U1 U2 U3. generalize (sin (2 * al_lon T)) (cos (2 * al_lon T)) (sin (2 * ls x)) (cos (2 * ls x)) qs. clear. intros sl cl sx cx p Hq Bs Bq S2 S3 U1 U2 U3.
    apply Rabs_le_inv in Hq, S2, S3.
    replace (q * sl / (1 + q * cl) - p * sx / (1 + p * cx)) with (((q - p) * sl + p * (sl - sx) + q * p * (sl * cx - sx * cl)) / ((1 + q * cl) * (1 + p * cx))) by (field; split; nra).
    generalize dependent (q - p). intros d1 Hq. generalize dependent (sl - sx). intros d2 S2. generalize dependent (sl * cx - sx * cl). intros d3 S3.
    assert (Q2 : -0.04708 <= d2 <= 0.04708) by lra. clear S2. interval.
  Qed.
  Lemma atan_lip a b : Rabs (atan a - atan b) <= Rabs (a - b).
  Proof.
    assert (K : forall a b, a < b -> 0 <= atan b - atan a <= b - a).
    { clear. intros a b H. destruct (MVT_cor2 atan (fun t => / (1 + t ^ 2)) a b H) as (w & Hw & _); [intros; apply derivable_pt_lim_atan|].
      rewrite Hw. assert (0 < / (1 + w ^ 2) <= 1) by (assert (0 <= w ^ 2) by apply pow2_ge_0; split; [apply Rinv_0_lt_compat; lra|rewrite <- Rinv_1; apply Rinv_le_contravar; lra]). split; nra. }
    destruct (Rtotal_order a b) as [H|[->|H]].
    - specialize (K a b H). rewrite !Rabs_left1 by lra. lra.
    - rewrite !Rminus_eq_0, Rabs_R0. lra.
    - specialize (K b a H). rewrite !Rabs_pos_eq by lra. lra.
  Qed.
  (** The almanac's equation of time in closed form. *)
  Lemma eot_closed m : al_eot T m -> Rabs (m - 720 / PI * (atan g - al_C T)) <= 0.000114.
  Proof.
    intros (Bm & a & Q & k & Em). destruct Q as (Q1 & Q2 & _ & Bd). rewrite cos_0, sin_0 in Q2. rewrite cos_0 in Q1.
    set (u := al_lon T - a). set (D := cos (al_dec T)) in *. set (c0 := cos (al_obl T)) in *.
    assert (Bc : 0.9 <= c0 <= 1) by (assert (Bo := al_obl_b T BT); unfold c0; clear - Bo; generalize dependent (al_obl T); intros o Bo; split; interval).
    assert (HD : 0 <= D) by (unfold D; apply cos_ge_0; lra).
    assert (Pq := q_pos). assert (Eq : q = (1 - c0) / (1 + c0)) by reflexivity.
    assert (E1 : D * sin u = (1 + c0) / 2 * (q * sin (2 * al_lon T))).
    { unfold u. rewrite sin_minus, sin_2a, Eq. replace (D * (sin (al_lon T) * cos a - cos (al_lon T) * sin a)) with (sin (al_lon T) * (D * cos a) - cos (al_lon T) * (D * sin a)) by ring. rewrite Q1, Q2. field. lra. }
    assert (E2 : D * cos u = (1 + c0) / 2 * (1 + q * cos (2 * al_lon T))).
    { unfold u. rewrite cos_minus, cos_2a, Eq. replace (D * (cos (al_lon T) * cos a + sin (al_lon T) * sin a)) with (cos (al_lon T) * (D * cos a) + sin (al_lon T) * (D * sin a)) by ring. rewrite Q1, Q2.
      assert (S := sc1 (al_lon T)). apply Rmult_eq_reg_r with (1 + c0); [|lra]. field_simplify; [|lra]. nra. }
    assert (Eg : sin u = g * cos u).
    { apply Rmult_eq_reg_l with D; [|intros C; rewrite C in E2; nra]. rewrite E1. replace (D * (g * cos u)) with (g * (D * cos u)) by ring. rewrite E2. unfold g. field. lra. }
    assert (Pu : 0 < cos u). { assert (0 < D * cos u) by (rewrite E2; nra). destruct (Rle_or_lt (cos u) 0); [nra|assumption]. }
    destruct (small_tan (u - atan g) 0) as (n & Hn).
    { assert (Ca := cos_atan_pos g). assert (Ta := tan_atan g). unfold tan in Ta. assert (Sa : sin (atan g) = g * cos (atan g)) by (rewrite <- Ta at 2; field; lra).
      rewrite cos_minus, Sa, Eg. replace (cos u * cos (atan g) + g * cos u * (g * cos (atan g))) with (cos u * cos (atan g) * (1 + g * g)) by ring. apply Rmult_lt_0_compat; [nra|]. nra. }
    { assert (Ca := cos_atan_pos g). assert (Ta := tan_atan g). unfold tan in Ta. assert (Sa : sin (atan g) = g * cos (atan g)) by (rewrite <- Ta at 2; field; lra).
      rewrite sin_minus, Sa, Eg, Rmult_0_l. replace (g * cos u * cos (atan g) - cos u * (g * cos (atan g))) with 0 by ring. rewrite Rabs_R0. lra. }
    assert (Eu : u = atan g + 2 * PI * IZR n).
    { assert (P := Rabs_pos (u - atan g - 2 * PI * IZR n)). destruct (Req_dec (u - atan g - 2 * PI * IZR n) 0) as [|C]; [lra|]. apply Rabs_no_R0 in C. lra. }
    assert (P := PI_RGT_0).
    assert (E3 : m = 720 / PI * (atan g - al_C T) - 0.0001132 + 1440 * IZR (n + k)).
    { rewrite Em. replace a with (al_lon T - u) by (unfold u; ring). rewrite Eu. unfold al_lon, deg. rewrite plus_IZR. field_simplify; [|lra..]. assert (PI <> 0) by lra. apply Rmult_eq_reg_r with PI; [|assumption]. field_simplify; [|lra..]. lra. }
    assert (Bg := g_near). assert (Bgs : Rabs (gs x) <= 0.046).
    { unfold gs. assert (Bs : 0.0428 <= qs <= 0.0433) by (unfold qs, obs, deg; split; interval). generalize (2 * ls x). intros w. generalize dependent qs. intros p Bs. clear - Bs. interval. }
    assert (Ba : Rabs (atan g) <= 0.05).
    { assert (L := atan_lip g 0). rewrite atan_0, !Rminus_0_r in L. apply Rabs_le_inv in Bg, Bgs. assert (Rabs g <= 0.0486) by (apply Rabs_le; lra). lra. }
    assert (BC : Rabs (al_C T) <= 0.035).
    { unfold al_C, deg. generalize (al_M T). intros M. assert (B := BT). clearbody T. clear - B. interval. }
    assert (Z0 : (n + k = 0)%Z).
    { assert (R : 0 <= 720 / PI <= 229.2) by (split; interval). apply Rabs_le_inv in Ba, BC, Bm. assert (-25 <= 720 / PI * (atan g - al_C T) <= 25) by nra.
      set (j := (n + k)%Z) in *. assert (H1 : IZR j < 1) by lra. assert (H2 : -1 < IZR j) by lra. apply lt_IZR in H1, H2. lia. }
    rewrite E3, Z0. clear. generalize (720 / PI * (atan g - al_C T)). intros X. apply Rabs_le. lra.
  Qed.
  Theorem iqbal_eot_near m : al_eot T m -> Rabs (iqbal_eot (ia x) - m) <= 1.83.
  Proof.
    intros H. assert (H1 := eot_closed m H). assert (H2 := eot_base x Bx). assert (H3 := C_near). assert (H4 := Rle_trans _ _ _ (atan_lip g (gs x)) g_near).
    assert (P : 0 < 720 / PI <= 229.2) by (split; interval). 
    apply Rabs_le_inv in H1, H2, H3, H4. apply Rabs_le. generalize dependent (720 / PI). intros r H1 H2 P. generalize dependent (atan g). intros ag H1 H4. split; nra.
  Qed.
  Theorem iqbal_ecf_near : Rabs (iqbal_ecf (ia x) - 1 / al_R T ^ 2) <= 0.0047.
  Proof.
    assert (H1 := ecf_base x Bx). assert (H3 := C_near). destruct L_phase as (kk & _ & HM). assert (B := BT).
    assert (Hv : Rabs (cos (al_M T + al_C T) - cos (Ms x + Cs x)) <= 0.1114).
    { apply (sin_turn _ _ (kk + 1)). apply Rabs_le_inv in HM, H3. apply Rabs_le. lra. }
    cut (Rabs (1 / al_R T ^ 2 - 1 / Rs x ^ 2) <= 0.0045); [intros H; apply Rabs_le_inv in H, H1; apply Rabs_le; lra|].
    unfold al_R, Rs. assert (U := COS_bound (Ms x + Cs x)). replace (cos (al_M T + al_C T)) with (cos (Ms x + Cs x) + (cos (al_M T + al_C T) - cos (Ms x + Cs x))) by ring.
    generalize dependent (cos (al_M T + al_C T) - cos (Ms x + Cs x)). intros e He. generalize dependent (cos (Ms x + Cs x)). intros cc U.
    apply Rabs_le_inv in He. assert (Hn : Rabs (al_e T - es) <= 0.00014) by (clearbody T; clear - B; unfold al_e, es; interval with (i_prec 60)).
    replace (al_e T) with (es + (al_e T - es)) by ring. generalize dependent (al_e T - es). intros n Hn. clear - He U Hn. apply Rabs_le_inv in Hn.
    assert (K1 : 0.999 <= 1 - (es + n) ^ 2 <= 1) by (unfold es; split; interval). assert (K2 : 0.999 <= 1 - es ^ 2 <= 1) by (unfold es; split; interval).
    assert (K3 : 0.98 <= 1 + (es + n) * (cc + e) <= 1.02) by (unfold es; split; interval). assert (K4 : 0.98 <= 1 + es * cc <= 1.02) by (unfold es; split; interval).
    set (A := (1 + (es + n) * (cc + e)) / (1 - (es + n) ^ 2)). set (B := (1 + es * cc) / (1 - es ^ 2)).
    replace (1 / (1.000001018 * (1 - (es + n) ^ 2) / (1 + (es + n) * (cc + e))) ^ 2) with (A ^ 2 / 1.000001018 ^ 2) by (unfold A; field; repeat split; lra).
    replace (1 / (1.000001018 * (1 - es ^ 2) / (1 + es * cc)) ^ 2) with (B ^ 2 / 1.000001018 ^ 2) by (unfold B; field; repeat split; lra).
    replace (A ^ 2 / 1.000001018 ^ 2 - B ^ 2 / 1.000001018 ^ 2) with ((A - B) * ((A + B) / 1.000001018 ^ 2)) by (field; lra).
    assert (D : Rabs (A - B) <= 0.0021).
    { replace (A - B) with ((n * cc + (es + n) * e) / (1 - (es + n) ^ 2) + (1 + es * cc) * (n * (2 * es + n) / ((1 - (es + n) ^ 2) * (1 - es ^ 2)))) by (unfold A, B; field; lra).
      generalize dependent (1 - (es + n) ^ 2). intros k1 K1. generalize dependent (1 - es ^ 2). intros k2 K2. clear K3 K4. intros. unfold es. interval. }
    assert (S : 0 <= (A + B) / 1.000001018 ^ 2 <= 2.05).
    { unfold A, B. generalize dependent (1 - (es + n) ^ 2). intros k1 K1. generalize dependent (1 - es ^ 2). intros k2 K2. generalize dependent (1 + (es + n) * (cc + e)). intros k3 K3. generalize dependent (1 + es * cc). intros k4 K4. intros. clear - K1 K2 K3 K4. split; interval. }
    rewrite Rabs_mult, (Rabs_pos_eq ((A + B) / _)) by lra. assert (0 <= Rabs (A - B)) by apply Rabs_pos. nra.
  Qed.
End At.
