(** * SeasonR: the sun by the month (generated by tools/gen_season.py; reals only)

    [x] is the sun's mean longitude in degrees, [T] centuries from 2000, [n] days since the start of the year. *)
From Coq Require Import ZArith Reals Lra Lia.
From Interval Require Import Tactic.
From Verif Require Import CalendarSpec SeasonSpec.
Open Scope R_scope.

Definition Mx (x T : R) : R := x + 77.06265 - 1.71954 * T - 0.0004569 * T ^ 2.
Definition Cx (x T : R) : R := let M := Mx x T * (PI / 180) in
  (1.914602 - 0.004817 * T - 0.000014 * T ^ 2) * sin M + (0.019993 - 0.000101 * T) * sin (2 * M) + 0.000289 * sin (3 * M).
Definition lx (x T : R) : R := (x + Cx x T - 0.00569) * (PI / 180).
Definition ox (T : R) : R := (23.439291 - 0.0130042 * T) * (PI / 180).
Definition ex (T : R) : R := 0.016708634 - 0.000042037 * T - 0.0000001267 * T ^ 2.
Definition sdec (x T : R) : R := sin (ox T) * sin (lx x T).
Definition cdec (x T : R) : R := sqrt (1 - sdec x T * sdec x T).
Definition seot (x T : R) : R := sin ((0.00569 - Cx x T) * (PI / 180)) + 2 * (sin (ox T / 2) * sin (ox T / 2)) * cos (x * (PI / 180)) * sin (lx x T).
Definition secf (x T : R) : R := 1 / (1.000001018 * (1 - ex T ^ 2) / (1 + ex T * cos ((Mx x T + Cx x T) * (PI / 180)))) ^ 2.
Definition se (m : R) : R := sin ((m / 4 + 0.0057183) * (PI / 180)).

(** The same with the slow variables (centuries) replaced by ranges, and angles taken from the equinox of March (g = 1) or of September (g = -1). *)
Definition fC (g u m c b e d : R) : R := c * (g * sin ((u + 77.06 + m) * d)) + b * sin (2 * ((u + 77.06 + m) * d)) + e.
Definition fl (g u m c b e d : R) : R := g * sin ((u + fC g u m c b e d - 0.00569) * d).
Definition fsd (g u m c b e d so : R) : R := so * fl g u m c b e d.
Definition feot (g u m c b e d y : R) : R := sin ((0.00569 - fC g u m c b e d) * d) + y * (g * cos (u * d)) * fl g u m c b e d.
Definition fecf (g u m c b e d k : R) : R := ((1 + k * (g * cos ((u + 77.06 + m + fC g u m c b e d) * d))) / (1.000001018 * (1 - k ^ 2))) ^ 2.
Definition slow (m c b e d so y k : R) : Prop :=
  -4.6 <= m <= 5.6 /\ 1.901 <= c <= 1.9303 /\ 0.0197 <= b <= 0.0204 /\ -0.0003 <= e <= 0.0003 /\ 0.0174532925 <= d <= 0.0174532926 /\
  0.3972 <= so <= 0.3985 /\ 0.08226 <= y <= 0.08283 /\ 0.0165 <= k <= 0.0169.
Lemma turn_sin (g s : R) a z : (g = 1 /\ s = 360) \/ (g = -1 /\ s = 540) -> a = z + s * (PI / 180) -> sin a = g * sin z /\ cos a = g * cos z.
Proof.
  intros [[-> ->]|[-> ->]] ->.
  - replace (z + 360 * (PI / 180)) with (z + 2 * PI) by field. rewrite sin_plus, cos_plus, sin_2PI, cos_2PI. split; ring.
  - replace (z + 540 * (PI / 180)) with ((z + PI) + 2 * PI) by field. rewrite (sin_plus (z + PI)), (cos_plus (z + PI)), sin_2PI, cos_2PI, neg_sin, neg_cos. split; ring.
Qed.
Lemma reduced x T g s : (g = 1 /\ s = 360) \/ (g = -1 /\ s = 540) -> -3.25 <= T <= 2.65 -> exists m c b e d so y k, slow m c b e d so y k /\
  sdec x T = fsd g (x - s) m c b e d so /\ seot x T = feot g (x - s) m c b e d y /\ secf x T = fecf g (x - s) m c b e d k.
Proof.
  intros Hg HT. set (d := PI / 180).
  exists (0.00265 - 1.71954 * T - 0.0004569 * T ^ 2), (1.914602 - 0.004817 * T - 0.000014 * T ^ 2), (0.019993 - 0.000101 * T), (0.000289 * sin (3 * (Mx x T * d))), d,
    (sin (ox T)), (2 * (sin (ox T / 2) * sin (ox T / 2))), (ex T).
  set (m := 0.00265 - 1.71954 * T - 0.0004569 * T ^ 2). set (u := x - s).
  assert (EM : Mx x T = u + 77.06 + m + s) by (unfold Mx, m, u; lra).
  destruct (turn_sin g s (Mx x T * d) ((u + 77.06 + m) * d) Hg ltac:(rewrite EM; fold d; ring)) as [S1 _].
  assert (S2 : sin (2 * (Mx x T * d)) = sin (2 * ((u + 77.06 + m) * d))).
  { destruct Hg as [[-> ->]|[-> ->]]; [replace (2 * (Mx x T * d)) with (2 * ((u + 77.06 + m) * d) + 2 * INR 2 * PI)|replace (2 * (Mx x T * d)) with (2 * ((u + 77.06 + m) * d) + 2 * INR 3 * PI)];
      try apply sin_period; rewrite EM; unfold d; cbn [INR]; field. }
  assert (EC : Cx x T = fC g u m (1.914602 - 0.004817 * T - 0.000014 * T ^ 2) (0.019993 - 0.000101 * T) (0.000289 * sin (3 * (Mx x T * d))) d).
  { unfold Cx, fC. cbv zeta. fold d. rewrite S1, S2. reflexivity. }
  set (C := fC g u m _ _ _ d) in *.
  destruct (turn_sin g s (lx x T) ((u + C - 0.00569) * d) Hg ltac:(unfold lx; rewrite EC; fold d; unfold u; ring)) as [L _].
  destruct (turn_sin g s (x * d) (u * d) Hg ltac:(unfold u, d; field)) as [_ X].
  destruct (turn_sin g s ((Mx x T + C) * d) ((u + 77.06 + m + C) * d) Hg ltac:(rewrite EM; fold d; ring)) as [_ N].
  split; [|unfold fsd, feot, fecf, fl, sdec, seot, secf; fold C; fold d; rewrite EC, L, X, N; split; [reflexivity|split; [reflexivity|]]].
  - unfold slow. assert (B3 : -1 <= sin (3 * (Mx x T * d)) <= 1) by apply SIN_bound. generalize dependent (sin (3 * (Mx x T * d))). intros z3 _ _ _ _ B3. unfold m, d, ox, ex.
    clear - HT B3. repeat split; interval with (i_bisect T).
  - assert (K : 0.016 <= ex T <= 0.017) by (unfold ex; clear - HT; split; interval with (i_bisect T)). pose proof (COS_bound ((u + 77.06 + m + C) * d)) as B.
    set (z := g * cos ((u + 77.06 + m + C) * d)). assert (B' : -1 <= z <= 1) by (unfold z; destruct Hg as [[-> _]|[-> _]]; lra). unfold Rdiv. field.
    split; [nra|]. nra.
Qed.
Ltac gen8 H := destruct H as (m & c & b & e & d & so & y & k & (Bm & Bc & Bb & Be & Bd & Bso & By & Bk) & E1 & E2 & E3); unfold cdec; rewrite E1, E2, E3; clear E1 E2 E3.
Ltac box u m := unfold fsd, feot, fecf, fl, fC; interval with (i_bisect u, i_bisect m, i_prec 20).
Ltac boxi n := unfold iqbal_dec, iqbal_eot, iqbal_ecf; interval with (i_bisect n, i_prec 20).
Ltac cst := cbn [fst snd dec_range eot_range ecf_range]; unfold se; interval with (i_prec 40).

Lemma al_month1 x T : 279.2 <= x <= 312.0551 -> -3.25 <= T <= 2.65 ->
  sin ((fst (dec_range 1) + 0.04) * (PI / 180)) <= sdec x T <= sin ((snd (dec_range 1) - 0.04) * (PI / 180)) /\
  0 <= seot x T - cdec x T * se (fst (eot_range 1) + 0.49) /\ 0 <= cdec x T * se (snd (eot_range 1) - 0.49) - seot x T /\
  fst (ecf_range 1) + 0.0005 <= secf x T <= snd (ecf_range 1) - 0.0005.
Proof.
  intros Bx BT. gen8 (reduced x T 1 360 (or_introl (conj eq_refl eq_refl)) BT). assert (Bu : (-80.8) <= x - 360 <= (-47.9449)) by lra. generalize dependent (x - 360). intros u Bu. clear Bx BT x T.
  assert (Ka : (-63170 / 1000000) <= se (fst (eot_range 1) + 0.49) <= (-63169 / 1000000)) by (split; cst). assert (Kb : (-8147 / 1000000) <= se (snd (eot_range 1) - 0.49) <= (-8146 / 1000000)) by (split; cst).
  generalize dependent (se (fst (eot_range 1) + 0.49)). intros ka Ka. generalize dependent (se (snd (eot_range 1) - 0.49)). intros kb Kb. cbn [fst snd dec_range ecf_range].
  split; [split; [apply Rle_trans with (-394904 / 1000000); [interval|]|apply Rle_trans with (-288030 / 1000000); [|interval]]|split; [|split; [|split]]]; box u m.
Qed.
Lemma iq_month1 n : 0 <= n <= 31 -> let a := 2 * PI * (n + 1) / 365 in
  (fst (dec_range 1) + 0.001) * (PI / 180) <= iqbal_dec a <= (snd (dec_range 1) - 0.001) * (PI / 180) /\
  fst (eot_range 1) + 0.001 <= iqbal_eot a <= snd (eot_range 1) - 0.001 /\ fst (ecf_range 1) + 0.00001 <= iqbal_ecf a <= snd (ecf_range 1) - 0.00001.
Proof.
  intros Bn. cbv zeta. assert (Ba : (17214 / 1000000) <= 2 * PI * (n + 1) / 365 <= (550855 / 1000000)) by (split; interval). generalize dependent (2 * PI * (n + 1) / 365). intros a Ba. clear n Bn.
  cbn [fst snd dec_range eot_range ecf_range].
  split; [split; [apply Rle_trans with (-406644 / 1000000); [interval|]|apply Rle_trans with (-291488 / 1000000); [|interval]]|split; split]; boxi a.
Qed.

Lemma al_month2 x T : 309.7551 <= x <= 340.6388 -> -3.25 <= T <= 2.65 ->
  sin ((fst (dec_range 2) + 0.04) * (PI / 180)) <= sdec x T <= sin ((snd (dec_range 2) - 0.04) * (PI / 180)) /\
  0 <= seot x T - cdec x T * se (fst (eot_range 2) + 0.49) /\ 0 <= cdec x T * se (snd (eot_range 2) - 0.49) - seot x T /\
  fst (ecf_range 2) + 0.0005 <= secf x T <= snd (ecf_range 2) - 0.0005.
Proof.
  intros Bx BT. gen8 (reduced x T 1 360 (or_introl (conj eq_refl eq_refl)) BT). assert (Bu : (-50.2449) <= x - 360 <= (-19.3612)) by lra. generalize dependent (x - 360). intros u Bu. clear Bx BT x T.
  assert (Ka : (-65348 / 1000000) <= se (fst (eot_range 2) + 0.49) <= (-65347 / 1000000)) by (split; cst). assert (Kb : (-50450 / 1000000) <= se (snd (eot_range 2) - 0.49) <= (-50449 / 1000000)) by (split; cst).
  generalize dependent (se (fst (eot_range 2) + 0.49)). intros ka Ka. generalize dependent (se (snd (eot_range 2) - 0.49)). intros kb Kb. cbn [fst snd dec_range ecf_range].
  split; [split; [apply Rle_trans with (-305030 / 1000000); [interval|]|apply Rle_trans with (-119098 / 1000000); [|interval]]|split; [|split; [|split]]]; box u m.
Qed.
Lemma iq_month2 n : 31 <= n <= 60 -> let a := 2 * PI * (n + 1) / 365 in
  (fst (dec_range 2) + 0.001) * (PI / 180) <= iqbal_dec a <= (snd (dec_range 2) - 0.001) * (PI / 180) /\
  fst (eot_range 2) + 0.001 <= iqbal_eot a <= snd (eot_range 2) - 0.001 /\ fst (ecf_range 2) + 0.00001 <= iqbal_ecf a <= snd (ecf_range 2) - 0.00001.
Proof.
  intros Bn. cbv zeta. assert (Ba : (550854 / 1000000) <= 2 * PI * (n + 1) / 365 <= (1050067 / 1000000)) by (split; interval). generalize dependent (2 * PI * (n + 1) / 365). intros a Ba. clear n Bn.
  cbn [fst snd dec_range eot_range ecf_range].
  split; [split; [apply Rle_trans with (-310651 / 1000000); [interval|]|apply Rle_trans with (-118700 / 1000000); [|interval]]|split; split]; boxi a.
Qed.

Lemma al_month3 x T : 337.3532 <= x <= 371.1939 -> -3.25 <= T <= 2.65 ->
  sin ((fst (dec_range 3) + 0.04) * (PI / 180)) <= sdec x T <= sin ((snd (dec_range 3) - 0.04) * (PI / 180)) /\
  0 <= seot x T - cdec x T * se (fst (eot_range 3) + 0.49) /\ 0 <= cdec x T * se (snd (eot_range 3) - 0.49) - seot x T /\
  fst (ecf_range 3) + 0.0005 <= secf x T <= snd (ecf_range 3) - 0.0005.
Proof.
  intros Bx BT. gen8 (reduced x T 1 360 (or_introl (conj eq_refl eq_refl)) BT). assert (Bu : (-22.6468) <= x - 360 <= 11.1939) by lra. generalize dependent (x - 360). intros u Bu. clear Bx BT x T.
  assert (Ka : (-57944 / 1000000) <= se (fst (eot_range 3) + 0.49) <= (-57943 / 1000000)) by (split; cst). assert (Kb : (-13819 / 1000000) <= se (snd (eot_range 3) - 0.49) <= (-13818 / 1000000)) by (split; cst).
  generalize dependent (se (fst (eot_range 3) + 0.49)). intros ka Ka. generalize dependent (se (snd (eot_range 3) - 0.49)). intros kb Kb. cbn [fst snd dec_range ecf_range].
  split; [split; [apply Rle_trans with (-145392 / 1000000); [interval|]|apply Rle_trans with (91675 / 1000000); [|interval]]|split; [|split; [|split]]]; box u m.
Qed.
Lemma iq_month3 n : 59 <= n <= 91 -> let a := 2 * PI * (n + 1) / 365 in
  (fst (dec_range 3) + 0.001) * (PI / 180) <= iqbal_dec a <= (snd (dec_range 3) - 0.001) * (PI / 180) /\
  fst (eot_range 3) + 0.001 <= iqbal_eot a <= snd (eot_range 3) - 0.001 /\ fst (ecf_range 3) + 0.00001 <= iqbal_ecf a <= snd (ecf_range 3) - 0.00001.
Proof.
  intros Bn. cbv zeta. assert (Ba : (1032852 / 1000000) <= 2 * PI * (n + 1) / 365 <= (1583707 / 1000000)) by (split; interval). generalize dependent (2 * PI * (n + 1) / 365). intros a Ba. clear n Bn.
  cbn [fst snd dec_range eot_range ecf_range].
  split; [split; [apply Rle_trans with (-146590 / 1000000); [interval|]|apply Rle_trans with (92484 / 1000000); [|interval]]|split; split]; boxi a.
Qed.

Lemma al_month4 x T : 367.9083 <= x <= 400.7633 -> -3.25 <= T <= 2.65 ->
  sin ((fst (dec_range 4) + 0.04) * (PI / 180)) <= sdec x T <= sin ((snd (dec_range 4) - 0.04) * (PI / 180)) /\
  0 <= seot x T - cdec x T * se (fst (eot_range 4) + 0.49) /\ 0 <= cdec x T * se (snd (eot_range 4) - 0.49) - seot x T /\
  fst (ecf_range 4) + 0.0005 <= secf x T <= snd (ecf_range 4) - 0.0005.
Proof.
  intros Bx BT. gen8 (reduced x T 1 360 (or_introl (conj eq_refl eq_refl)) BT). assert (Bu : 7.9083 <= x - 360 <= 40.7633) by lra. generalize dependent (x - 360). intros u Bu. clear Bx BT x T.
  assert (Ka : (-20451 / 1000000) <= se (fst (eot_range 4) + 0.49) <= (-20450 / 1000000)) by (split; cst). assert (Kb : (16287 / 1000000) <= se (snd (eot_range 4) - 0.49) <= (16288 / 1000000)) by (split; cst).
  generalize dependent (se (fst (eot_range 4) + 0.49)). intros ka Ka. generalize dependent (se (snd (eot_range 4) - 0.49)). intros kb Kb. cbn [fst snd dec_range ecf_range].
  split; [split; [apply Rle_trans with (65229 / 1000000); [interval|]|apply Rle_trans with (271608 / 1000000); [|interval]]|split; [|split; [|split]]]; box u m.
Qed.
Lemma iq_month4 n : 90 <= n <= 121 -> let a := 2 * PI * (n + 1) / 365 in
  (fst (dec_range 4) + 0.001) * (PI / 180) <= iqbal_dec a <= (snd (dec_range 4) - 0.001) * (PI / 180) /\
  fst (eot_range 4) + 0.001 <= iqbal_eot a <= snd (eot_range 4) - 0.001 /\ fst (ecf_range 4) + 0.00001 <= iqbal_ecf a <= snd (ecf_range 4) - 0.00001.
Proof.
  intros Bn. cbv zeta. assert (Ba : (1566492 / 1000000) <= 2 * PI * (n + 1) / 365 <= (2100134 / 1000000)) by (split; interval). generalize dependent (2 * PI * (n + 1) / 365). intros a Ba. clear n Bn.
  cbn [fst snd dec_range eot_range ecf_range].
  split; [split; [apply Rle_trans with (64595 / 1000000); [interval|]|apply Rle_trans with (275744 / 1000000); [|interval]]|split; split]; boxi a.
Qed.

Lemma al_month5 x T : 397.4777 <= x <= 431.3184 -> -3.25 <= T <= 2.65 ->
  sin ((fst (dec_range 5) + 0.04) * (PI / 180)) <= sdec x T <= sin ((snd (dec_range 5) - 0.04) * (PI / 180)) /\
  0 <= seot x T - cdec x T * se (fst (eot_range 5) + 0.49) /\ 0 <= cdec x T * se (snd (eot_range 5) - 0.49) - seot x T /\
  fst (ecf_range 5) + 0.0005 <= secf x T <= snd (ecf_range 5) - 0.0005.
Proof.
  intros Bx BT. gen8 (reduced x T 1 360 (or_introl (conj eq_refl eq_refl)) BT). assert (Bu : 37.4777 <= x - 360 <= 71.3184) by lra. generalize dependent (x - 360). intros u Bu. clear Bx BT x T.
  assert (Ka : (5728 / 1000000) <= se (fst (eot_range 5) + 0.49) <= (5729 / 1000000)) by (split; cst). assert (Kb : (19340 / 1000000) <= se (snd (eot_range 5) - 0.49) <= (19341 / 1000000)) by (split; cst).
  generalize dependent (se (fst (eot_range 5) + 0.49)). intros ka Ka. generalize dependent (se (snd (eot_range 5) - 0.49)). intros kb Kb. cbn [fst snd dec_range ecf_range].
  split; [split; [apply Rle_trans with (249367 / 1000000); [interval|]|apply Rle_trans with (382038 / 1000000); [|interval]]|split; [|split; [|split]]]; box u m.
Qed.
Lemma iq_month5 n : 120 <= n <= 152 -> let a := 2 * PI * (n + 1) / 365 in
  (fst (dec_range 5) + 0.001) * (PI / 180) <= iqbal_dec a <= (snd (dec_range 5) - 0.001) * (PI / 180) /\
  fst (eot_range 5) + 0.001 <= iqbal_eot a <= snd (eot_range 5) - 0.001 /\ fst (ecf_range 5) + 0.00001 <= iqbal_ecf a <= snd (ecf_range 5) - 0.00001.
Proof.
  intros Bn. cbv zeta. assert (Ba : (2082918 / 1000000) <= 2 * PI * (n + 1) / 365 <= (2633774 / 1000000)) by (split; interval). generalize dependent (2 * PI * (n + 1) / 365). intros a Ba. clear n Bn.
  cbn [fst snd dec_range eot_range ecf_range].
  split; [split; [apply Rle_trans with (251345 / 1000000); [interval|]|apply Rle_trans with (392681 / 1000000); [|interval]]|split; split]; boxi a.
Qed.

Lemma al_month6 x T : 428.0328 <= x <= 460.8878 -> -3.25 <= T <= 2.65 ->
  sin ((fst (dec_range 6) + 0.04) * (PI / 180)) <= sdec x T <= sin ((snd (dec_range 6) - 0.04) * (PI / 180)) /\
  0 <= seot x T - cdec x T * se (fst (eot_range 6) + 0.49) /\ 0 <= cdec x T * se (snd (eot_range 6) - 0.49) - seot x T /\
  fst (ecf_range 6) + 0.0005 <= secf x T <= snd (ecf_range 6) - 0.0005.
Proof.
  intros Bx BT. gen8 (reduced x T 1 360 (or_introl (conj eq_refl eq_refl)) BT). assert (Bu : 68.0328 <= x - 360 <= 100.8878) by lra. generalize dependent (x - 360). intros u Bu. clear Bx BT x T.
  assert (Ka : (-21323 / 1000000) <= se (fst (eot_range 6) + 0.49) <= (-21322 / 1000000)) by (split; cst). assert (Kb : (14541 / 1000000) <= se (snd (eot_range 6) - 0.49) <= (14542 / 1000000)) by (split; cst).
  generalize dependent (se (fst (eot_range 6) + 0.49)). intros ka Ka. generalize dependent (se (snd (eot_range 6) - 0.49)). intros kb Kb. cbn [fst snd dec_range ecf_range].
  split; [split; [apply Rle_trans with (368774 / 1000000); [interval|]|apply Rle_trans with (399709 / 1000000); [|interval]]|split; [|split; [|split]]]; box u m.
Qed.
Lemma iq_month6 n : 151 <= n <= 182 -> let a := 2 * PI * (n + 1) / 365 in
  (fst (dec_range 6) + 0.001) * (PI / 180) <= iqbal_dec a <= (snd (dec_range 6) - 0.001) * (PI / 180) /\
  fst (eot_range 6) + 0.001 <= iqbal_eot a <= snd (eot_range 6) - 0.001 /\ fst (ecf_range 6) + 0.00001 <= iqbal_ecf a <= snd (ecf_range 6) - 0.00001.
Proof.
  intros Bn. cbv zeta. assert (Ba : (2616559 / 1000000) <= 2 * PI * (n + 1) / 365 <= (3150200 / 1000000)) by (split; interval). generalize dependent (2 * PI * (n + 1) / 365). intros a Ba. clear n Bn.
  cbn [fst snd dec_range eot_range ecf_range].
  split; [split; [apply Rle_trans with (377009 / 1000000); [interval|]|apply Rle_trans with (411880 / 1000000); [|interval]]|split; split]; boxi a.
Qed.

Lemma al_month7 x T : 457.6022 <= x <= 491.4429 -> -3.25 <= T <= 2.65 ->
  sin ((fst (dec_range 7) + 0.04) * (PI / 180)) <= sdec x T <= sin ((snd (dec_range 7) - 0.04) * (PI / 180)) /\
  0 <= seot x T - cdec x T * se (fst (eot_range 7) + 0.49) /\ 0 <= cdec x T * se (snd (eot_range 7) - 0.49) - seot x T /\
  fst (ecf_range 7) + 0.0005 <= secf x T <= snd (ecf_range 7) - 0.0005.
Proof.
  intros Bx BT. gen8 (reduced x T (-1) 540 (or_intror (conj eq_refl eq_refl)) BT). assert (Bu : (-82.3978) <= x - 540 <= (-48.5571)) by lra. generalize dependent (x - 540). intros u Bu. clear Bx BT x T.
  assert (Ka : (-31791 / 1000000) <= se (fst (eot_range 7) + 0.49) <= (-31790 / 1000000)) by (split; cst). assert (Kb : (-10765 / 1000000) <= se (snd (eot_range 7) - 0.49) <= (-10764 / 1000000)) by (split; cst).
  generalize dependent (se (fst (eot_range 7) + 0.49)). intros ka Ka. generalize dependent (se (snd (eot_range 7) - 0.49)). intros kb Kb. cbn [fst snd dec_range ecf_range].
  split; [split; [apply Rle_trans with (299707 / 1000000); [interval|]|apply Rle_trans with (396507 / 1000000); [|interval]]|split; [|split; [|split]]]; box u m.
Qed.
Lemma iq_month7 n : 181 <= n <= 213 -> let a := 2 * PI * (n + 1) / 365 in
  (fst (dec_range 7) + 0.001) * (PI / 180) <= iqbal_dec a <= (snd (dec_range 7) - 0.001) * (PI / 180) /\
  fst (eot_range 7) + 0.001 <= iqbal_eot a <= snd (eot_range 7) - 0.001 /\ fst (ecf_range 7) + 0.00001 <= iqbal_ecf a <= snd (ecf_range 7) - 0.00001.
Proof.
  intros Bn. cbv zeta. assert (Ba : (3132985 / 1000000) <= 2 * PI * (n + 1) / 365 <= (3683841 / 1000000)) by (split; interval). generalize dependent (2 * PI * (n + 1) / 365). intros a Ba. clear n Bn.
  cbn [fst snd dec_range eot_range ecf_range].
  split; [split; [apply Rle_trans with (303705 / 1000000); [interval|]|apply Rle_trans with (408389 / 1000000); [|interval]]|split; split]; boxi a.
Qed.

Lemma al_month8 x T : 488.1572 <= x <= 521.998 -> -3.25 <= T <= 2.65 ->
  sin ((fst (dec_range 8) + 0.04) * (PI / 180)) <= sdec x T <= sin ((snd (dec_range 8) - 0.04) * (PI / 180)) /\
  0 <= seot x T - cdec x T * se (fst (eot_range 8) + 0.49) /\ 0 <= cdec x T * se (snd (eot_range 8) - 0.49) - seot x T /\
  fst (ecf_range 8) + 0.0005 <= secf x T <= snd (ecf_range 8) - 0.0005.
Proof.
  intros Bx BT. gen8 (reduced x T (-1) 540 (or_intror (conj eq_refl eq_refl)) BT). assert (Bu : (-51.8428) <= x - 540 <= (-18.002)) by lra. generalize dependent (x - 540). intros u Bu. clear Bx BT x T.
  assert (Ka : (-31355 / 1000000) <= se (fst (eot_range 8) + 0.49) <= (-31354 / 1000000)) by (split; cst). assert (Kb : (4506 / 1000000) <= se (snd (eot_range 8) - 0.49) <= (4507 / 1000000)) by (split; cst).
  generalize dependent (se (fst (eot_range 8) + 0.49)). intros ka Ka. generalize dependent (se (snd (eot_range 8) - 0.49)). intros kb Kb. cbn [fst snd dec_range ecf_range].
  split; [split; [apply Rle_trans with (131219 / 1000000); [interval|]|apply Rle_trans with (319951 / 1000000); [|interval]]|split; [|split; [|split]]]; box u m.
Qed.
Lemma iq_month8 n : 212 <= n <= 244 -> let a := 2 * PI * (n + 1) / 365 in
  (fst (dec_range 8) + 0.001) * (PI / 180) <= iqbal_dec a <= (snd (dec_range 8) - 0.001) * (PI / 180) /\
  fst (eot_range 8) + 0.001 <= iqbal_eot a <= snd (eot_range 8) - 0.001 /\ fst (ecf_range 8) + 0.00001 <= iqbal_ecf a <= snd (ecf_range 8) - 0.00001.
Proof.
  intros Bn. cbv zeta. assert (Ba : (3666625 / 1000000) <= 2 * PI * (n + 1) / 365 <= (4217481 / 1000000)) by (split; interval). generalize dependent (2 * PI * (n + 1) / 365). intros a Ba. clear n Bn.
  cbn [fst snd dec_range eot_range ecf_range].
  split; [split; [apply Rle_trans with (130918 / 1000000); [interval|]|apply Rle_trans with (326359 / 1000000); [|interval]]|split; split]; boxi a.
Qed.

Lemma al_month9 x T : 518.7123 <= x <= 551.5674 -> -3.25 <= T <= 2.65 ->
  sin ((fst (dec_range 9) + 0.04) * (PI / 180)) <= sdec x T <= sin ((snd (dec_range 9) - 0.04) * (PI / 180)) /\
  0 <= seot x T - cdec x T * se (fst (eot_range 9) + 0.49) /\ 0 <= cdec x T * se (snd (eot_range 9) - 0.49) - seot x T /\
  fst (ecf_range 9) + 0.0005 <= secf x T <= snd (ecf_range 9) - 0.0005.
Proof.
  intros Bx BT. gen8 (reduced x T (-1) 540 (or_intror (conj eq_refl eq_refl)) BT). assert (Bu : (-21.2877) <= x - 540 <= 11.5674) by lra. generalize dependent (x - 540). intros u Bu. clear Bx BT x T.
  assert (Ka : (-4744 / 1000000) <= se (fst (eot_range 9) + 0.49) <= (-4743 / 1000000)) by (split; cst). assert (Kb : (48121 / 1000000) <= se (snd (eot_range 9) - 0.49) <= (48122 / 1000000)) by (split; cst).
  generalize dependent (se (fst (eot_range 9) + 0.49)). intros ka Ka. generalize dependent (se (snd (eot_range 9) - 0.49)). intros kb Kb. cbn [fst snd dec_range ecf_range].
  split; [split; [apply Rle_trans with (-69060 / 1000000); [interval|]|apply Rle_trans with (157468 / 1000000); [|interval]]|split; [|split; [|split]]]; box u m.
Qed.
Lemma iq_month9 n : 243 <= n <= 274 -> let a := 2 * PI * (n + 1) / 365 in
  (fst (dec_range 9) + 0.001) * (PI / 180) <= iqbal_dec a <= (snd (dec_range 9) - 0.001) * (PI / 180) /\
  fst (eot_range 9) + 0.001 <= iqbal_eot a <= snd (eot_range 9) - 0.001 /\ fst (ecf_range 9) + 0.00001 <= iqbal_ecf a <= snd (ecf_range 9) - 0.00001.
Proof.
  intros Bn. cbv zeta. assert (Ba : (4200266 / 1000000) <= 2 * PI * (n + 1) / 365 <= (4733907 / 1000000)) by (split; interval). generalize dependent (2 * PI * (n + 1) / 365). intros a Ba. clear n Bn.
  cbn [fst snd dec_range eot_range ecf_range].
  split; [split; [apply Rle_trans with (-69795 / 1000000); [interval|]|apply Rle_trans with (158807 / 1000000); [|interval]]|split; split]; boxi a.
Qed.

Lemma al_month10 x T : 548.2817 <= x <= 582.1224 -> -3.25 <= T <= 2.65 ->
  sin ((fst (dec_range 10) + 0.04) * (PI / 180)) <= sdec x T <= sin ((snd (dec_range 10) - 0.04) * (PI / 180)) /\
  0 <= seot x T - cdec x T * se (fst (eot_range 10) + 0.49) /\ 0 <= cdec x T * se (snd (eot_range 10) - 0.49) - seot x T /\
  fst (ecf_range 10) + 0.0005 <= secf x T <= snd (ecf_range 10) - 0.0005.
Proof.
  intros Bx BT. gen8 (reduced x T (-1) 540 (or_intror (conj eq_refl eq_refl)) BT). assert (Bu : 8.2817 <= x - 540 <= 42.1224) by lra. generalize dependent (x - 540). intros u Bu. clear Bx BT x T.
  assert (Ka : (41059 / 1000000) <= se (fst (eot_range 10) + 0.49) <= (41060 / 1000000)) by (split; cst). assert (Kb : (73816 / 1000000) <= se (snd (eot_range 10) - 0.49) <= (73817 / 1000000)) by (split; cst).
  generalize dependent (se (fst (eot_range 10) + 0.49)). intros ka Ka. generalize dependent (se (snd (eot_range 10) - 0.49)). intros kb Kb. cbn [fst snd dec_range ecf_range].
  split; [split; [apply Rle_trans with (-261515 / 1000000); [interval|]|apply Rle_trans with (-42574 / 1000000); [|interval]]|split; [|split; [|split]]]; box u m.
Qed.
Lemma iq_month10 n : 273 <= n <= 305 -> let a := 2 * PI * (n + 1) / 365 in
  (fst (dec_range 10) + 0.001) * (PI / 180) <= iqbal_dec a <= (snd (dec_range 10) - 0.001) * (PI / 180) /\
  fst (eot_range 10) + 0.001 <= iqbal_eot a <= snd (eot_range 10) - 0.001 /\ fst (ecf_range 10) + 0.00001 <= iqbal_ecf a <= snd (ecf_range 10) - 0.00001.
Proof.
  intros Bn. cbv zeta. assert (Ba : (4716692 / 1000000) <= 2 * PI * (n + 1) / 365 <= (5267548 / 1000000)) by (split; interval). generalize dependent (2 * PI * (n + 1) / 365). intros a Ba. clear n Bn.
  cbn [fst snd dec_range eot_range ecf_range].
  split; [split; [apply Rle_trans with (-265272 / 1000000); [interval|]|apply Rle_trans with (-41906 / 1000000); [|interval]]|split; split]; boxi a.
Qed.

Lemma al_month11 x T : 578.8368 <= x <= 611.6919 -> -3.25 <= T <= 2.65 ->
  sin ((fst (dec_range 11) + 0.04) * (PI / 180)) <= sdec x T <= sin ((snd (dec_range 11) - 0.04) * (PI / 180)) /\
  0 <= seot x T - cdec x T * se (fst (eot_range 11) + 0.49) /\ 0 <= cdec x T * se (snd (eot_range 11) - 0.49) - seot x T /\
  fst (ecf_range 11) + 0.0005 <= secf x T <= snd (ecf_range 11) - 0.0005.
Proof.
  intros Bx BT. gen8 (reduced x T (-1) 540 (or_intror (conj eq_refl eq_refl)) BT). assert (Bu : 38.8368 <= x - 540 <= 71.6919) by lra. generalize dependent (x - 540). intros u Bu. clear Bx BT x T.
  assert (Ka : (41495 / 1000000) <= se (fst (eot_range 11) + 0.49) <= (41496 / 1000000)) by (split; cst). assert (Kb : (73816 / 1000000) <= se (snd (eot_range 11) - 0.49) <= (73817 / 1000000)) by (split; cst).
  generalize dependent (se (fst (eot_range 11) + 0.49)). intros ka Ka. generalize dependent (se (snd (eot_range 11) - 0.49)). intros kb Kb. cbn [fst snd dec_range ecf_range].
  split; [split; [apply Rle_trans with (-378810 / 1000000); [interval|]|apply Rle_trans with (-237517 / 1000000); [|interval]]|split; [|split; [|split]]]; box u m.
Qed.
Lemma iq_month11 n : 304 <= n <= 335 -> let a := 2 * PI * (n + 1) / 365 in
  (fst (dec_range 11) + 0.001) * (PI / 180) <= iqbal_dec a <= (snd (dec_range 11) - 0.001) * (PI / 180) /\
  fst (eot_range 11) + 0.001 <= iqbal_eot a <= snd (eot_range 11) - 0.001 /\ fst (ecf_range 11) + 0.00001 <= iqbal_ecf a <= snd (ecf_range 11) - 0.00001.
Proof.
  intros Bn. cbv zeta. assert (Ba : (5250332 / 1000000) <= 2 * PI * (n + 1) / 365 <= (5783974 / 1000000)) by (split; interval). generalize dependent (2 * PI * (n + 1) / 365). intros a Ba. clear n Bn.
  cbn [fst snd dec_range eot_range ecf_range].
  split; [split; [apply Rle_trans with (-389190 / 1000000); [interval|]|apply Rle_trans with (-239128 / 1000000); [|interval]]|split; split]; boxi a.
Qed.

Lemma al_month12 x T : 608.4062 <= x <= 642.2469 -> -3.25 <= T <= 2.65 ->
  sin ((fst (dec_range 12) + 0.04) * (PI / 180)) <= sdec x T <= sin ((snd (dec_range 12) - 0.04) * (PI / 180)) /\
  0 <= seot x T - cdec x T * se (fst (eot_range 12) + 0.49) /\ 0 <= cdec x T * se (snd (eot_range 12) - 0.49) - seot x T /\
  fst (ecf_range 12) + 0.0005 <= secf x T <= snd (ecf_range 12) - 0.0005.
Proof.
  intros Bx BT. gen8 (reduced x T (-1) 540 (or_intror (conj eq_refl eq_refl)) BT). assert (Bu : 68.4062 <= x - 540 <= 102.2469) by lra. generalize dependent (x - 540). intros u Bu. clear Bx BT x T.
  assert (Ka : (-22195 / 1000000) <= se (fst (eot_range 12) + 0.49) <= (-22194 / 1000000)) by (split; cst). assert (Kb : (54222 / 1000000) <= se (snd (eot_range 12) - 0.49) <= (54223 / 1000000)) by (split; cst).
  generalize dependent (se (fst (eot_range 12) + 0.49)). intros ka Ka. generalize dependent (se (snd (eot_range 12) - 0.49)). intros kb Kb. cbn [fst snd dec_range ecf_range].
  split; [split; [apply Rle_trans with (-399709 / 1000000); [interval|]|apply Rle_trans with (-363902 / 1000000); [|interval]]|split; [|split; [|split]]]; box u m.
Qed.
Lemma iq_month12 n : 334 <= n <= 366 -> let a := 2 * PI * (n + 1) / 365 in
  (fst (dec_range 12) + 0.001) * (PI / 180) <= iqbal_dec a <= (snd (dec_range 12) - 0.001) * (PI / 180) /\
  fst (eot_range 12) + 0.001 <= iqbal_eot a <= snd (eot_range 12) - 0.001 /\ fst (ecf_range 12) + 0.00001 <= iqbal_ecf a <= snd (ecf_range 12) - 0.00001.
Proof.
  intros Bn. cbv zeta. assert (Ba : (5766759 / 1000000) <= 2 * PI * (n + 1) / 365 <= (6317614 / 1000000)) by (split; interval). generalize dependent (2 * PI * (n + 1) / 365). intros a Ba. clear n Bn.
  cbn [fst snd dec_range eot_range ecf_range].
  split; [split; [apply Rle_trans with (-411880 / 1000000); [interval|]|apply Rle_trans with (-371773 / 1000000); [|interval]]|split; split]; boxi a.
Qed.

(** First and last day (since the start of the year) of the months, and the mean longitudes in degrees. *)
Definition first_day (m : Z) : R := match m with 1%Z => 0 | 2%Z => 31 | 3%Z => 59 | 4%Z => 90 | 5%Z => 120 | 6%Z => 151 | 7%Z => 181 | 8%Z => 212 | 9%Z => 243 | 10%Z => 273 | 11%Z => 304 | 12%Z => 334 | _ => 0 end.
Definition last_day (m : Z) : R := match m with 1%Z => 31 | 2%Z => 60 | 3%Z => 91 | 4%Z => 121 | 5%Z => 152 | 6%Z => 182 | 7%Z => 213 | 8%Z => 244 | 9%Z => 274 | 10%Z => 305 | 11%Z => 335 | 12%Z => 366 | _ => 0 end.
Definition first_lon (m : Z) : R := match m with 1%Z => 279.2 | 2%Z => 309.7551 | 3%Z => 337.3532 | 4%Z => 367.9083 | 5%Z => 397.4777 | 6%Z => 428.0328 | 7%Z => 457.6022 | 8%Z => 488.1572 | 9%Z => 518.7123 | 10%Z => 548.2817 | 11%Z => 578.8368 | 12%Z => 608.4062 | _ => 0 end.
Definition last_lon (m : Z) : R := match m with 1%Z => 312.0551 | 2%Z => 340.6388 | 3%Z => 371.1939 | 4%Z => 400.7633 | 5%Z => 431.3184 | 6%Z => 460.8878 | 7%Z => 491.4429 | 8%Z => 521.998 | 9%Z => 551.5674 | 10%Z => 582.1224 | 11%Z => 611.6919 | 12%Z => 642.2469 | _ => 0 end.
Lemma al_month m x T : (1 <= m <= 12)%Z -> first_lon m <= x <= last_lon m -> -3.25 <= T <= 2.65 ->
  sin ((fst (dec_range m) + 0.04) * (PI / 180)) <= sdec x T <= sin ((snd (dec_range m) - 0.04) * (PI / 180)) /\
  0 <= seot x T - cdec x T * se (fst (eot_range m) + 0.49) /\ 0 <= cdec x T * se (snd (eot_range m) - 0.49) - seot x T /\
  fst (ecf_range m) + 0.0005 <= secf x T <= snd (ecf_range m) - 0.0005.
Proof.
  intros Hm. assert (m = 1 \/ m = 2 \/ m = 3 \/ m = 4 \/ m = 5 \/ m = 6 \/ m = 7 \/ m = 8 \/ m = 9 \/ m = 10 \/ m = 11 \/ m = 12)%Z as H by lia.
  destruct H as [-> | [-> | [-> | [-> | [-> | [-> | [-> | [-> | [-> | [-> | [-> | ->]]]]]]]]]]].
  - exact (al_month1 x T).
  - exact (al_month2 x T).
  - exact (al_month3 x T).
  - exact (al_month4 x T).
  - exact (al_month5 x T).
  - exact (al_month6 x T).
  - exact (al_month7 x T).
  - exact (al_month8 x T).
  - exact (al_month9 x T).
  - exact (al_month10 x T).
  - exact (al_month11 x T).
  - exact (al_month12 x T).
Qed.
Lemma iq_month m n : (1 <= m <= 12)%Z -> first_day m <= n <= last_day m -> let a := 2 * PI * (n + 1) / 365 in
  (fst (dec_range m) + 0.001) * (PI / 180) <= iqbal_dec a <= (snd (dec_range m) - 0.001) * (PI / 180) /\
  fst (eot_range m) + 0.001 <= iqbal_eot a <= snd (eot_range m) - 0.001 /\ fst (ecf_range m) + 0.00001 <= iqbal_ecf a <= snd (ecf_range m) - 0.00001.
Proof.
  intros Hm. assert (m = 1 \/ m = 2 \/ m = 3 \/ m = 4 \/ m = 5 \/ m = 6 \/ m = 7 \/ m = 8 \/ m = 9 \/ m = 10 \/ m = 11 \/ m = 12)%Z as H by lia.
  destruct H as [-> | [-> | [-> | [-> | [-> | [-> | [-> | [-> | [-> | [-> | [-> | ->]]]]]]]]]]].
  - exact (iq_month1 n).
  - exact (iq_month2 n).
  - exact (iq_month3 n).
  - exact (iq_month4 n).
  - exact (iq_month5 n).
  - exact (iq_month6 n).
  - exact (iq_month7 n).
  - exact (iq_month8 n).
  - exact (iq_month9 n).
  - exact (iq_month10 n).
  - exact (iq_month11 n).
  - exact (iq_month12 n).
Qed.