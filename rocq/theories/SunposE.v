(** * SunposE: sunrise, sunset, true solar time and incidence in double precision *)

From Coq Require Import ZArith QArith Reals Bool List String Lra Lia.
From Flocq Require Import Core.Raux.
From Interval Require Import Tactic.
From Verif Require Import Num Arrays Libspa Time Core Usecases Spec Ext ExtLemmas Sky SkyClose AstroTac SingleSpec
  Double DoubleTac DoubleLemmas DoubleSpec RefrD Sunpos SunposSpec SunposLemmas SunposR SunposCells SunposD.
Import ListNotations.
Open Scope R_scope.

Lemma Ztrunc_close x : Rabs (IZR (Ztrunc x) - x) < 1.
Proof.
  unfold Ztrunc. destruct (Rlt_bool_spec x 0) as [H|H].
  - assert (A := Zceil_ub x). assert (B := Zceil_lb x). apply Rabs_def1; lra.
  - assert (A := Zfloor_lb x). assert (B := Zfloor_ub x). apply Rabs_def1; lra.
Qed.

Lemma day_floor_mid t : day_floor (Some t) = Some (midnight_of t).
Proof. unfold day_floor, midnight_of. cbn. f_equal. change NS_PER_DAY with 86400000000000%Z. pose proof (Z.div_mod t 86400000000000). lia. Qed.

Section D64.
  Variable D : Env64.
  Hypothesis HD : double_like D.
  Notation O64 := (DoubleOps D).
  Notation radc := (radc D).
  Notation degc := (degc D).

  Lemma radc_ok' : Rabs (radc - PI / 180) <= 4 / 10 ^ 18 /\ 0 < radc <= 0.0175.
  Proof.
    assert (H := ap_radc D HD). fold radc in H. apply ap_inv in H as [H _]. assert (H0 : Rabs (radc - PI / 180) <= 4 / 10 ^ 18) by (eapply Rle_trans; [exact H|rz]).
    split; [exact H0|]. apply Rabs_le_inv in H0. assert (0.0174 <= PI / 180 <= 0.01746) by (split; interval). lra.
  Qed.
  Lemma radians_close x b : Rabs x <= b -> Rabs (r64 D (x * radc) - rad x) <= 6.1 / 10 ^ 18 * b + / 10 ^ 27.
  Proof.
    intros H. destruct radc_ok' as [H1 H2]. assert (R := rd D HD (x * radc)). unfold rad.
    assert (M : Rabs (x * radc) <= b * 0.0175) by (rewrite Rabs_mult, (Rabs_pos_eq radc) by lra; apply Rmult_le_compat; [apply Rabs_pos|lra|lra|lra]).
    assert (N : Rabs (x * (radc - PI / 180)) <= b * (4 / 10 ^ 18)) by (rewrite Rabs_mult; apply Rmult_le_compat; try apply Rabs_pos; lra).
    replace (r64 D (x * radc) - x * (PI / 180)) with ((r64 D (x * radc) - x * radc) + x * (radc - PI / 180)) by ring.
    eapply Rle_trans; [apply Rabs_triang|]. pose proof (Rabs_pos x). lra.
  Qed.
  Lemma radians_pole x : Rabs x <= 90 -> - (PI / 2) < r64 D (x * radc) < PI / 2.
  Proof.
    intros H. apply Rabs_le_inv in H. destruct radc_ok' as [_ H2]. assert (P := dl_pole D HD). fold radc in P.
    assert (A := dl_mono D HD (x * radc) (90 * radc) ltac:(nra)). assert (B := dl_mono D HD (- (90 * radc)) (x * radc) ltac:(nra)).
    rewrite (dl_opp D HD) in B. lra.
  Qed.

  (** ** The tangents *)
  Lemma cos_tan64 x : 0 < cos x -> Rabs (cos x * tan64 D x - sin x) <= / 10 ^ 15.
  Proof.
    intros H. assert (T := dl_tan D HD x ltac:(lra)). assert (E : sin x = cos x * tan x) by (unfold tan; field; lra).
    pose proof tiny30. pose proof (COS_bound x) as C. pose proof (SIN_bound x) as S.
    replace (cos x * tan64 D x - sin x) with (cos x * (tan64 D x - tan x)) by (rewrite E; ring). rewrite Rabs_mult, (Rabs_pos_eq (cos x)) by lra.
    assert (Q : cos x * Rabs (tan x) <= 1) by (rewrite <- (Rabs_pos_eq (cos x)) at 1 by lra; rewrite <- Rabs_mult, <- E; apply Rabs_le; lra).
    apply Rle_trans with (cos x * (Rabs (tan x) / 2 ^ 50 + / 2 ^ 1000)); [apply Rmult_le_compat_l; lra|].
    assert (0 < / 2 ^ 1000) by (apply Rinv_0_lt_compat, pow_lt; lra). nra.
  Qed.
  Definition tantan (la dd : R) : R := r64 D (- tan64 D (r64 D (dd * radc)) * tan64 D (r64 D (la * radc))).

  Lemma tantan_key p d : 0 < cos p -> 0 < cos d ->
    Rabs (cos p * cos d * r64 D (- tan64 D d * tan64 D p) + sin d * sin p) <= 2.3 / 10 ^ 15.
  Proof.
    intros Hp Hd. assert (A := cos_tan64 p Hp). assert (B := cos_tan64 d Hd). set (P := tan64 D p) in *. set (Q := tan64 D d) in *.
    assert (R := rd D HD (- Q * P)). set (t := r64 D (- Q * P)) in *. pose proof (COS_bound p) as C1. pose proof (COS_bound d) as C2.
    pose proof (SIN_bound p) as S1. pose proof (SIN_bound d) as S2.
    set (a := cos p * P - sin p) in *. set (b := cos d * Q - sin d) in *.
    assert (X : cos p * cos d * (- Q * P) = - ((sin d + b) * (sin p + a))) by (unfold a, b; ring).
    assert (BX : Rabs (cos p * cos d * (- Q * P)) <= 1.0001).
    { rewrite X, Rabs_Ropp, Rabs_mult. assert (Rabs (sin d + b) <= 1.00001) by (apply Rabs_le_inv in B; apply Rabs_le; lra).
      assert (Rabs (sin p + a) <= 1.00001) by (apply Rabs_le_inv in A; apply Rabs_le; lra). pose proof (Rabs_pos (sin d + b)). pose proof (Rabs_pos (sin p + a)). nra. }
    assert (PP : 0 < cos p * cos d <= 1) by (split; [now apply Rmult_lt_0_compat|nra]).
    assert (E1 : Rabs (cos p * cos d * (t - - Q * P)) <= 1.2 / 10 ^ 16).
    { rewrite Rabs_mult, (Rabs_pos_eq (cos p * cos d)) by lra. rewrite Rabs_mult, (Rabs_pos_eq (cos p * cos d)) in BX by lra.
      apply Rle_trans with (cos p * cos d * (Rabs (- Q * P) / 2 ^ 53 + / 10 ^ 27)); [apply Rmult_le_compat_l; lra|]. nra. }
    replace (cos p * cos d * t + sin d * sin p) with (cos p * cos d * (t - - Q * P) + (- (sin d * a) + - (b * sin p) + - (b * a))).
    - apply Rabs_le_inv in E1, A, B. assert (T1 : - / 10 ^ 15 <= sin d * a <= / 10 ^ 15) by nra. assert (T2 : - / 10 ^ 15 <= b * sin p <= / 10 ^ 15) by nra.
      assert (T3 : - / 10 ^ 16 <= b * a <= / 10 ^ 16) by nra. apply Rabs_le. lra.
    - transitivity (cos p * cos d * t - cos p * cos d * (- Q * P) - sin d * a - b * sin p - b * a); [ring|]. rewrite X. ring.
  Qed.

  Section Day.
    Variables (la dd : R).
    Hypothesis Bla : Rabs la <= 90.
    Hypothesis Bdd : Rabs dd <= 30.
    Let p := r64 D (la * radc).
    Let d := r64 D (dd * radc).
    Let t := tantan la dd.
    Let ph := rad la.
    Let de := rad dd.
    Lemma day_setup : Rabs (p - ph) <= 6 / 10 ^ 16 /\ Rabs (d - de) <= 2 / 10 ^ 16 /\ 0 < cos p /\ 0 < cos d /\ 0 <= cos ph /\ 0 < cos de.
    Proof.
      assert (A := radians_close la 90 Bla). assert (B := radians_close dd 30 Bdd). fold p in A. fold d in B. fold ph in A. fold de in B.
      assert (Ap := radians_pole la Bla). assert (Bp := radians_pole dd ltac:(lra)). fold p in Ap. fold d in Bp.
      split; [lra|]. split; [lra|]. split; [apply cos_gt_0; lra|]. split; [apply cos_gt_0; lra|]. pose proof PI_RGT_0 as P.
      apply Rabs_le_inv in Bla as La. apply Rabs_le_inv in Bdd as Dd. split; [apply cos_ge_0|apply cos_gt_0]; unfold ph, de, rad; nra.
    Qed.
    Lemma prod_cos : Rabs (cos ph * cos de - cos p * cos d) <= 8 / 10 ^ 16 /\ Rabs (sin de * sin ph - sin d * sin p) <= 8 / 10 ^ 16 .
    Proof.
      destruct day_setup as (A & B & _). assert (C1 := cos_lip p ph). assert (C2 := cos_lip d de). assert (S1 := sin_lip p ph). assert (S2 := sin_lip d de).
      assert (E1 : Rabs (cos p - cos ph) <= 6 / 10 ^ 16) by lra. assert (E2 : Rabs (cos d - cos de) <= 2 / 10 ^ 16) by lra.
      assert (E3 : Rabs (sin p - sin ph) <= 6 / 10 ^ 16) by lra. assert (E4 : Rabs (sin d - sin de) <= 2 / 10 ^ 16) by lra. clear C1 C2 S1 S2 A B.
      assert (B1 : Rabs (cos p) <= 1) by apply Rabs_le, COS_bound. assert (B2 : Rabs (cos de) <= 1) by apply Rabs_le, COS_bound.
      assert (B3 : Rabs (sin p) <= 1) by apply Rabs_le, SIN_bound. assert (B4 : Rabs (sin de) <= 1) by apply Rabs_le, SIN_bound.
      split.
      - replace (cos ph * cos de - cos p * cos d) with (- ((cos p - cos ph) * cos de + (cos d - cos de) * cos p)) by ring. rewrite Rabs_Ropp.
        eapply Rle_trans; [apply Rabs_triang|]. assert (T1 := Rabs_prod_le _ _ _ _ E1 B2). assert (T2 := Rabs_prod_le _ _ _ _ E2 B1). lra.
      - replace (sin de * sin ph - sin d * sin p) with (- ((sin p - sin ph) * sin de + (sin d - sin de) * sin p)) by ring. rewrite Rabs_Ropp.
        eapply Rle_trans; [apply Rabs_triang|]. assert (T1 := Rabs_prod_le _ _ _ _ E3 B4). assert (T2 := Rabs_prod_le _ _ _ _ E4 B3). lra.
    Qed.
    (** The sun at hour angle [w] with cos w near [t], if |t| <= 1. *)
    Lemma horizon_at w e : -1 <= t <= 1 -> Rabs (cos w - t) <= e -> Rabs (sun_U ph de w) <= e + 4 / 10 ^ 15.
    Proof.
      intros Ht Hw. destruct day_setup as (_ & _ & P1 & P2 & P3 & P4). destruct prod_cos as [Q1 Q2]. assert (K := tantan_key p d P1 P2). change (r64 D (- tan64 D d * tan64 D p)) with t in K.
      unfold sun_U. pose proof (COS_bound ph). pose proof (COS_bound de).
      assert (B : Rabs (cos ph * cos de) <= 1) by (rewrite Rabs_pos_eq by nra; nra). assert (Bt : Rabs t <= 1) by (apply Rabs_le; lra).
      assert (T1 := Rabs_prod_le _ _ _ _ B Hw). assert (T2 := Rabs_prod_le _ _ _ _ Q1 Bt).
      apply Rabs_le_inv in T1, T2, Q2, K. apply Rabs_le. split; lra.
    Qed.
    Lemma always_up : t < -1 -> forall h, - (4 / 10 ^ 15) <= sun_U ph de h.
    Proof.
      intros Ht h. destruct day_setup as (_ & _ & P1 & P2 & P3 & P4). destruct prod_cos as [Q1 Q2]. assert (K := tantan_key p d P1 P2). change (r64 D (- tan64 D d * tan64 D p)) with t in K.
      unfold sun_U. pose proof (COS_bound h). assert (0 <= cos ph * cos de) by nra. assert (PP : 0 < cos p * cos d) by now apply Rmult_lt_0_compat.
      apply Rabs_le_inv in Q1, Q2, K. assert (cos p * cos d * t <= - (cos p * cos d)) by nra. assert (- (cos ph * cos de) <= cos ph * cos de * cos h) by nra. lra.
    Qed.
    Lemma always_down : 1 < t -> forall h, sun_U ph de h <= 4 / 10 ^ 15.
    Proof.
      intros Ht h. destruct day_setup as (_ & _ & P1 & P2 & P3 & P4). destruct prod_cos as [Q1 Q2]. assert (K := tantan_key p d P1 P2). change (r64 D (- tan64 D d * tan64 D p)) with t in K.
      unfold sun_U. pose proof (COS_bound h). assert (0 <= cos ph * cos de) by nra. assert (PP : 0 < cos p * cos d) by now apply Rmult_lt_0_compat.
      apply Rabs_le_inv in Q1, Q2, K. assert (cos p * cos d <= cos p * cos d * t) by nra. assert (cos ph * cos de * cos h <= cos ph * cos de) by nra. lra.
    Qed.
  End Day.

  Lemma radians_fin x : Rabs x <= 1000 -> radians (Ops := O64) (Fin x) = Fin (r64 D (x * radc)).
  Proof.
    intros H. cbn [radians DoubleOps]. fold radc. rewrite fin_mul. apply (rd_fin_s D HD). destruct radc_ok' as [_ R]. rewrite Rabs_mult, (Rabs_pos_eq radc) by lra.
    pose proof (Rabs_pos x). nra.
  Qed.
  Lemma r64_le x b : 1 <= b -> Rabs x <= b -> Rabs (r64 D x) <= 2 * b.
  Proof. intros Hb H. assert (R := rd D HD x). assert (T := Rabs_triang x (r64 D x - x)). replace (x + (r64 D x - x)) with (r64 D x) in T by ring. lra. Qed.

  Section Cells.
  Variables (sp : Sunpos ext) (k j i : nat).

  (** ** The sunrise angle *)
  Section Sunrise.
    Variables (la dd : R).
    Hypothesis Hla : reads (latitude sp) k j i (Fin la).
    Hypothesis Hd : reads (declination (O := O64) sp) k j i (Fin dd).
    Hypothesis Bla : Rabs la <= 1000.
    Hypothesis Bdd : Rabs dd <= 1000.
    Definition wsr : ext := if Rle_dec (-1) (tantan la dd) then if Rle_dec (tantan la dd) 1 then Fin (acos64 D (tantan la dd)) else NaN else NaN.
    Lemma sunrise_rad64 : reads (sunrise_rad (O := O64) sp) k j i wsr.
    Proof.
      unfold sunrise_rad. cbv zeta. set (f := fun x : ext => ftan (Ops := O64) (radians (Ops := O64) x)).
      assert (H1 := reads_map f _ k j i _ Hla). assert (H2 := reads_map f _ k j i _ Hd).
      assert (H3 := reads_map2 (mul (Ops := O64)) _ _ k j i _ _ (reads_map (neg (Ops := O64)) _ k j i _ H2) H1).
      refine (reads_mapv _ _ k j i _ _ H3 _). rewrite (lit_int D HD (-1) (-1)), (lit_int D HD 1 1) by (try q2r; cbn; lia).
      assert (Ef : forall x, Rabs x <= 1000 -> f (Fin x) = Fin (tan64 D (r64 D (x * radc)))).
      { intros x Hx. unfold f. rewrite radians_fin by exact Hx. reflexivity. }
      rewrite (Ef dd Bdd), (Ef la Bla). cbn [mul neg DoubleOps e_neg]. rewrite fin_mul. cbn [e_rd]. fold (tantan la dd). set (t := tantan la dd).
      destruct (Rlt_dec (Rabs t) (2 ^ 1024)) as [Bt|Bt].
      2:{ assert (N : ~ (-1 <= t <= 1)). { intros C. apply Bt. apply Rle_lt_trans with (2 ^ 1); [apply Rabs_le; lra|apply Rlt_pow; [lra|lia]]. }
          assert (Ew : wsr = NaN) by (unfold wsr; fold t; destruct (Rle_dec (-1) t); [|reflexivity]; destruct (Rle_dec t 1); [exfalso; apply N; lra|reflexivity]).
          rewrite Ew. unfold fin64. destruct (Rlt_dec (Rabs t) (2 ^ 1024)); [contradiction|]. destruct (Rlt_dec 0 t); reflexivity. }
      assert (Et : fin64 t = Fin t) by (unfold fin64; destruct (Rlt_dec (Rabs t) (2 ^ 1024)); [reflexivity|contradiction]). rewrite Et.
      unfold wsr. fold t. cbn [fle DoubleOps facos]. rewrite !fin_le. unfold Rleb. destruct (Rle_dec (-1) t) as [A|A]; [|reflexivity]. destruct (Rle_dec t 1) as [B|B]; [|reflexivity].
      cbn [andb where_ e_unit]. destruct (Rle_dec (-1) t); [|contradiction]. now destruct (Rle_dec t 1).
    Qed.
  End Sunrise.

  (** ** True solar time *)
  Section Tst.
    Variable nf : ext.
    Variables (u : Z) (eot lo : R).
    Hypothesis Hu : nth_error (sp_times_utc sp) k = Some (Some u).
    Hypothesis Heot : reads (Sunpos.eot sp) k j i (Fin eot).
    Hypothesis Hlo : reads (longitude sp) k j i (Fin lo).
    Hypothesis Beot : Rabs eot <= 20.
    Hypothesis Blo : Rabs lo <= 180.
    Definition off64 : R := r64 D (eot + r64 D (4 * lo)).
    Definition offns64 : R := r64 D (r64 D (off64 * 60) * 1000000000).
    Definition tst64 : Z := Ztrunc (r64 D (r64 D (IZR u) + offns64)).
    Lemma off_at : reads (solar_offset (O := O64) sp) k j i (Fin off64).
    Proof.
      unfold solar_offset. refine (reads_map2v _ _ _ k j i _ _ _ Heot (reads_mapv _ _ k j i _ (Fin (r64 D (4 * lo))) Hlo _) _).
      - rewrite (lit_int D HD 4 4) by (try q2r; cbn; lia). cbn [mul DoubleOps]. rewrite fin_mul. apply (rd_fin_s D HD). apply Rabs_le_inv in Blo as B. apply Rabs_le. lra.
      - cbn [add DoubleOps]. rewrite fin_add. apply (rd_fin_s D HD). assert (A := r64_le (4 * lo) 1000 ltac:(lra) ltac:(apply Rabs_le_inv in Blo; apply Rabs_le; lra)).
        apply Rabs_le_inv in A, Beot. apply Rabs_le. lra.
    Qed.
    Lemma off_le : Rabs off64 <= 10000.
    Proof.
      assert (A := r64_le (4 * lo) 1000 ltac:(lra) ltac:(apply Rabs_le_inv in Blo; apply Rabs_le; lra)).
      assert (B := r64_le (eot + r64 D (4 * lo)) 5000 ltac:(lra) ltac:(apply Rabs_le_inv in A, Beot; apply Rabs_le; lra)). fold off64 in B. lra.
    Qed.
    Lemma ns_mul x : Rabs x <= 10000 -> mul (Ops := O64) (mul (Ops := O64) (Fin x) (lit (Ops := O64) 60)) (lit (Ops := O64) 1e9) = Fin (r64 D (r64 D (x * 60) * 1000000000)).
    Proof.
      intros H. rewrite (lit_int D HD 60 60), (lit_int D HD 1e9 1000000000) by (try q2r; cbn; lia). cbn [mul DoubleOps]. rewrite fin_mul.
      rewrite (rd_fin_s D HD) by (apply Rabs_le_inv in H; apply Rabs_le; lra). rewrite fin_mul. apply (rd_fin_s D HD).
      assert (A := r64_le (x * 60) 600000 ltac:(lra) ltac:(apply Rabs_le_inv in H; apply Rabs_le; lra)). apply Rabs_le_inv in A. apply Rabs_le. lra.
    Qed.
    Lemma offns_le : Rabs offns64 <= 10 ^ 20.
    Proof.
      assert (H := off_le). assert (A := r64_le (off64 * 60) 600000 ltac:(lra) ltac:(apply Rabs_le_inv in H; apply Rabs_le; lra)).
      assert (B := r64_le (r64 D (off64 * 60) * 1000000000) (10 ^ 16) ltac:(lra) ltac:(apply Rabs_le_inv in A; apply Rabs_le; lra)). fold offns64 in B. lra.
    Qed.
    Hypothesis Bu : (Z.abs u <= 2 ^ 63)%Z.
    Lemma tst_at64 : reads (true_solar_time (O := O64) nf sp) k j i (Some tst64).
    Proof.
      unfold true_solar_time. cbv zeta.
      assert (H1 : reads (da_map (ns_float (O := O64) nf) (of_list DTime (sp_times_utc sp))) k j i (Fin (r64 D (IZR u)))).
      { apply (reads_mapv _ _ k j i (Some u)); [exact Hu|reflexivity]. }
      assert (H2 := reads_mapv (fun x => mul (Ops := O64) (mul (Ops := O64) x (lit (Ops := O64) 60)) (lit (Ops := O64) 1e9)) _ k j i _ _ off_at (ns_mul off64 off_le)).
      assert (H3 := reads_map2 (add (Ops := O64)) _ _ k j i _ _ H1 H2).
      assert (E : add (Ops := O64) (Fin (r64 D (IZR u))) (Fin offns64) = Fin (r64 D (r64 D (IZR u) + offns64))).
      { cbn [add DoubleOps]. rewrite fin_add. apply (rd_fin_s D HD). assert (A := offns_le). assert (B := Bu). apply IZR_le in B. rewrite abs_IZR in B. change (IZR (2 ^ 63)) with 9223372036854775808 in B.
        assert (C := r64_le (IZR u) 9223372036854775808 ltac:(lra) B). apply Rabs_le_inv in A, C. apply Rabs_le. lra. }
      fold offns64 in H3. rewrite E in H3. exact (reads_map (toZ (Ops := O64)) _ k j i _ H3).
    Qed.
    Lemma minutes_at64 : reads (da_map (minutes_to_ns (O := O64)) (solar_offset (O := O64) sp)) k j i (Some (Ztrunc offns64)).
    Proof. refine (reads_mapv _ _ k j i _ _ off_at _). unfold minutes_to_ns. rewrite ns_mul by exact off_le. reflexivity. Qed.
    Lemma off_close : Rabs (offns64 - (4 * lo + eot) * 60000000000) <= 0.05 /\ Rabs ((4 * lo + eot) * 60000000000) <= 44400000000000.
    Proof.
      apply Rabs_le_inv in Beot as B1. apply Rabs_le_inv in Blo as B2.
      assert (R1 := rd D HD (4 * lo)). assert (Rabs (4 * lo) <= 720) by (apply Rabs_le; lra). assert (E1 : Rabs (r64 D (4 * lo) - 4 * lo) <= 8 / 10 ^ 14) by lra.
      set (a := r64 D (4 * lo)) in *. apply Rabs_le_inv in E1. assert (R2 := rd D HD (eot + a)). assert (Rabs (eot + a) <= 741) by (apply Rabs_le; lra).
      assert (E2 : Rabs (off64 - (eot + a)) <= 8.3 / 10 ^ 14) by (unfold off64; fold a; lra). apply Rabs_le_inv in E2.
      assert (R3 := rd D HD (off64 * 60)). assert (Rabs (off64 * 60) <= 44500) by (apply Rabs_le; lra). assert (E3 : Rabs (r64 D (off64 * 60) - off64 * 60) <= 5 / 10 ^ 12) by lra.
      set (b := r64 D (off64 * 60)) in *. apply Rabs_le_inv in E3. assert (R4 := rd D HD (b * 1000000000)). assert (Rabs (b * 1000000000) <= 44501000000000) by (apply Rabs_le; lra).
      assert (E4 : Rabs (offns64 - b * 1000000000) <= 0.005) by (unfold offns64; fold b; lra). apply Rabs_le_inv in E4. split; apply Rabs_le; lra.
    Qed.
    Lemma tst_close64 : Rabs (IZR (tst64 - u) - (4 * lo + eot) * 60000000000) <= Rabs (IZR u) / 2 ^ 52 + 2.
    Proof.
      assert (Bu' := Bu). apply IZR_le in Bu'. rewrite abs_IZR in Bu'. change (IZR (2 ^ 63)) with 9223372036854775808 in Bu'. destruct off_close as [O1 O2]. assert (R1 := rd D HD (IZR u)). assert (T := Ztrunc_close (r64 D (r64 D (IZR u) + offns64))). fold tst64 in T.
      assert (R2 := rd D HD (r64 D (IZR u) + offns64)). set (a := r64 D (IZR u)) in *. set (b := r64 D (a + offns64)) in *.
      assert (S : Rabs (a + offns64) <= Rabs (IZR u) * (1 + / 2 ^ 53) + 44500000000000).
      { replace (a + offns64) with (IZR u + ((a - IZR u) + offns64)) by ring. eapply Rle_trans; [apply Rabs_triang|]. 
        assert (X := Rabs_triang (a - IZR u) offns64). assert (Y : Rabs offns64 <= 44400000000001) by (apply Rabs_le_inv in O1, O2; apply Rabs_le; lra). lra. }
      rewrite minus_IZR. replace (IZR tst64 - IZR u - (4 * lo + eot) * 60000000000) with
        ((IZR tst64 - b) + ((b - (a + offns64)) + ((a - IZR u) + (offns64 - (4 * lo + eot) * 60000000000)))) by ring.
      eapply Rle_trans; [apply Rabs_triang|]. eapply Rle_trans; [apply Rplus_le_compat_l, Rabs_triang|].
      assert (X := Rabs_triang (a - IZR u) (offns64 - (4 * lo + eot) * 60000000000)). 
      pose proof (Rabs_pos (IZR u)).
      assert (Q' : Rabs (a + offns64) / 2 ^ 53 <= Rabs (IZR u) / 2 ^ 53 + 0.1) by lra. lra.
    Qed.
  End Tst.

  (** ** Times of sunrise and sunset *)
  Definition wdeg (w : R) : R := r64 D (w * degc).
  Definition dlen (w : R) : R := r64 D (r64 D (2 / 15) * wdeg w).
  Definition hns (x : R) : Z := Ztrunc (r64 D (r64 D (x * 3600) * 1000000000)).
  Definition rise_h (w : R) : R := r64 D (12 - r64 D (wdeg w / 15)).
  Lemma lit_2_15 : div (Ops := O64) (lit (Ops := O64) 2.0) (lit (Ops := O64) 15.0) = Fin (r64 D (2 / 15)).
  Proof. rewrite (lit_int D HD 2.0 2), (lit_int D HD 15.0 15) by (try q2r; cbn; lia). cbn [div DoubleOps]. rewrite fin_div by lra. apply (rd_fin_s D HD). apply Rabs_le. lra. Qed.
  Lemma hours_ns x : Rabs x <= 25 -> hours_to_ns (O := O64) (Fin x) = Some (hns x).
  Proof.
    intros H. unfold hours_to_ns. rewrite (lit_int D HD 3600 3600), (lit_int D HD 1e9 1000000000) by (try q2r; cbn; lia). cbn [mul DoubleOps]. rewrite fin_mul.
    rewrite (rd_fin_s D HD) by (apply Rabs_le_inv in H; apply Rabs_le; lra). rewrite fin_mul.
    assert (A := r64_le (x * 3600) 90000 ltac:(lra) ltac:(apply Rabs_le_inv in H; apply Rabs_le; lra)).
    rewrite (rd_fin_s D HD) by (apply Rabs_le_inv in A; apply Rabs_le; lra). reflexivity.
  Qed.
  Section W.
    Variable w : R.
    Hypothesis Bw : 0 <= w <= r64 D PI.
    Lemma w_range : 0 <= w <= PI + / 10 ^ 15.
    Proof. assert (R := rd D HD PI). assert (3.14159 <= PI <= 3.1416) by (split; interval). rewrite (Rabs_pos_eq PI) in R by lra. apply Rabs_le_inv in R. lra. Qed.
    Lemma wdeg_ok : Rabs (rad (wdeg w) - w) <= 1.6 / 10 ^ 15 /\ 0 <= wdeg w <= 180 + / 10 ^ 12.
    Proof.
      assert (H := w_range). assert (C := degrees_close D HD w). fold (wdeg w) in C. rewrite (Rabs_pos_eq w) in C by lra. assert (P : 3.14159 <= PI <= 3.1416) by (split; interval).
      split; [lra|]. destruct (degc_ok D HD) as [_ G]. split; [apply (r64_pos D HD); nra|]. apply Rabs_le_inv in C. unfold rad in C.
      assert (X : wdeg w * (PI / 180) <= PI + 3 / 10 ^ 15) by lra. apply Rmult_le_reg_r with (PI / 180); [lra|]. nra.
    Qed.
    Lemma dlen_ok : Rabs (dlen w - 2 / 15 * wdeg w) <= 8 / 10 ^ 15 /\ 0 <= dlen w <= 24 + 2 / 10 ^ 13.
    Proof.
      destruct wdeg_ok as [_ H]. assert (R1 := rd D HD (2 / 15)). rewrite (Rabs_pos_eq (2 / 15)) in R1 by lra. set (c := r64 D (2 / 15)) in *.
      apply Rabs_le_inv in R1. assert (R2 := rd D HD (c * wdeg w)). fold c in R2. assert (P : 0 <= c * wdeg w <= 24.1) by nra. rewrite (Rabs_pos_eq (c * wdeg w)) in R2 by lra.
      assert (E : -3 / 10 ^ 15 <= (c - 2 / 15) * wdeg w <= 3 / 10 ^ 15) by nra.
      assert (Pd : 0 <= dlen w) by (apply (r64_pos D HD); exact (proj1 P)). change (r64 D (c * wdeg w)) with (dlen w) in R2. apply Rabs_le_inv in R2.
      split; [apply Rabs_le; lra|]. split; [exact Pd|]. lra.
    Qed.
    Lemma rise_ok : Rabs (rise_h w - (12 - dlen w / 2)) <= / 10 ^ 14 /\ Rabs (rise_h w) <= 12.1.
    Proof.
      destruct wdeg_ok as [_ H]. destruct dlen_ok as [L1 L2]. assert (R1 := rd D HD (wdeg w / 15)). rewrite (Rabs_pos_eq (wdeg w / 15)) in R1 by lra. set (a := r64 D (wdeg w / 15)) in *.
      apply Rabs_le_inv in R1. assert (R2 := rd D HD (12 - a)). assert (Rabs (12 - a) <= 12.001) by (apply Rabs_le; lra). change (r64 D (12 - a)) with (rise_h w) in R2.
      apply Rabs_le_inv in L1. assert (E : Rabs (rise_h w - (12 - a)) <= 1.4 / 10 ^ 15) by lra. apply Rabs_le_inv in E. split; apply Rabs_le; lra.
    Qed.
    Lemma deg_fin : degrees (Ops := O64) (Fin w) = Fin (wdeg w).
    Proof.
      cbn [degrees DoubleOps]. fold degc. rewrite fin_mul. apply (rd_fin_s D HD). assert (H := w_range). destruct (degc_ok D HD) as [_ G]. fold degc in G.
      assert (PI <= 4) by apply PI_4. apply Rabs_le. nra.
    Qed.
    Lemma dlen_fin : mul (Ops := O64) (Fin (r64 D (2 / 15))) (Fin (wdeg w)) = Fin (dlen w).
    Proof.
      cbn [mul DoubleOps]. rewrite fin_mul. apply (rd_fin_s D HD). destruct wdeg_ok as [_ H]. assert (A := r64_le (2 / 15) 1 ltac:(lra) ltac:(apply Rabs_le; lra)).
      apply Rabs_le_inv in A. apply Rabs_le. nra.
    Qed.
    Lemma rise_fin : sub (Ops := O64) (Fin 12) (div (Ops := O64) (degrees (Ops := O64) (Fin w)) (Fin 15)) = Fin (rise_h w).
    Proof.
      rewrite deg_fin. destruct wdeg_ok as [_ H]. cbn [sub div DoubleOps]. rewrite fin_div by lra. rewrite (rd_fin_s D HD) by (apply Rabs_le; lra). rewrite fin_sub.
      apply (rd_fin_s D HD). assert (A := r64_le (wdeg w / 15) 13 ltac:(lra) ltac:(apply Rabs_le; lra)). apply Rabs_le_inv in A. apply Rabs_le. lra.
    Qed.
  End W.
  Lemma hns_ok x : Rabs x <= 25 -> Rabs (IZR (hns x) - x * 3600000000000) <= 1.05.
  Proof.
    intros H. apply Rabs_le_inv in H as B. unfold hns. assert (R1 := rd D HD (x * 3600)). assert (Rabs (x * 3600) <= 90000) by (apply Rabs_le; lra). set (a := r64 D (x * 3600)) in *.
    assert (E1 : Rabs (a - x * 3600) <= 1.1 / 10 ^ 11) by lra. apply Rabs_le_inv in E1. assert (R2 := rd D HD (a * 1000000000)). assert (Rabs (a * 1000000000) <= 90001000000000) by (apply Rabs_le; lra).
    set (b := r64 D (a * 1000000000)) in *. assert (E2 : Rabs (b - a * 1000000000) <= 0.011) by lra. assert (T := Ztrunc_close b). apply Rabs_def2 in T. apply Rabs_le_inv in E2. apply Rabs_le. lra.
  Qed.

  Section Times.
    Variable nf : ext.
    Variables (u w0 : Z) (eot lo w : R).
    Hypothesis Hu : nth_error (sp_times_utc sp) k = Some (Some u).
    Hypothesis Hw : nth_error (sp_times sp) k = Some (Some w0).
    Hypothesis Heot : reads (Sunpos.eot sp) k j i (Fin eot).
    Hypothesis Hlo : reads (longitude sp) k j i (Fin lo).
    (** radians *)
    Hypothesis Hs : reads (sunrise_rad (O := O64) sp) k j i (Fin w).
    Hypothesis Bw : 0 <= w <= r64 D PI.
    Hypothesis Beot : Rabs eot <= 20.
    Hypothesis Blo : Rabs lo <= 180.
    Hypothesis Bu : (Z.abs u <= 2 ^ 63)%Z.
    Let tst := tst64 u eot lo.
    Lemma sunrise_deg64 : reads (sunrise_deg (O := O64) sp) k j i (Fin (wdeg w)).
    Proof. refine (reads_mapv _ _ k j i _ _ Hs _). apply (deg_fin w Bw). Qed.
    Lemma daylight64 : reads (daylight_length (O := O64) sp) k j i (Fin (dlen w)).
    Proof. refine (reads_mapv _ _ k j i _ _ sunrise_deg64 _). rewrite lit_2_15. exact (dlen_fin w Bw). Qed.
    Lemma length_ns64 : reads (da_map (hours_to_ns (O := O64)) (daylight_length (O := O64) sp)) k j i (Some (hns (dlen w))).
    Proof. refine (reads_mapv _ _ k j i _ _ daylight64 (hours_ns (dlen w) _)). destruct (dlen_ok w Bw) as [_ H]. apply Rabs_le. lra. Qed.
    Lemma sunrise_tst64 : reads (sunrise_tst (O := O64) nf sp) k j i (Some (hns (rise_h w) + midnight_of tst)%Z).
    Proof.
      unfold sunrise_tst. cbv zeta.
      refine (reads_map2v _ _ _ k j i _ _ _ (reads_mapv _ _ k j i _ _ (reads_mapv _ _ k j i _ (Fin (rise_h w)) Hs _) (hours_ns (rise_h w) _))
        (reads_mapv _ _ k j i _ _ (tst_at64 nf u eot lo Hu Heot Hlo Beot Blo Bu) (day_floor_mid _)) eq_refl).
      2:{ destruct (rise_ok w Bw) as [_ H]. lra. }
      cbv beta. rewrite (lit_int D HD 12.0 12), (lit_int D HD 15.0 15) by (try q2r; cbn; lia).
      exact (rise_fin w Bw).
    Qed.
    Lemma sunrise_utc64 : reads (sunrise_utc (O := O64) nf sp) k j i (Some (hns (rise_h w) + midnight_of tst - Ztrunc (offns64 eot lo))%Z).
    Proof. exact (reads_map2 nat_sub _ _ k j i _ _ sunrise_tst64 (minutes_at64 eot lo Heot Hlo Beot Blo)). Qed.
    Lemma sunrise_local64 : reads (sunrise_local (O := O64) nf sp) k j i (Some (hns (rise_h w) + midnight_of tst - Ztrunc (offns64 eot lo) + (w0 - u))%Z).
    Proof.
      unfold sunrise_local.
      assert (H : reads (DA [DTime] (fun e => match nth_error (sp_times sp) (e DTime), nth_error (sp_times_utc sp) (e DTime) with
                                          | Some w, Some u => Some (nat_sub w u) | _, _ => None end)) k j i (Some (w0 - u)%Z)).
      { unfold reads. cbn [da_at at_cell]. now rewrite Hw, Hu. }
      exact (reads_map2 nat_add _ _ k j i _ _ sunrise_utc64 H).
    Qed.
  End Times.
  (** In polar day or night. *)
  Lemma polar_deg : reads (sunrise_rad (O := O64) sp) k j i NaN -> reads (sunrise_deg (O := O64) sp) k j i NaN /\ reads (daylight_length (O := O64) sp) k j i NaN.
  Proof.
    intros H. assert (H1 := reads_map (degrees (Ops := O64)) _ k j i _ H). split; [exact H1|]. refine (reads_mapv _ _ k j i _ _ H1 _). rewrite lit_2_15. assert (Z := nan_mul_r (Fin (r64 D (2 / 15)))). cbn [degrees mul DoubleOps]. change (e_rd D (e_mul NaN (Fin (r64 D (180 / r64 D PI))))) with NaN. now rewrite Z.
  Qed.
  Lemma polar_tst nf x : reads (sunrise_rad (O := O64) sp) k j i NaN -> reads (true_solar_time (O := O64) nf sp) k j i x ->
    reads (sunrise_tst (O := O64) nf sp) k j i None.
  Proof.
    intros Hr Ht. unfold sunrise_tst. cbv zeta.
    refine (reads_map2v _ _ _ k j i _ _ _ (reads_mapv _ _ k j i _ None (reads_mapv _ _ k j i _ NaN Hr _) _) (reads_map day_floor _ k j i _ Ht) eq_refl).
    - cbn [degrees sub div DoubleOps e_mul e_rd]. unfold e_div. cbn [e_rd]. now rewrite nan_sub_r.
    - unfold hours_to_ns. reflexivity.
  Qed.

  (** ** Incidence *)
  Section Incidence.
    Variable nf : ext.
    Variables (la dd slope az : R) (tst : Z).
    Hypothesis Hla : reads (latitude sp) k j i (Fin la).
    Hypothesis Hd : reads (declination (O := O64) sp) k j i (Fin dd).
    Hypothesis Ht : reads (true_solar_time (O := O64) nf sp) k j i (Some tst).
    Hypothesis Bla : Rabs la <= 90.
    Hypothesis Bdd : Rabs dd <= 30.
    Hypothesis Bs : Rabs slope <= 1000.
    Hypothesis Ba : Rabs az <= 1000.
    Lemma incidence64 : exists c, reads (incidence (O := O64) nf sp (Fin slope) (Fin az)) k j i (Fin c) /\
      Rabs (c - cos_incidence (rad la) (rad dd) (hour_angle tst) (rad slope) (rad az)) <= / 10 ^ 13.
    Proof.
      set (n := (tst mod 86400000000000)%Z). assert (Bn : (0 <= n < 86400000000000)%Z) by (apply Z.mod_pos_bound; lia).
      assert (En : nat_sub (Some tst) (day_floor (Some tst)) = Some n).
      { rewrite day_floor_mid. unfold nat_sub, midnight_of. f_equal. unfold n. lia. }
      assert (Xn : apb (Fin (IZR n)) (IZR n) (qbnd 86400000000000) 0).
      { apply ap_exact. rewrite <- abs_IZR. eapply Rle_trans; [|apply Q2R_up]. replace (Q2R 86400000000000) with (IZR 86400000000000) by q2r. apply IZR_le. lia. }
      unfold incidence. cbv zeta.
      set (c := fun a : ext => fcos (Ops := O64) (radians (Ops := O64) a)).
      set (s := fun a : ext => fsin (Ops := O64) (radians (Ops := O64) a)).
      set (haf := fun t : option Z => mul (Ops := O64) _ _).
      assert (Hh := reads_map haf _ k j i _ Ht).
      assert (C1 := reads_map c _ k j i _ Hla). assert (S1 := reads_map s _ k j i _ Hla).
      assert (C2 := reads_map c _ k j i _ Hd). assert (S2 := reads_map s _ k j i _ Hd).
      assert (C3 := reads_map c _ k j i _ Hh). assert (S3 := reads_map s _ k j i _ Hh).
      change (dec sp) with (declination (O := O64) sp).
      pose proof (fun x a y (H : reads a k j i y) => reads_map (fun y => mul (Ops := O64) y x) a k j i y H) as M.
      pose proof (fun a b x y (H : reads a k j i x) (H' : reads b k j i y) => reads_map2 (mul (Ops := O64)) a b k j i x y H H') as M2.
      pose proof (fun a b x y (H : reads a k j i x) (H' : reads b k j i y) => reads_map2 (add (Ops := O64)) a b k j i x y H H') as A2.
      pose proof (fun a b x y (H : reads a k j i x) (H' : reads b k j i y) => reads_map2 (sub (Ops := O64)) a b k j i x y H H') as B2.
      assert (R1 := A2 _ _ _ _ (A2 _ _ _ _ (M2 _ _ _ _ (B2 _ _ _ _ (M (c (Fin slope)) _ _ S1) (M (c (Fin az)) _ _ (M (s (Fin slope)) _ _ C1))) S2)
         (M2 _ _ _ _ (M2 _ _ _ _ (A2 _ _ _ _ (M (c (Fin slope)) _ _ C1) (M (c (Fin az)) _ _ (M (s (Fin slope)) _ _ S1))) C2) C3))
         (M (s (Fin az)) _ _ (M (s (Fin slope)) _ _ (M2 _ _ _ _ C2 S3)))).
      clear M M2 A2 B2 C1 S1 C2 S2 C3 S3 Hh.
      assert (Eh : exists H, haf (Some tst) = H /\ apb H (15 * (12 - IZR n / 1000000000 / 3600)) (qbnd 181) (qbnd 3e-13)).
      { eexists. split; [reflexivity|]. unfold haf, hour_of_day. rewrite En. cbn [ns_float]. 
        replace (ofZ (Ops := O64) n) with (Fin (IZR n)) by (cbn [ofZ DoubleOps]; rewrite (dl_int D HD) by lia; reflexivity).
        lazymatch goal with |- apb ?t _ _ _ => eassert (W : apb t _ _ _) by (ap D HD) end. norm_in W.
        destruct W as (v & -> & W1 & _).
        replace (Q2R 15 * (Q2R 12 - IZR n * Q2R 1e-9 / Q2R 3600)) with (15 * (12 - IZR n / 1000000000 / 3600)) in W1 by (q2; field).
        apply (near_q _ _ (3 / 10 ^ 13)); [exists v; split; [reflexivity|]; eapply Rle_trans; [exact W1|unfold Rz, u90, S90; lra]| |q2r].
        replace (Q2R 181) with 181 by q2r. assert (0 <= IZR n <= 86400000000000) by (split; apply IZR_le; lia). apply Rabs_le. lra. }
      destruct Eh as (H & EH & AH). rewrite EH in R1. unfold c, s in R1.
      assert (Xl : apb (Fin la) la (qbnd 90) 0) by (apply ap_exact; eapply Rle_trans; [exact Bla|]; eapply Rle_trans; [|apply Q2R_up]; q2r).
      assert (Xd : apb (Fin dd) dd (qbnd 30) 0) by (apply ap_exact; eapply Rle_trans; [exact Bdd|]; eapply Rle_trans; [|apply Q2R_up]; q2r).
      assert (Xs : apb (Fin slope) slope (qbnd 1000) 0) by (apply ap_exact; eapply Rle_trans; [exact Bs|]; eapply Rle_trans; [|apply Q2R_up]; q2r).
      assert (Xa : apb (Fin az) az (qbnd 1000) 0) by (apply ap_exact; eapply Rle_trans; [exact Ba|]; eapply Rle_trans; [|apply Q2R_up]; q2r).
      lazymatch type of R1 with reads _ _ _ _ ?t => eassert (W : apb t _ _ _) by (ap D HD) end. norm_in W. destruct W as (v & E & W & _).
      exists v. rewrite E in R1. split; [exact R1|]. 
      match type of W with Rabs (v - ?a) <= _ => assert (Ev : a = cos_incidence (rad la) (rad dd) (hour_angle tst) (rad slope) (rad az)) end.
      { assert (Er : 15 * (12 - IZR n / 1000000000 / 3600) * (PI / 180) = - hour_angle tst) by (unfold hour_angle, rad, day_hours; fold n; field).
        rewrite Er, cos_neg, sin_neg. fold (rad la) (rad dd) (rad slope) (rad az). unfold cos_incidence, sun_S, sun_W, sun_U, normal_S, normal_W, normal_U. ring. }
      rewrite Ev in W. eapply Rle_trans; [exact W|]. unfold Rz, u90, S90. lra.
    Qed.
  End Incidence.
  End Cells.
End D64.
