(** * NrelR: ne_nrel.py over the reals, time-dependent part *)

From Coq Require Import ZArith QArith Qabs Qreals Reals Bool List Lra Lia.
From Flocq Require Import Core.Raux.
From Interval Require Import Tactic.
From Verif Require Import Num Ext ExtLemmas Sky AstroTac Refraction PsaR SoltrackR NrelTables Nrel.
Import ListNotations.
Open Scope R_scope.

(** ** The coefficient series *)
Definition r_term (j : R) (c : Q * Q * Q) : R := let '(c0, c1, c2) := c in Q2R c0 * cos (Q2R c1 + Q2R c2 * j).
Fixpoint r_series (t : list (Q * Q * Q)) (j : R) : R :=
  match t with [] => 0 | c :: t => r_term j c + r_series t j end.
Fixpoint q_amp (t : list (Q * Q * Q)) : Q :=
  match t with [] => 0%Q | (c0, _, _) :: t => Qred (Qabs c0 + q_amp t) end.

Lemma series_R E t j : series (O := ExtOps E) t (Fin j) = Fin (r_series t j).
Proof.
  unfold series. ext_ops. induction t as [|[[c0 c1] c2] t IH]; [reflexivity|]. cbn [map fold_right]. rewrite IH. fin. reflexivity.
Qed.
Lemma Rabs_Q2R q : Rabs (Q2R q) = Q2R (Qabs q).
Proof.
  destruct (Qlt_le_dec q 0) as [H|H].
  - rewrite Qabs_neg by (now apply Qlt_le_weak). rewrite Q2R_opp. apply Rabs_left.
    apply Qlt_Rlt in H. rewrite RMicromega.Q2R_0 in H. exact H.
  - rewrite Qabs_pos by exact H. apply Rabs_pos_eq. apply Qle_Rle in H. rewrite RMicromega.Q2R_0 in H. exact H.
Qed.
Lemma r_series_b t j : Rabs (r_series t j) <= Q2R (q_amp t).
Proof.
  induction t as [|[[c0 c1] c2] t IH].
  - cbn. rewrite Rabs_R0, RMicromega.Q2R_0. lra.
  - cbn [r_series q_amp r_term]. rewrite (Qeq_eqR _ _ (Qred_correct _)), Q2R_plus.
    eapply Rle_trans; [apply Rabs_triang|]. apply Rplus_le_compat; [|exact IH].
    rewrite Rabs_mult, Rabs_Q2R. rewrite <- (Rmult_1_r (Q2R (Qabs c0))) at 2. apply Rmult_le_compat_l.
    + rewrite <- Rabs_Q2R. apply Rabs_pos.
    + apply Rabs_le, COS_bound.
Qed.
Lemma r_series_const c t j : r_series ((c, 0.0%Q, 0.0%Q) :: t) j = Q2R c + r_series t j.
Proof. cbn [r_series r_term]. replace (#0.0 + #0.0 * j) with 0 by q2r. rewrite cos_0. ring. Qed.

(** Concrete tables: the padded table without its constant row. *)
Ltac amp t :=
  let q := eval vm_compute in (q_amp t) in
  let H := fresh in
  assert (H : forall j, Rabs (r_series t j) <= Q2R q) by (intros j; exact (r_series_b t j)).

Definition T_R0 := pad 40 PARAMS_R_0.   Definition T_R1 := pad 40 PARAMS_R_1.
Definition T_R2 := pad 40 PARAMS_R_2.   Definition T_R3 := pad 40 PARAMS_R_3.
Definition T_R4 := pad 40 PARAMS_R_4.
Definition T_L0 := pad 64 PARAMS_LONG_0. Definition T_L1 := pad 64 PARAMS_LONG_1.
Definition T_L2 := pad 64 PARAMS_LONG_2. Definition T_L3 := pad 64 PARAMS_LONG_3.
Definition T_L4 := pad 64 PARAMS_LONG_4. Definition T_L5 := pad 64 PARAMS_LONG_5.
Definition T_B0 := pad 5 PARAMS_LAT_0.   Definition T_B1 := pad 5 PARAMS_LAT_1.

Lemma series_le t b j : Qle_bool (q_amp t) b = true -> Rabs (r_series t j) <= Q2R b.
Proof. intros H. apply Qle_bool_iff, Qle_Rle in H. eapply Rle_trans; [apply r_series_b|exact H]. Qed.
Lemma series_head_le t c b j :
  hd (0, 0, 0)%Q t = (c, 0.0%Q, 0.0%Q) -> Qle_bool (q_amp (tl t)) b = true -> t <> nil ->
  Rabs (r_series t j - Q2R c) <= Q2R b.
Proof.
  intros Hh Hb Hn. destruct t as [|c' t]; [congruence|]. cbn [hd tl] in *. subst c'.
  rewrite r_series_const. replace (Q2R c + r_series t j - Q2R c) with (r_series t j) by ring. now apply series_le.
Qed.

(** ** Shadows of the time-dependent quantities *)
Section Time.
  Variable md : R -> R -> R.
  Variable s : R.
  Definition n_jd : R := s / #86400 + #2440587.5.
  Definition n_jde : R := n_jd + #67.0 / #86400.
  Definition n_jc : R := (n_jd - #2451545) / #36525.
  Definition n_jce : R := (n_jde - #2451545) / #36525.
  Definition n_jme : R := n_jce / #10.
  Definition nj_R (j : R) : R :=
    (r_series T_R0 j + r_series T_R1 j * j + r_series T_R2 j * j ^ 2 + r_series T_R3 j * j ^ 3 + r_series T_R4 j * j ^ 4) / #1e8.
  Definition nj_Lrad (j : R) : R :=
    (r_series T_L0 j + r_series T_L1 j * j + r_series T_L2 j * j ^ 2 + r_series T_L3 j * j ^ 3 + r_series T_L4 j * j ^ 4
     + r_series T_L5 j * j ^ 5).
  Definition nj_B (j : R) : R := (180 / PI) * (r_series T_B0 j + r_series T_B1 j * j) / #1e8.
  Definition n_R : R := nj_R n_jme.
  Definition n_L : R := md ((180 / PI) * nj_Lrad n_jme / #1e8) #360.
  Definition n_B : R := nj_B n_jme.
  Definition n_theta : R := md (n_L + #180.0) #360.
  Definition n_beta : R := - (PI / 180) * n_B.
  Definition n_x0 : R := #297.85036 + #445267.111480 * n_jce - #0.0019142 * n_jce ^ 2 + n_jce ^ 3 / #189474.
  Definition n_x1 : R := #357.52772 + #35999.050340 * n_jce - #0.0001603 * n_jce ^ 2 - n_jce ^ 3 / #300000.
  Definition n_x2 : R := #134.96298 + #477198.867398 * n_jce + #0.0086972 * n_jce ^ 2 + n_jce ^ 3 / #56250.
  Definition n_x3 : R := #93.27191 + #483202.017538 * n_jce - #0.0036825 * n_jce ^ 2 + n_jce ^ 3 / #327270.
  Definition n_x4 : R := #125.04452 - #1934.136261 * n_jce + #0.0020708 * n_jce ^ 2 + n_jce ^ 3 / #450000.
  Definition n_arg (y : Z * Z * Z * Z * Z) : R :=
    let '(y0, y1, y2, y3, y4) := y in
    (IZR y0 * n_x0 + IZR y1 * n_x1 + IZR y2 * n_x2 + IZR y3 * n_x3 + IZR y4 * n_x4) * (PI / 180).
  Definition ABCDY := combine PARAMS_NUTATION_ABCD PARAMS_NUTATION_YVALUES.
  Definition n_dpsi : R :=
    fold_right Rplus 0 (map (fun '((A, B, C, D), y) => (Q2R A + Q2R B * n_jme) * sin (n_arg y) / #36000000) ABCDY).
  Definition n_deps : R :=
    fold_right Rplus 0 (map (fun '((A, B, C, D), y) => (Q2R C + Q2R D * n_jme) * cos (n_arg y) / #36000000) ABCDY).
  Definition n_eps0 : R :=
    let u := n_jme / #10.0 in
    #84381.448 - #4680.93 * u - #1.55 * u ^ 2 + #1999.25 * u ^ 3
    - #51.38 * u ^ 4 - #249.67 * u ^ 5 - #39.05 * u ^ 6 + #7.12 * u ^ 7
    + #27.87 * u ^ 8 + #5.79 * u ^ 9 + #2.45 * u ^ 10.
  Definition n_eps : R := (n_eps0 / #3600.0 + n_deps) * (PI / 180).
  Definition n_dtau : R := - #20.4898 / (#3600.0 * n_R).
  Definition n_lam : R := (n_theta + n_dpsi + n_dtau) * (PI / 180).
  Definition n_v0 : R := md (#280.46061837 + #360.98564736629 * (n_jd - #2451545)
                     + #0.000387933 * n_jc ^ 2 - n_jc ^ 3 / #38710000) #360.0.
  Definition n_v : R := n_v0 + n_dpsi * cos n_eps.
  Definition n_ra0 : R := Ratan2 (sin n_lam * cos n_eps - tan n_beta * sin n_eps) (cos n_lam).
  Definition n_alpha : R := md (n_ra0 * (180 / PI)) #360.
  Definition n_sind : R := sin n_beta * cos n_eps + cos n_beta * sin n_eps * sin n_lam.
  Definition n_delta : R := asin n_sind.
  Definition n_m : R := #280.4664567 + #360007.6982779 * n_jme + #0.03032028 * n_jme ^ 2
    + n_jme ^ 3 / #49931 - n_jme ^ 4 / #15300 - n_jme ^ 5 / #2000000.
  Definition n_eot0 : R := md (n_m - #0.0057183 - n_alpha + n_dpsi * cos n_eps) #360 * #4.
  Definition n_eot1 : R := where_ (Rltb n_eot0 (- #20.0)) (n_eot0 + #1440) n_eot0.
  Definition n_eot : R := where_ (Rltb #20.0 n_eot1) (n_eot1 - #1440) n_eot1.
  Definition n_ecf : R := #1 / n_R ^ 2.
End Time.

Section Bounds.
  Variable s : R.
  Hypothesis Hs : in_ns_range s.
  Lemma n_jce_b : -3.223 <= n_jce s <= 2.623.
  Proof. unfold n_jce, n_jde, n_jd, in_ns_range in *. q2. lra. Qed.
  Lemma n_jme_b : -0.3223 <= n_jme s <= 0.2623.
  Proof. pose proof n_jce_b. unfold n_jme. q2. lra. Qed.

  Lemma n_R_b : 0.9826 <= n_R s <= 1.0176.
  Proof.
    unfold n_R, nj_R. pose proof n_jme_b as Hj. generalize dependent (n_jme s). intros j Hj.
    assert (H0 : Rabs (r_series T_R0 j - #100013989.0) <= #1695888) by (apply series_head_le; [reflexivity|vm_compute; reflexivity|discriminate]).
    assert (H1 : Rabs (r_series T_R1 j) <= #105580) by (apply series_le; vm_compute; reflexivity).
    assert (H2 : Rabs (r_series T_R2 j) <= #4520) by (apply series_le; vm_compute; reflexivity).
    assert (H3 : Rabs (r_series T_R3 j) <= #160) by (apply series_le; vm_compute; reflexivity).
    assert (H4 : Rabs (r_series T_R4 j) <= #5) by (apply series_le; vm_compute; reflexivity).
    apply Rabs_le_inv in H0, H1, H2, H3, H4.
    generalize dependent (r_series T_R0 j). generalize dependent (r_series T_R1 j). generalize dependent (r_series T_R2 j).
    generalize dependent (r_series T_R3 j). generalize dependent (r_series T_R4 j). intros r4 H4 r3 H3 r2 H2 r1 H1 r0 H0.
    q2. assert (98318100 <= r0 <= 101709878) by lra. split; interval.
  Qed.
  Lemma n_ecf_b : 0.96 <= n_ecf s <= 1.04.
  Proof. unfold n_ecf. pose proof n_R_b. generalize dependent (n_R s). intros r Hr. q2. split; interval. Qed.
  Lemma n_beta_b : Rabs (n_beta s) <= 5.44e-6.
  Proof.
    unfold n_beta, n_B, nj_B. pose proof n_jme_b as Hj. generalize dependent (n_jme s). intros j Hj.
    assert (H0 : Rabs (r_series T_B0 j) <= #538) by (apply series_le; vm_compute; reflexivity).
    assert (H1 : Rabs (r_series T_B1 j) <= #15) by (apply series_le; vm_compute; reflexivity).
    apply Rabs_le_inv in H0, H1.
    generalize dependent (r_series T_B0 j). generalize dependent (r_series T_B1 j). intros r1 H1 r0 H0.
    replace (- (PI / 180) * (180 / PI * (r0 + r1 * j) / #1e8)) with (- ((r0 + r1 * j) / #1e8)).
    2:{ q2. field. apply PI_neq. }
    q2. interval.
  Qed.
  Fixpoint q_nut (f : Q * Q * Q * Q -> Q * Q) (t : list (Q * Q * Q * Q * (Z * Z * Z * Z * Z))) : Q :=
    match t with [] => 0%Q | (c, _) :: t => Qred (Qabs (fst (f c)) + (Qmake 1 2) * Qabs (snd (f c)) + q_nut f t) end.
  Lemma nut_b (f : Q * Q * Q * Q -> Q * Q) (g : R -> R) t : (forall x, -1 <= g x <= 1) ->
    Rabs (fold_right Rplus 0 (map (fun '(c, y) => (Q2R (fst (f c)) + Q2R (snd (f c)) * n_jme s) * g (n_arg s y) / #36000000) t))
    <= Q2R (q_nut f t) / 36000000.
  Proof.
    intros Hg. induction t as [|[c y] t IH].
    - cbn. rewrite Rabs_R0, RMicromega.Q2R_0. lra.
    - cbn [map fold_right q_nut]. rewrite (Qeq_eqR _ _ (Qred_correct _)), !Q2R_plus.
      eapply Rle_trans; [apply Rabs_triang|].
      assert (Hh : Rabs ((Q2R (fst (f c)) + Q2R (snd (f c)) * n_jme s) * g (n_arg s y) / #36000000)
         <= (Q2R (Qabs (fst (f c))) + Q2R ((Qmake 1 2) * Qabs (snd (f c)))) / 36000000).
      { replace (#36000000) with 36000000 by q2r. unfold Rdiv. rewrite Rabs_mult, (Rabs_pos_eq (/ 36000000)) by lra.
        apply Rmult_le_compat_r; [lra|]. rewrite Rabs_mult. specialize (Hg (n_arg s y)).
        assert (Rabs (g (n_arg s y)) <= 1) by (apply Rabs_le; lra).
        assert (Rabs (Q2R (fst (f c)) + Q2R (snd (f c)) * n_jme s) <= Q2R (Qabs (fst (f c))) + Q2R ((Qmake 1 2) * Qabs (snd (f c)))).
        { eapply Rle_trans; [apply Rabs_triang|]. rewrite Q2R_mult, <- !Rabs_Q2R, Rabs_mult.
          assert (Rabs (n_jme s) <= 1 / 2) by (apply Rabs_le; pose proof n_jme_b; lra).
          assert (0 <= Rabs (Q2R (snd (f c)))) by apply Rabs_pos. replace (Q2R (Qmake 1 2)) with (1/2) by q2r. nra. }
        assert (0 <= Rabs (Q2R (fst (f c)) + Q2R (snd (f c)) * n_jme s)) by apply Rabs_pos. 
        assert (0 <= Rabs (g (n_arg s y))) by apply Rabs_pos. nra. }
      lra.
  Qed.
  Lemma n_dpsi_b : Rabs (n_dpsi s) <= 0.00541.
  Proof.
    assert (H := nut_b (fun '(A, B, C, D) => (A, B)) sin ABCDY SIN_bound).
    replace (n_dpsi s) with (fold_right Rplus 0 (map (fun '(c, y) => (Q2R (fst ((fun '(A, B, C, D) => (A, B)) c : Q * Q)) + Q2R (snd ((fun '(A, B, C, D) => (A, B)) c : Q * Q)) * n_jme s) * sin (n_arg s y) / #36000000) ABCDY)).
    2:{ unfold n_dpsi. apply (f_equal (fold_right Rplus 0)). apply map_ext. intros [[[[a b] c] d] y]. reflexivity. }
    eapply Rle_trans; [exact H|].
    assert (Hq : Qle_bool (q_nut (fun '(A, B, C, D) => (A, B)) ABCDY) 194500 = true) by (vm_compute; reflexivity).
    apply Qle_bool_iff, Qle_Rle in Hq. replace (Q2R 194500) with 194500 in Hq by q2r. lra.
  Qed.
  Lemma n_deps_b : Rabs (n_deps s) <= 0.0029.
  Proof.
    assert (H := nut_b (fun '(A, B, C, D) => (C, D)) cos ABCDY COS_bound).
    replace (n_deps s) with (fold_right Rplus 0 (map (fun '(c, y) => (Q2R (fst ((fun '(A, B, C, D) => (C, D)) c : Q * Q)) + Q2R (snd ((fun '(A, B, C, D) => (C, D)) c : Q * Q)) * n_jme s) * cos (n_arg s y) / #36000000) ABCDY)).
    2:{ unfold n_deps. apply (f_equal (fold_right Rplus 0)). apply map_ext. intros [[[[a b] c] d] y]. reflexivity. }
    eapply Rle_trans; [exact H|].
    assert (Hq : Qle_bool (q_nut (fun '(A, B, C, D) => (C, D)) ABCDY) 104000 = true) by (vm_compute; reflexivity).
    apply Qle_bool_iff, Qle_Rle in Hq. replace (Q2R 104000) with 104000 in Hq by q2r. lra.
  Qed.
  Lemma n_eps_b : 0.408 <= n_eps s <= 0.41.
  Proof.
    unfold n_eps, n_eps0. pose proof n_deps_b as Hd. apply Rabs_le_inv in Hd. pose proof n_jme_b as Hj.
    generalize dependent (n_deps s). intros d Hd.
    generalize dependent (n_jme s). intros j Hj. q2. split; interval.
  Qed.
  Lemma n_sind_b md : Rabs (n_sind md s) <= 0.3987.
  Proof.
    unfold n_sind. pose proof n_beta_b as Hb. apply Rabs_le_inv in Hb. pose proof n_eps_b as He.
    generalize dependent (n_beta s). generalize dependent (n_eps s). intros e He b Hb. generalize (n_lam md s). intros l.
    eapply Rle_trans; [apply Rabs_triang|].
    assert (Rabs (sin b * cos e) <= 0.00001) by interval.
    assert (Rabs (cos b * sin e * sin l) <= 0.39862) by interval. lra.
  Qed.
  Lemma n_delta_b md : -0.411 <= n_delta md s <= 0.411.
  Proof.
    pose proof (n_sind_b md) as H. apply Rabs_le_inv in H. unfold n_delta. generalize dependent (n_sind md s). intros x Hx.
    assert (Hc : exists c, c = 0.411 /\ 0.3987 <= sin c) by (exists 0.411; split; [reflexivity|interval]).
    destruct Hc as (c & Ec & H1). assert (1.5 < PI / 2) by interval. pose proof (asin_bound x) as Ha.
    split; apply Rnot_lt_le; intros Hn.
    - assert (sin (asin x) < sin (- c)) by (apply sin_increasing_1; lra). rewrite sin_asin, sin_neg in * by lra. lra.
    - assert (sin c < sin (asin x)) by (apply sin_increasing_1; lra). rewrite sin_asin in * by lra. lra.
  Qed.
  Lemma n_R_nz : n_R s <> 0. Proof. pose proof n_R_b. lra. Qed.
  Lemma n_R2_nz : n_R s ^ 2 <> 0. Proof. pose proof n_R_b. nra. Qed.
  Lemma n_3600R : #3600.0 * n_R s <> 0. Proof. pose proof n_R_b. q2; lra. Qed.
  Lemma n_cosbeta : cos (n_beta s) <> 0.
  Proof. pose proof n_beta_b as H. apply Rabs_le_inv in H. assert (0 < cos (n_beta s)); [|lra]. apply cos_gt_0; assert (1.5 < PI / 2) by interval; lra. Qed.
  Lemma n_sind_u md : -1 <= sin (n_beta s) * cos (n_eps s) + cos (n_beta s) * sin (n_eps s) * sin (n_lam md s) <= 1.
  Proof. pose proof (n_sind_b md) as H. apply Rabs_le_inv in H. unfold n_sind in H. lra. Qed.
End Bounds.
Global Hint Resolve n_R_nz n_R2_nz n_3600R n_cosbeta n_sind_u : nz.

Lemma nut_R (f : Q * Q * Q * Q -> Q * Q) (g : R -> R) j (a : Z * Z * Z * Z * Z -> R) t :
  fold_right e_add (Fin 0) (map (fun '(c, y) => e_div (e_mul (e_add (Fin (Q2R (fst (f c)))) (e_mul (Fin (Q2R (snd (f c)))) (Fin j))) (e_fun g (Fin (a y)))) (Fin #36000000)) t)
  = Fin (fold_right Rplus 0 (map (fun '(c, y) => (Q2R (fst (f c)) + Q2R (snd (f c)) * j) * g (a y) / #36000000) t)).
Proof.
  induction t as [|[c y] t IH]; [reflexivity|]. cbn [map fold_right]. rewrite IH. fin_all. reflexivity.
Qed.

Lemma n_nutarg E s y : nut_arg (O := ExtOps E) y (Fin (n_x0 s)) (Fin (n_x1 s)) (Fin (n_x2 s)) (Fin (n_x3 s)) (Fin (n_x4 s)) = Fin (n_arg s y).
Proof. destruct y as [[[[y0 y1] y2] y3] y4]. unfold nut_arg, n_arg. ext_ops. fin. reflexivity. Qed.
Lemma nx_R E s : nrel_x0 (O := ExtOps E) (Fin (n_jce s)) = Fin (n_x0 s) /\ nrel_x1 (O := ExtOps E) (Fin (n_jce s)) = Fin (n_x1 s) /\
  nrel_x2 (O := ExtOps E) (Fin (n_jce s)) = Fin (n_x2 s) /\ nrel_x3 (O := ExtOps E) (Fin (n_jce s)) = Fin (n_x3 s) /\ nrel_x4 (O := ExtOps E) (Fin (n_jce s)) = Fin (n_x4 s).
Proof.
  unfold nrel_x0, nrel_x1, nrel_x2, nrel_x3, nrel_x4, n_x0, n_x1, n_x2, n_x3, n_x4. ext_ops.
  repeat split; fin_all; reflexivity.
Qed.
Lemma n_dpsi_R E s : nrel_delta_psi (O := ExtOps E) (Fin (n_jce s)) (Fin (n_jme s)) = Fin (n_dpsi s).
Proof.
  unfold nrel_delta_psi. destruct (nx_R E s) as (-> & -> & -> & -> & ->). fold ABCDY.
  rewrite (map_ext _ (fun '((A, B, C, D), y) => e_div (e_mul (e_add (Fin (Q2R A)) (e_mul (Fin (Q2R B)) (Fin (n_jme s)))) (e_fun sin (Fin (n_arg s y)))) (Fin #36000000))).
  2:{ intros [[[[A B] C] D] y]. rewrite n_nutarg. reflexivity. }
  transitivity (fold_right e_add (Fin 0) (map (fun '(c, y) => e_div (e_mul (e_add (Fin (Q2R (fst ((fun '(A, B, C, D) => (A, B)) c : Q * Q)))) (e_mul (Fin (Q2R (snd ((fun '(A, B, C, D) => (A, B)) c : Q * Q)))) (Fin (n_jme s)))) (e_fun sin (Fin (n_arg s y)))) (Fin #36000000)) ABCDY)).
  - ext_ops. apply (f_equal (fold_right e_add (Fin 0))). apply map_ext. intros [[[[A B] C] D] y]. reflexivity.
  - rewrite nut_R. unfold n_dpsi. apply (f_equal (fun l => Fin (fold_right Rplus 0 l))). apply map_ext. intros [[[[A B] C] D] y]. reflexivity.
Qed.
Lemma n_deps_R E s : nrel_delta_eps (O := ExtOps E) (Fin (n_jce s)) (Fin (n_jme s)) = Fin (n_deps s).
Proof.
  unfold nrel_delta_eps. destruct (nx_R E s) as (-> & -> & -> & -> & ->). fold ABCDY.
  rewrite (map_ext _ (fun '((A, B, C, D), y) => e_div (e_mul (e_add (Fin (Q2R C)) (e_mul (Fin (Q2R D)) (Fin (n_jme s)))) (e_fun cos (Fin (n_arg s y)))) (Fin #36000000))).
  2:{ intros [[[[A B] C] D] y]. rewrite n_nutarg. reflexivity. }
  transitivity (fold_right e_add (Fin 0) (map (fun '(c, y) => e_div (e_mul (e_add (Fin (Q2R (fst ((fun '(A, B, C, D) => (C, D)) c : Q * Q)))) (e_mul (Fin (Q2R (snd ((fun '(A, B, C, D) => (C, D)) c : Q * Q)))) (Fin (n_jme s)))) (e_fun cos (Fin (n_arg s y)))) (Fin #36000000)) ABCDY)).
  - ext_ops. apply (f_equal (fold_right e_add (Fin 0))). apply map_ext. intros [[[[A B] C] D] y]. reflexivity.
  - rewrite nut_R. unfold n_deps. apply (f_equal (fun l => Fin (fold_right Rplus 0 l))). apply map_ext. intros [[[[A B] C] D] y]. reflexivity.
Qed.

Lemma fold_R_R E s : nrel_radius (O := ExtOps E) (Fin (n_jme s)) = Fin (n_R s).
Proof. cbv beta zeta delta [nrel_radius]. rewrite !series_R. ext_ops. fin_all. reflexivity. Qed.
Lemma fold_L_R E s : nrel_L (O := ExtOps E) (Fin (n_jme s)) = Fin (n_L (nem E) s).
Proof. cbv beta zeta delta [nrel_L]. rewrite !series_R. ext_ops. fin_all. reflexivity. Qed.
Lemma fold_B_R E s : nrel_B (O := ExtOps E) (Fin (n_jme s)) = Fin (n_B s).
Proof. cbv beta zeta delta [nrel_B]. rewrite !series_R. ext_ops. fin_all. reflexivity. Qed.
Lemma fold_eps0_R E s : nrel_epsilon0 (O := ExtOps E) (Fin (n_jme s)) = Fin (n_eps0 s).
Proof. cbv beta zeta delta [nrel_epsilon0]. ext_ops. fin_all. reflexivity. Qed.
Lemma fold_m_R E s : nrel_m (O := ExtOps E) (Fin (n_jme s)) = Fin (n_m s).
Proof. cbv beta zeta delta [nrel_m]. ext_ops. fin_all. reflexivity. Qed.

Lemma ne_nrel_time_R E s : in_ns_range s ->
  ne_nrel_time (O := ExtOps E) (Fin s) =
  {| nr_alpha := Fin (n_alpha (nem E) s); nr_delta := Fin (n_delta (nem E) s); nr_eot := Fin (n_eot (nem E) s);
     nr_v := Fin (n_v (nem E) s); nr_R := Fin (n_R s) |}.
Proof.
  intros Hs. cbv beta delta [ne_nrel_time].
  stepg (n_jd s). 1:{ unfold nrel_jd. ext_ops. fin_all. reflexivity. }
  stepg (n_jde s). 1:{ unfold nrel_jde, DELTA_T. ext_ops. fin_all. reflexivity. }
  stepg (n_jc s). 1:{ unfold nrel_jc. ext_ops. fin_all. reflexivity. }
  stepg (n_jce s). 1:{ unfold nrel_jce. ext_ops. fin_all. reflexivity. }
  stepg (n_jme s). 1:{ unfold nrel_jme. ext_ops. fin_all. reflexivity. }
  stepg (n_R s). 1:{ apply fold_R_R. }
  stepg (n_L (nem E) s). 1:{ apply fold_L_R. }
  stepg (n_B s). 1:{ apply fold_B_R. }
  step (n_theta (nem E) s). step (n_beta s).
  stepg (n_dpsi s). 1:{ apply n_dpsi_R. }
  stepg (n_deps s). 1:{ apply n_deps_R. }
  stepg (n_eps0 s). 1:{ apply fold_eps0_R. }
  step (n_eps s). step (n_dtau s). step (n_lam (nem E) s). step (n_v0 (nem E) s). step (n_v (nem E) s).
  stepg (n_alpha (nem E) s). 1:{ rewrite fin_tan by auto with nz. fin_all. reflexivity. }
  step (n_delta (nem E) s).
  stepg (n_m s). 1:{ apply fold_m_R. }
  step (n_eot0 (nem E) s). step (n_eot1 (nem E) s). step (n_eot (nem E) s). reflexivity.
Qed.

(** ** The equation of time *)
(** Reduction to the equator with a small ecliptic latitude. *)
Lemma reduction_small_p c p l : 0.917 <= c <= 1 -> Rabs p <= 3e-6 ->
  exists k : Z, Rabs (l - Ratan2 (sin l * c - p) (cos l) - 2 * PI * IZR k) <= 0.0435.
Proof.
  intros Hc Hp. replace 3e-6 with (3/1000000) in Hp by q2r. apply Rabs_le_inv in Hp. apply small_tan; rewrite ?cos_minus, ?sin_minus;
  destruct (Sky.Ratan2_polar (sin l * c - p) (cos l)) as [Hx Hy];
  assert (Hq := sqrt_pos (cos l ^ 2 + (sin l * c - p) ^ 2));
  set (q := sqrt _) in *; set (r := Ratan2 _ _) in *; pose proof (Sky.sc1 l) as H1;
  pose proof (SIN_bound l); pose proof (COS_bound l);
  set (cl := cos l) in *; set (sl := sin l) in *;
  assert (HD : 0.917 <= cl * cl + c * (sl * sl)) by nra.
  - assert (Hp' : 0 < q * (cl * cos r + sl * sin r)).
    { replace (q * (cl * cos r + sl * sin r)) with (cl * (q * cos r) + sl * (q * sin r)) by ring.
      rewrite <- Hx, <- Hy. nra. }
    destruct (Rle_or_lt (cl * cos r + sl * sin r) 0); [nra|lra].
  - assert (Hcos : q * (cl * cos r + sl * sin r) = cl * cl + c * (sl * sl) - p * sl).
    { replace (q * (cl * cos r + sl * sin r)) with (cl * (q * cos r) + sl * (q * sin r)) by ring.
      rewrite <- Hx, <- Hy. ring. }
    assert (Hsin : q * (sl * cos r - cl * sin r) = (1 - c) * (sl * cl) + p * cl).
    { replace (q * (sl * cos r - cl * sin r)) with (sl * (q * cos r) - cl * (q * sin r)) by ring.
      rewrite <- Hx, <- Hy. ring. }
    assert (Hps : - (3/1000000) <= p * sl <= 3/1000000) by (split; nra).
    assert (Hpc : - (3/1000000) <= p * cl <= 3/1000000) by (split; nra).
    assert (Hq0 : 0 < q). { destruct Hq as [|E]; [assumption|]. rewrite <- E in Hcos. lra. }
    apply Rmult_le_reg_l with q; [assumption|].
    rewrite <- (Rabs_pos_eq q) at 1 by lra. rewrite <- Rabs_mult, Hsin.
    replace (q * (0.0435 * (cl * cos r + sl * sin r))) with (0.0435 * (q * (cl * cos r + sl * sin r))) by ring.
    rewrite Hcos. assert (Hsq : Rsqr ((1 - c) * (sl * cl)) <= Rsqr (0.0434 * (cl * cl + c * (sl * sl)))).
    { unfold Rsqr. assert (4 * c * (sl * cl) * (sl * cl) <= (cl * cl + c * (sl * sl)) * (cl * cl + c * (sl * sl))).
      { assert (0 <= (cl * cl - c * (sl * sl)) * (cl * cl - c * (sl * sl))) by apply Rle_0_sqr. lra. }
      assert (0 <= (sl * cl) * (sl * cl)) by apply Rle_0_sqr.
      assert ((1 - c) * (1 - c) <= 0.0434 * 0.0434 * (4 * c)) by nra.
      replace ((1 - c) * (sl * cl) * ((1 - c) * (sl * cl))) with ((1 - c) * (1 - c) * (sl * cl * (sl * cl))) by ring.
      nra. }
    apply Rsqr_le_abs_0 in Hsq. rewrite (Rabs_pos_eq (0.0434 * _)) in Hsq by nra.
    apply Rabs_le_inv in Hsq. apply Rabs_le. lra.
Qed.

Lemma w_small p c r : 0.917 <= c <= 1 -> - 0.00541 <= p <= 0.00541 -> 0.9826 <= r <= 1.0176 ->
  Rabs ((p * c - #0.0057183 - p - - #20.4898 / (#3600.0 * r)) * (PI / 180)) <= 0.0001.
Proof.
  intros Hc Hp Hr. replace (p * c - #0.0057183 - p) with (- #0.0057183 - p * (1 - c)) by ring. q2. interval.
Qed.

Section Eot.
  Variable md : R -> R -> R.
  Hypothesis Hmd : mod_spec md.
  Variable s : R.
  Hypothesis Hs : in_ns_range s.

  Lemma n_m_theta : exists k : Z, Rabs ((n_m s - n_theta md s) * (PI / 180) - 2 * PI * IZR k) <= 0.0349.
  Proof.
    pose proof PI_RGT_0 as HP. unfold n_theta.
    destruct (Hmd (n_L md s + #180.0) #360) as (k1 & -> & _); [q2r|]. unfold n_L.
    destruct (Hmd (180 / PI * nj_Lrad (n_jme s) / #1e8) #360) as (k2 & -> & _); [q2r|].
    exists (k1 + k2)%Z. rewrite plus_IZR. pose proof (n_jme_b s Hs) as Hj. unfold n_m, nj_Lrad.
    set (kk1 := IZR k1). set (kk2 := IZR k2). generalize dependent (n_jme s). intros j Hj.
    assert (H0 : Rabs (r_series T_L0 j - #175347046.0) <= #3405500) by (apply series_head_le; [reflexivity|vm_compute; reflexivity|discriminate]).
    assert (H1 : Rabs (r_series T_L1 j - #628331966747.0) <= #211800) by (apply series_head_le; [reflexivity|vm_compute; reflexivity|discriminate]).
    assert (H2 : Rabs (r_series T_L2 j) <= #62100) by (apply series_le; vm_compute; reflexivity).
    assert (H3 : Rabs (r_series T_L3 j) <= #350) by (apply series_le; vm_compute; reflexivity).
    assert (H4 : Rabs (r_series T_L4 j) <= #130) by (apply series_le; vm_compute; reflexivity).
    assert (H5 : Rabs (r_series T_L5 j) <= #2) by (apply series_le; vm_compute; reflexivity).
    apply Rabs_le_inv in H0, H1, H2, H3, H4, H5.
    set (r0 := r_series T_L0 j - #175347046.0) in *. replace (r_series T_L0 j) with (r0 + #175347046.0) by (unfold r0; ring).
    set (r1 := r_series T_L1 j - #628331966747.0) in *. replace (r_series T_L1 j) with (r1 + #628331966747.0) by (unfold r1; ring).
    clearbody r0 r1.
    generalize dependent (r_series T_L2 j). generalize dependent (r_series T_L3 j). generalize dependent (r_series T_L4 j). generalize dependent (r_series T_L5 j).
    intros r5 H5 r4 H4 r3 H3 r2 H2.
    match goal with |- Rabs ?x <= _ => replace x with
      ((#280.4664567 * (PI / 180) - #1.75347046 - PI) + (#360007.6982779 * (PI / 180) - #6283.31966747) * j
       + (#0.03032028 * j ^ 2 + j ^ 3 / #49931 - j ^ 4 / #15300 - j ^ 5 / #2000000) * (PI / 180)
       - (r0 + r1 * j + r2 * j ^ 2 + r3 * j ^ 3 + r4 * j ^ 4 + r5 * j ^ 5) / #1e8) by (q2; field; lra) end.
    q2. interval.
  Qed.

  Lemma n_eot_thm : Rabs (n_eot md s) <= 18.1 /\
    exists k : Z, n_eot md s = 4 * (n_m s - n_alpha md s - 0.0057183 + n_dpsi s * cos (n_eps s)) + 1440 * IZR k.
  Proof.
    pose proof PI_RGT_0 as HP. destruct n_m_theta as (k0 & Hk0).
    destruct (Hmd (n_ra0 md s * (180 / PI)) #360) as (k1 & Hk1 & _); [q2r|]. fold (n_alpha md s) in Hk1. qs.
    assert (Hep : 0.917 <= cos (n_eps s) <= 1).
    { pose proof (n_eps_b s Hs). generalize dependent (n_eps s). intros x Hx. interval. }
    assert (Hp : Rabs (tan (n_beta s) * sin (n_eps s)) <= 3e-6).
    { pose proof (n_eps_b s Hs) as He. pose proof (n_beta_b s Hs) as Hb. apply Rabs_le_inv in Hb.
      generalize dependent (n_eps s). generalize dependent (n_beta s). intros b Hb e _ He. unfold tan. q2. interval. }
    destruct (reduction_small_p (cos (n_eps s)) _ (n_lam md s) Hep Hp) as (k3 & Hk3). fold (n_ra0 md s) in Hk3.
    set (w := (n_dpsi s * cos (n_eps s) - #0.0057183 - n_dpsi s - n_dtau s) * (PI / 180)).
    assert (Hw : Rabs w <= 0.0001).
    { unfold w, n_dtau. apply w_small; [exact Hep|pose proof (Rabs_le_inv _ _ (n_dpsi_b s Hs)); lra|apply n_R_b, Hs]. }
    assert (Hlam : n_lam md s = n_theta md s * (PI / 180) + (n_dpsi s + n_dtau s) * (PI / 180)) by (unfold n_lam; ring).
    set (e := n_m s * (PI / 180) - n_ra0 md s - 2 * PI * IZR (k0 + k3) + (n_dpsi s * cos (n_eps s) - #0.0057183) * (PI / 180)).
    assert (He : Rabs e <= 0.0785).
    { replace e with (((n_m s - n_theta md s) * (PI / 180) - 2 * PI * IZR k0) + (n_lam md s - n_ra0 md s - 2 * PI * IZR k3) + w)
        by (unfold e, w; rewrite plus_IZR, Hlam; ring).
      eapply Rle_trans; [apply Rabs_triang|].
      pose proof (Rabs_triang ((n_m s - n_theta md s) * (PI / 180) - 2 * PI * IZR k0) (n_lam md s - n_ra0 md s - 2 * PI * IZR k3)).
      lra. }
    assert (Hm : Rabs (4 * e * (180 / PI)) <= 18.1).
    { rewrite rad_minutes_abs. assert (0 <= 720 / PI <= 229.2) by (split; interval). assert (0 <= Rabs e) by apply Rabs_pos. nra. }
    set (m := 4 * e * (180 / PI)) in *.
    destruct (Hmd (n_m s - #0.0057183 - n_alpha md s + n_dpsi s * cos (n_eps s)) #360) as (k2 & Hk2 & Hb2); [q2r|].
    assert (E : n_eot md s = m).
    { unfold n_eot, n_eot1. qs. apply (eot_wrap_lt_first _ m (k0 + k3 + k1 - k2)%Z); [| lra |].
      - unfold n_eot0. qs. rewrite Hk2. rewrite Hk1. unfold m, e. rewrite ?minus_IZR, ?plus_IZR. qs. field. lra.
      - unfold n_eot0. qs. rewrite Rabs_mult, (Rabs_pos_eq 4) by lra. lra. }
    split; [rewrite E; lra|]. exists (- (k0 + k3 + k1))%Z. rewrite E. unfold m, e.
    rewrite Hk1. rewrite ?opp_IZR, ?plus_IZR. field. lra.
  Qed.
End Eot.
