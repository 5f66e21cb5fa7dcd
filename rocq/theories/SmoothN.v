(** * SmoothN: how fast the directions computed by nrel move *)
From Coq Require Import ZArith QArith Qabs Qreals Reals Bool List String Lra Lia.
From Flocq Require Import Core.Raux.
From Interval Require Import Tactic.
From Verif Require Import Num Ext ExtLemmas Sky SkyClose AstroTac AstroSpec PsaR SoltrackR NrelTables NrelR NrelCell Almanac AlmanacR AlmanacSky AlmanacPos SmoothR.
Import ListNotations.
Open Scope R_scope.

(** ** Rates of the series *)
Fixpoint q_rate (t : list (Q * Q * Q)) : Q :=
  match t with [] => 0%Q | (c0, _, c2) :: t => Qred (Qabs (c0 * c2) + q_rate t) end.
Lemma r_series_lip t j j' : Rabs (r_series t j - r_series t j') <= Q2R (q_rate t) * Rabs (j - j').
Proof.
  induction t as [|[[c0 c1] c2] t IH].
  - cbn. rewrite Rminus_eq_0, Rabs_R0, RMicromega.Q2R_0. lra.
  - cbn [r_series q_rate r_term]. rewrite (Qeq_eqR _ _ (Qred_correct _)), Q2R_plus.
    replace (Q2R c0 * cos (Q2R c1 + Q2R c2 * j) + r_series t j - (Q2R c0 * cos (Q2R c1 + Q2R c2 * j') + r_series t j')) with
      (Q2R c0 * (cos (Q2R c1 + Q2R c2 * j) - cos (Q2R c1 + Q2R c2 * j')) + (r_series t j - r_series t j')) by ring.
    eapply Rle_trans; [apply Rabs_triang|]. rewrite Rmult_plus_distr_r. apply Rplus_le_compat; [|exact IH].
    rewrite <- Rabs_Q2R, Q2R_mult, !Rabs_mult, Rmult_assoc. apply Rmult_le_compat_l; [apply Rabs_pos|].
    eapply Rle_trans; [apply cos_lip|]. replace (Q2R c1 + Q2R c2 * j - (Q2R c1 + Q2R c2 * j')) with (Q2R c2 * (j - j')) by ring. rewrite Rabs_mult. apply Rle_refl.
Qed.
Lemma rate_le t b j j' : Qle_bool (q_rate t) b = true -> Rabs (r_series t j - r_series t j') <= Q2R b * Rabs (j - j').
Proof. intros H. apply Qle_bool_iff, Qle_Rle in H. eapply Rle_trans; [apply r_series_lip|]. apply Rmult_le_compat_r; [apply Rabs_pos|exact H]. Qed.
Lemma pow_lip n x y : Rabs x <= 1 -> Rabs y <= 1 -> Rabs (x ^ n - y ^ n) <= INR n * Rabs (x - y).
Proof.
  intros Hx Hy. induction n as [|n IH]; [cbn; rewrite Rminus_eq_0, Rabs_R0; lra|].
  rewrite S_INR. cbn [pow]. assert (P : Rabs (x ^ n) <= 1) by (rewrite <- RPow_abs; clear - Hx; induction n; cbn; [lra|pose proof (Rabs_pos x); pose proof (pow_le (Rabs x) n (Rabs_pos x)); nra]).
  assert (M := mul_diff y (y ^ n) x (x ^ n) 1 1 _ _ Hy P (Rle_refl _) ltac:(rewrite Rabs_minus_sym; exact IH)). rewrite Rabs_minus_sym in M. rewrite (Rabs_minus_sym y x) in M. lra.
Qed.
(** One term (series times power). *)
Lemma term_lip t A r n M j j' : Qle_bool (q_amp t) A = true -> Qle_bool (q_rate t) r = true -> Rabs j <= M -> Rabs j' <= M -> M <= 1 ->
  Rabs (r_series t j * j ^ n - r_series t j' * j' ^ n) <= (Q2R A * INR n + Q2R r) * Rabs (j - j').
Proof.
  intros HA Hr Hj Hj' HM. assert (P : Rabs (j' ^ n) <= 1) by (assert (Hx : Rabs j' <= 1) by lra; rewrite <- RPow_abs; clear - Hx; induction n; cbn; [lra|pose proof (Rabs_pos j'); pose proof (pow_le (Rabs j') n (Rabs_pos j')); nra]).
  assert (M1 := mul_diff _ _ _ _ _ _ _ _ (series_le t A j HA) P (rate_le t r j j' Hr) (pow_lip n j j' ltac:(lra) ltac:(lra))). lra.
Qed.

Section Series.
  Variables j j' : R.
  Hypothesis Hj : -0.3223 <= j <= 0.2623.
  Hypothesis Hj' : -0.3223 <= j' <= 0.2623.
  Let Aj : Rabs j <= 0.3223. Proof. apply Rabs_le. lra. Qed.
  Let Aj' : Rabs j' <= 0.3223. Proof. apply Rabs_le. lra. Qed.

  Lemma nj_Lrad_lip : Rabs (nj_Lrad j - nj_Lrad j') <= 651000000000 * Rabs (j - j').
  Proof.
    assert (H0 := rate_le T_L0 21820000000 j j' ltac:(vm_compute; reflexivity)).
    assert (H1a := series_le T_L1 628332200000 j ltac:(vm_compute; reflexivity)).
    assert (H1b := rate_le T_L1 1400000000 j j' ltac:(vm_compute; reflexivity)).
    assert (H1 := mul_diff _ _ _ _ _ _ _ _ H1a Aj' H1b (Rle_refl (Rabs (j - j')))).
    assert (H2 := term_lip T_L2 63000 60000000 2 _ j j' ltac:(vm_compute; reflexivity) ltac:(vm_compute; reflexivity) Aj Aj' ltac:(lra)).
    assert (H3 := term_lip T_L3 400 3000000 3 _ j j' ltac:(vm_compute; reflexivity) ltac:(vm_compute; reflexivity) Aj Aj' ltac:(lra)).
    assert (H4 := term_lip T_L4 200 200000 4 _ j j' ltac:(vm_compute; reflexivity) ltac:(vm_compute; reflexivity) Aj Aj' ltac:(lra)).
    assert (H5 := term_lip T_L5 10 20000 5 _ j j' ltac:(vm_compute; reflexivity) ltac:(vm_compute; reflexivity) Aj Aj' ltac:(lra)).
    unfold nj_Lrad. pose proof (Rabs_pos (j - j')). set (d := Rabs (j - j')) in *.
    set (x0 := r_series T_L0 j) in *. set (y0 := r_series T_L0 j') in *. set (x1 := r_series T_L1 j * j) in *. set (y1 := r_series T_L1 j' * j') in *.
    set (x2 := r_series T_L2 j * j ^ 2) in *. set (y2 := r_series T_L2 j' * j' ^ 2) in *. set (x3 := r_series T_L3 j * j ^ 3) in *. set (y3 := r_series T_L3 j' * j' ^ 3) in *.
    set (x4 := r_series T_L4 j * j ^ 4) in *. set (y4 := r_series T_L4 j' * j' ^ 4) in *. set (x5 := r_series T_L5 j * j ^ 5) in *. set (y5 := r_series T_L5 j' * j' ^ 5) in *.
    clear H1a H1b. clearbody x0 y0 x1 y1 x2 y2 x3 y3 x4 y4 x5 y5 d. cbn [INR] in *. apply Rabs_le_inv in H0, H1, H2, H3, H4, H5. revert H0 H1 H2 H3 H4 H5. q2. intros. apply Rabs_le. lra.
  Qed.
  Lemma nj_R_lip : Rabs (nj_R j - nj_R j') <= 119 * Rabs (j - j').
  Proof.
    assert (H0 := rate_le T_R0 11000000000 j j' ltac:(vm_compute; reflexivity)).
    assert (H1 := term_lip T_R1 110000 700000000 1 _ j j' ltac:(vm_compute; reflexivity) ltac:(vm_compute; reflexivity) Aj Aj' ltac:(lra)).
    assert (H2 := term_lip T_R2 5000 40000000 2 _ j j' ltac:(vm_compute; reflexivity) ltac:(vm_compute; reflexivity) Aj Aj' ltac:(lra)).
    assert (H3 := term_lip T_R3 200 2000000 3 _ j j' ltac:(vm_compute; reflexivity) ltac:(vm_compute; reflexivity) Aj Aj' ltac:(lra)).
    assert (H4 := term_lip T_R4 10 100000 4 _ j j' ltac:(vm_compute; reflexivity) ltac:(vm_compute; reflexivity) Aj Aj' ltac:(lra)).
    rewrite !pow_1 in H1. unfold nj_R. pose proof (Rabs_pos (j - j')). set (d := Rabs (j - j')) in *.
    set (x0 := r_series T_R0 j) in *. set (y0 := r_series T_R0 j') in *. set (x1 := r_series T_R1 j * j) in *. set (y1 := r_series T_R1 j' * j') in *.
    set (x2 := r_series T_R2 j * j ^ 2) in *. set (y2 := r_series T_R2 j' * j' ^ 2) in *. set (x3 := r_series T_R3 j * j ^ 3) in *. set (y3 := r_series T_R3 j' * j' ^ 3) in *.
    set (x4 := r_series T_R4 j * j ^ 4) in *. set (y4 := r_series T_R4 j' * j' ^ 4) in *.
    clearbody x0 y0 x1 y1 x2 y2 x3 y3 x4 y4 d. cbn [INR] in *. apply Rabs_le_inv in H0, H1, H2, H3, H4. revert H0 H1 H2 H3 H4. q2. intros. apply Rabs_le. lra.
  Qed.
  Lemma nj_B_lip : Rabs (nj_B j * (PI / 180) - nj_B j' * (PI / 180)) <= 1 * Rabs (j - j').
  Proof.
    assert (H0 := rate_le T_B0 50000000 j j' ltac:(vm_compute; reflexivity)).
    assert (H1 := term_lip T_B1 100 500000 1 _ j j' ltac:(vm_compute; reflexivity) ltac:(vm_compute; reflexivity) Aj Aj' ltac:(lra)).
    rewrite !pow_1 in H1. unfold nj_B. pose proof (Rabs_pos (j - j')). set (d := Rabs (j - j')) in *. pose proof PI_RGT_0 as PP.
    set (x0 := r_series T_B0 j) in *. set (y0 := r_series T_B0 j') in *. set (x1 := r_series T_B1 j * j) in *. set (y1 := r_series T_B1 j' * j') in *.
    replace (180 / PI * (x0 + x1) / #1e8 * (PI / 180) - 180 / PI * (y0 + y1) / #1e8 * (PI / 180)) with ((x0 - y0 + (x1 - y1)) / 100000000) by (q2; field; lra).
    clearbody x0 y0 x1 y1 d. cbn [INR] in *. apply Rabs_le_inv in H0, H1. revert H0 H1. q2. intros. apply Rabs_le. lra.
  Qed.
End Series.

(** ** Nutation *)
Definition y_rate (y : Z * Z * Z * Z * Z) : Z :=
  let '(y0, y1, y2, y3, y4) := y in (Z.abs y0 * 445268 + Z.abs y1 * 36000 + Z.abs y2 * 477200 + Z.abs y3 * 483203 + Z.abs y4 * 1935)%Z.
Fixpoint q_nut (f : Q * Q * Q * Q -> Q * Q) (t : list (Q * Q * Q * Q * (Z * Z * Z * Z * Z))) : Q :=
  match t with [] => 0%Q | (c, y) :: t => Qred ((Qabs (fst (f c)) + Qabs (snd (f c))) * inject_Z (y_rate y) * Qmake 7 400 + Qabs (snd (f c)) + q_nut f t) end.
Lemma Q2R_inject z : Q2R (inject_Z z) = IZR z.
Proof. unfold Q2R, inject_Z. cbn [Qnum Qden]. rewrite Rinv_1. ring. Qed.

Section Pair.
  Variables s s' : R.
  Hypothesis Hs : in_ns_range s.
  Hypothesis Hs' : in_ns_range s'.
  Let D : R := Rabs (s - s').
  Let P : 0 <= D. Proof. apply Rabs_pos. Qed.
  Let d : R := Rabs (n_jce s - n_jce s').
  Let Pd : 0 <= d. Proof. apply Rabs_pos. Qed.
  Lemma n_jce_lip : Rabs (n_jce s - n_jce s') <= 0.000000000316881 * D.
  Proof. unfold n_jce, n_jde, n_jd. match goal with |- Rabs ?e <= _ => replace e with ((s - s') * / 3155760000) by (q2; field) end. rewrite Rabs_mult. fold D. rewrite (Rabs_pos_eq (/ _)) by lra. lra. Qed.
  Lemma n_jme_lip : Rabs (n_jme s - n_jme s') = d / 10.
  Proof. unfold n_jme, d. replace (n_jce s / #10 - n_jce s' / #10) with ((n_jce s - n_jce s') * / 10) by (q2; field). rewrite Rabs_mult, (Rabs_pos_eq (/ 10)) by lra. lra. Qed.
  Lemma jce2 : Rabs (n_jce s ^ 2 - n_jce s' ^ 2) <= 6.446 * d.
  Proof.
    assert (B := n_jce_b s Hs). assert (B' := n_jce_b s' Hs'). replace (n_jce s ^ 2 - n_jce s' ^ 2) with ((n_jce s + n_jce s') * (n_jce s - n_jce s')) by ring. rewrite Rabs_mult. fold d.
    apply Rmult_le_compat_r; [exact Pd|]. apply Rabs_le. lra.
  Qed.
  Lemma jce3 : Rabs (n_jce s ^ 3 - n_jce s' ^ 3) <= 32 * d.
  Proof.
    assert (B := n_jce_b s Hs). assert (B' := n_jce_b s' Hs'). replace (n_jce s ^ 3 - n_jce s' ^ 3) with ((n_jce s ^ 2 + n_jce s * n_jce s' + n_jce s' ^ 2) * (n_jce s - n_jce s')) by ring. rewrite Rabs_mult. fold d.
    apply Rmult_le_compat_r; [exact Pd|]. clear - B B'. generalize dependent (n_jce s). generalize dependent (n_jce s'). intros x Hx y Hy. apply Rabs_le. nra.
  Qed.
  Lemma n_x_lip : Rabs (n_x0 s - n_x0 s') <= 445268 * d /\ Rabs (n_x1 s - n_x1 s') <= 36000 * d /\ Rabs (n_x2 s - n_x2 s') <= 477200 * d /\
    Rabs (n_x3 s - n_x3 s') <= 483203 * d /\ Rabs (n_x4 s - n_x4 s') <= 1935 * d.
  Proof.
    assert (H2 := jce2). assert (H3 := jce3). assert (H1 : Rabs (n_jce s - n_jce s') <= d) by (unfold d; lra). apply Rabs_le_inv in H1, H2, H3.
    unfold n_x0, n_x1, n_x2, n_x3, n_x4. set (j2 := n_jce s ^ 2) in *. set (j2' := n_jce s' ^ 2) in *. set (j3 := n_jce s ^ 3) in *. set (j3' := n_jce s' ^ 3) in *. clearbody d j2 j2' j3 j3'.
    q2. repeat split; apply Rabs_le; lra.
  Qed.
  Lemma izr_mul z x b : Rabs x <= b -> Rabs (IZR z * x) <= IZR (Z.abs z) * b.
  Proof. intros H. rewrite Rabs_mult, abs_IZR. apply Rmult_le_compat_l; [apply Rabs_pos|exact H]. Qed.
  Lemma n_arg_lip y : Rabs (n_arg s y - n_arg s' y) <= IZR (y_rate y) * (7 / 400) * d.
  Proof.
    destruct y as [[[[y0 y1] y2] y3] y4]. destruct n_x_lip as (H0 & H1 & H2 & H3 & H4). unfold n_arg, y_rate.
    apply (izr_mul y0) in H0. apply (izr_mul y1) in H1. apply (izr_mul y2) in H2. apply (izr_mul y3) in H3. apply (izr_mul y4) in H4.
    match goal with |- Rabs ?e <= _ => replace e with ((IZR y0 * (n_x0 s - n_x0 s') + IZR y1 * (n_x1 s - n_x1 s') + IZR y2 * (n_x2 s - n_x2 s') + IZR y3 * (n_x3 s - n_x3 s') + IZR y4 * (n_x4 s - n_x4 s')) * (PI / 180)) by ring end.
    rewrite !plus_IZR, !mult_IZR. rewrite Rabs_mult. set (X := Rabs (_ + _)).
    assert (HX : X <= (IZR (Z.abs y0) * 445268 + IZR (Z.abs y1) * 36000 + IZR (Z.abs y2) * 477200 + IZR (Z.abs y3) * 483203 + IZR (Z.abs y4) * 1935) * d).
    { apply Rabs_le_inv in H0, H1, H2, H3, H4. unfold X. apply Rabs_le. lra. }
    assert (0 <= X) by apply Rabs_pos. assert (0 <= PI / 180 <= 7 / 400) by (split; interval). rewrite (Rabs_pos_eq (PI / 180)) by lra.
    apply Rle_trans with (X * (7 / 400)); [apply Rmult_le_compat_l; lra|]. clearbody X. lra.
  Qed.
  Lemma nut_lip (f : Q * Q * Q * Q -> Q * Q) (g : R -> R) t : (forall x, Rabs (g x) <= 1) -> (forall x y, Rabs (g x - g y) <= Rabs (x - y)) ->
    Rabs (fold_right Rplus 0 (map (fun '(c, y) => (Q2R (fst (f c)) + Q2R (snd (f c)) * n_jme s) * g (n_arg s y) / #36000000) t) -
          fold_right Rplus 0 (map (fun '(c, y) => (Q2R (fst (f c)) + Q2R (snd (f c)) * n_jme s') * g (n_arg s' y) / #36000000) t))
    <= Q2R (q_nut f t) / 36000000 * d.
  Proof.
    intros Hg Hl. induction t as [|[c y] t IH].
    - cbn. rewrite Rminus_eq_0, Rabs_R0, RMicromega.Q2R_0. lra.
    - cbn [map fold_right q_nut]. rewrite (Qeq_eqR _ _ (Qred_correct _)), !Q2R_plus, !Q2R_mult, Q2R_plus, Q2R_inject. set (a := fst (f c)) in *. set (b := snd (f c)) in *.
      set (S := fold_right Rplus 0 _) in *. set (S' := fold_right Rplus 0 (map (fun '(c, y) => _ * g (n_arg s' y) / _) t)) in *.
      assert (B := n_jme_b s Hs). assert (J := n_jme_lip). assert (A := n_arg_lip y). assert (Yp : 0 <= IZR (y_rate y)) by (apply IZR_le; destruct y as [[[[y0 y1] y2] y3] y4]; cbn [y_rate]; lia).
      assert (M : Rabs ((Q2R a + Q2R b * n_jme s) * g (n_arg s y) - (Q2R a + Q2R b * n_jme s') * g (n_arg s' y)) <= (Q2R (Qabs a) + Q2R (Qabs b)) * (IZR (y_rate y) * (7 / 400) * d) + 1 * (Q2R (Qabs b) * d)).
      { apply mul_diff; [| apply Hg| |].
        - rewrite <- !Rabs_Q2R. eapply Rle_trans; [apply Rabs_triang|]. apply Rplus_le_compat_l. rewrite Rabs_mult. rewrite <- (Rmult_1_r (Rabs (Q2R b))) at 2. apply Rmult_le_compat_l; [apply Rabs_pos|apply Rabs_le; lra].
        - replace (Q2R a + Q2R b * n_jme s - (Q2R a + Q2R b * n_jme s')) with (Q2R b * (n_jme s - n_jme s')) by ring. rewrite Rabs_mult, J, Rabs_Q2R. apply Rmult_le_compat_l; [rewrite <- Rabs_Q2R; apply Rabs_pos|lra].
        - eapply Rle_trans; [apply Hl|exact A]. }
      set (u := (Q2R a + Q2R b * n_jme s) * g (n_arg s y)) in *. set (u' := (Q2R a + Q2R b * n_jme s') * g (n_arg s' y)) in *.
      apply Rabs_le_inv in IH, M. clearbody S S' u u' d. generalize dependent (Q2R (Qabs a)). intros qa. generalize dependent (Q2R (Qabs b)). intros qb. generalize dependent (IZR (y_rate y)). intros yr. intros.
      set (N := Q2R (q_nut f t)) in *. clearbody N. q2. set (K := (qa + qb) * yr) in *. assert (E : (qa + qb) * (yr * (7 / 400) * d) = K * d * (7 / 400)) by (unfold K; field). rewrite E in M. apply Rabs_le. clearbody K. nra.
  Qed.

  Lemma n_dpsi_lip : Rabs (n_dpsi s - n_dpsi s') <= 50 * d.
  Proof.
    assert (H := nut_lip (fun '(A, B, C, D) => (A, B)) sin ABCDY abs_sin sin_lip).
    assert (E : forall x, n_dpsi x = fold_right Rplus 0 (map (fun '(c, y) => (Q2R (fst ((fun '(A, B, C, D) => (A, B)) c : Q * Q)) + Q2R (snd ((fun '(A, B, C, D) => (A, B)) c : Q * Q)) * n_jme x) * sin (n_arg x y) / #36000000) ABCDY)).
    { intros x. unfold n_dpsi. apply (f_equal (fold_right Rplus 0)). apply map_ext. intros [[[[A B] C] Dd] y]. reflexivity. }
    rewrite <- !E in H. eapply Rle_trans; [exact H|]. apply Rmult_le_compat_r; [exact Pd|].
    assert (K : Q2R (q_nut (fun '(A, B, C, D) => (A, B)) ABCDY) <= Q2R 1800000000) by (apply Qle_Rle, Qle_bool_iff; vm_compute; reflexivity).
    replace (Q2R 1800000000) with 1800000000 in K by q2r. lra.
  Qed.
  Lemma n_deps_lip : Rabs (n_deps s - n_deps s') <= 50 * d.
  Proof.
    assert (H := nut_lip (fun '(A, B, C, D) => (C, D)) cos ABCDY abs_cos cos_lip).
    assert (E : forall x, n_deps x = fold_right Rplus 0 (map (fun '(c, y) => (Q2R (fst ((fun '(A, B, C, D) => (C, D)) c : Q * Q)) + Q2R (snd ((fun '(A, B, C, D) => (C, D)) c : Q * Q)) * n_jme x) * cos (n_arg x y) / #36000000) ABCDY)).
    { intros x. unfold n_deps. apply (f_equal (fold_right Rplus 0)). apply map_ext. intros [[[[A B] C] Dd] y]. reflexivity. }
    rewrite <- !E in H. eapply Rle_trans; [exact H|]. apply Rmult_le_compat_r; [exact Pd|].
    assert (K : Q2R (q_nut (fun '(A, B, C, D) => (C, D)) ABCDY) <= Q2R 1800000000) by (apply Qle_Rle, Qle_bool_iff; vm_compute; reflexivity).
    replace (Q2R 1800000000) with 1800000000 in K by q2r. lra.
  Qed.
  Lemma n_R_lip : Rabs (n_R s - n_R s') <= 11.9 * d.
  Proof. assert (J := n_jme_lip). assert (H := nj_R_lip _ _ (n_jme_b s Hs) (n_jme_b s' Hs')). rewrite J in H. unfold n_R. lra. Qed.
  Lemma n_eps_lip : Rabs (n_eps s - n_eps s') <= 2 * d.
  Proof.
    assert (H := n_deps_lip). assert (J := n_jme_lip). assert (B := n_jme_b s Hs). assert (B' := n_jme_b s' Hs'). unfold n_eps.
    set (u := n_jme s / #10.0). set (u' := n_jme s' / #10.0). assert (Hu : Rabs u <= 1) by (unfold u; q2; apply Rabs_le; lra). assert (Hu' : Rabs u' <= 1) by (unfold u'; q2; apply Rabs_le; lra).
    assert (Ju : Rabs (u - u') = d / 100) by (unfold u, u'; replace (n_jme s / #10.0 - n_jme s' / #10.0) with ((n_jme s - n_jme s') * / 10) by (q2; field); rewrite Rabs_mult, J, (Rabs_pos_eq (/ 10)) by lra; lra).
    assert (E0 : Rabs (n_eps0 s - n_eps0 s') <= 15000 * (d / 100)).
    { unfold n_eps0. fold u u'. rewrite <- Ju.
      assert (L2 := pow_lip 2 _ _ Hu Hu'). assert (L3 := pow_lip 3 _ _ Hu Hu'). assert (L4 := pow_lip 4 _ _ Hu Hu'). assert (L5 := pow_lip 5 _ _ Hu Hu'). assert (L6 := pow_lip 6 _ _ Hu Hu').
      assert (L7 := pow_lip 7 _ _ Hu Hu'). assert (L8 := pow_lip 8 _ _ Hu Hu'). assert (L9 := pow_lip 9 _ _ Hu Hu'). assert (L10 := pow_lip 10 _ _ Hu Hu'). assert (L1 := Rabs_le_inv _ _ (Rle_refl (Rabs (u - u')))).
      pose proof (Rabs_pos (u - u')). set (r := Rabs (u - u')) in *. clearbody r. cbn [INR] in *. cbv zeta. apply Rabs_le_inv in L2, L3, L4, L5, L6, L7, L8, L9, L10.
      set (a2 := u ^ 2) in *. set (a3 := u ^ 3) in *. set (a4 := u ^ 4) in *. set (a5 := u ^ 5) in *. set (a6 := u ^ 6) in *. set (a7 := u ^ 7) in *. set (a8 := u ^ 8) in *. set (a9 := u ^ 9) in *. set (a10 := u ^ 10) in *.
      set (b2 := u' ^ 2) in *. set (b3 := u' ^ 3) in *. set (b4 := u' ^ 4) in *. set (b5 := u' ^ 5) in *. set (b6 := u' ^ 6) in *. set (b7 := u' ^ 7) in *. set (b8 := u' ^ 8) in *. set (b9 := u' ^ 9) in *. set (b10 := u' ^ 10) in *.
      clearbody a2 a3 a4 a5 a6 a7 a8 a9 a10 b2 b3 b4 b5 b6 b7 b8 b9 b10 u u'. clear - H0 L1 L2 L3 L4 L5 L6 L7 L8 L9 L10. q2. apply Rabs_le. lra. }
    set (x := n_eps0 s) in *. set (x' := n_eps0 s') in *. clearbody x x'.
    replace ((x / #3600.0 + n_deps s) * (PI / 180) - (x' / #3600.0 + n_deps s') * (PI / 180)) with (((x - x') / 3600 + (n_deps s - n_deps s')) * (PI / 180)) by (q2; field).
    rewrite Rabs_mult. assert (K : Rabs ((x - x') / 3600 + (n_deps s - n_deps s')) <= 60 * d) by (apply Rabs_le_inv in E0, H; apply Rabs_le; lra).
    assert (0 <= PI / 180 <= 0.02) by (split; interval). rewrite (Rabs_pos_eq (PI / 180)) by lra. pose proof (Rabs_pos ((x - x') / 3600 + (n_deps s - n_deps s'))). clear - K H0 H1 Pd. set (y := Rabs _) in *. clearbody y d. nra.
  Qed.
  Lemma n_beta_lip : Rabs (n_beta s - n_beta s') <= d.
  Proof.
    assert (J := n_jme_lip). assert (H := nj_B_lip _ _ (n_jme_b s Hs) (n_jme_b s' Hs')). rewrite J in H. unfold n_beta, n_B.
    replace (- (PI / 180) * nj_B (n_jme s) - - (PI / 180) * nj_B (n_jme s')) with (- (nj_B (n_jme s) * (PI / 180) - nj_B (n_jme s') * (PI / 180))) by ring. rewrite Rabs_Ropp. lra.
  Qed.
  (** ecliptic longitude and sidereal angle, without the reductions to one turn *)
  Definition m_lam (x : R) : R := nj_Lrad (n_jme x) / 100000000 + PI + (n_dpsi x - 20.4898 / 3600 * (1 / n_R x)) * (PI / 180).
  Definition m_th (x : R) : R := (280.46061837 + 360.98564736629 * (n_jd x - 2451545) + 0.000387933 * n_jc x ^ 2 - n_jc x ^ 3 / 38710000 + n_dpsi x * cos (n_eps x)) * (PI / 180).
  Lemma m_lam_lip : Rabs (m_lam s - m_lam s') <= 652 * d.
  Proof.
    assert (J := n_jme_lip). assert (H := nj_Lrad_lip _ _ (n_jme_b s Hs) (n_jme_b s' Hs')). rewrite J in H. assert (H1 := n_dpsi_lip). assert (B := n_R_b s Hs). assert (B' := n_R_b s' Hs').
    assert (H2 := inv_R (n_R s) (n_R s') _ ltac:(lra) ltac:(lra) n_R_lip). unfold m_lam. set (i := 1 / n_R s) in *. set (i' := 1 / n_R s') in *. set (L := nj_Lrad _) in *. set (L' := nj_Lrad (n_jme s')) in *.
    assert (K : Rabs ((n_dpsi s - 20.4898 / 3600 * i) - (n_dpsi s' - 20.4898 / 3600 * i')) <= 51 * d) by (apply Rabs_le_inv in H1, H2; clearbody i i' d; apply Rabs_le; lra).
    set (x := n_dpsi s - _ * i) in *. set (x' := n_dpsi s' - _ * i') in *.
    replace (L / 100000000 + PI + x * (PI / 180) - (L' / 100000000 + PI + x' * (PI / 180))) with ((L - L') / 100000000 + (x - x') * (PI / 180)) by field.
    assert (M : Rabs ((x - x') * (PI / 180)) <= 0.9 * d).
    { rewrite Rabs_mult. assert (0 <= PI / 180 <= 0.0175) by (split; interval). rewrite (Rabs_pos_eq (PI / 180)) by lra. pose proof (Rabs_pos (x - x')). clear - K H0 H3 Pd. set (y := Rabs _) in *. clearbody y d. nra. }
    apply Rabs_le_inv in H, M. clearbody L L' x x' d. apply Rabs_le. lra.
  Qed.
  Lemma m_th_lip : Rabs (m_th s - m_th s') <= 0.0000729212 * D + 2 * d.
  Proof.
    assert (H1 := n_dpsi_lip). assert (H2 := n_eps_lip). assert (Bp := n_dpsi_b s Hs).
    assert (C := mul_diff (n_dpsi s) (cos (n_eps s)) (n_dpsi s') (cos (n_eps s')) 0.00541 1 _ _ Bp (abs_cos _) H1 (Rle_trans _ _ _ (cos_lip _ _) H2)).
    assert (Ej : forall x, n_jc x = n_jce x - 67 / 86400 / 36525) by (intros x; unfold n_jc, n_jce, n_jde; q2; field).
    assert (Ed : Rabs (n_jc s - n_jc s') <= d) by (rewrite !Ej; unfold d; replace (_ - _) with (n_jce s - n_jce s') by ring; lra).
    assert (J2 : Rabs (n_jc s ^ 2 - n_jc s' ^ 2) <= 6.5 * d).
    { replace (n_jc s ^ 2 - n_jc s' ^ 2) with ((n_jc s + n_jc s') * (n_jc s - n_jc s')) by ring. rewrite Rabs_mult. apply Rmult_le_compat; try apply Rabs_pos; [|exact Ed].
      rewrite !Ej. assert (Q := n_jce_b s Hs). assert (Q' := n_jce_b s' Hs'). apply Rabs_le. lra. }
    assert (J3 : Rabs (n_jc s ^ 3 - n_jc s' ^ 3) <= 40 * d).
    { replace (n_jc s ^ 3 - n_jc s' ^ 3) with ((n_jc s ^ 2 + n_jc s * n_jc s' + n_jc s' ^ 2) * (n_jc s - n_jc s')) by ring. rewrite Rabs_mult. apply Rmult_le_compat; try apply Rabs_pos; [|exact Ed].
      assert (Q := n_jce_b s Hs). assert (Q' := n_jce_b s' Hs'). assert (-3.3 <= n_jc s <= 2.7) by (rewrite Ej; lra). assert (-3.3 <= n_jc s' <= 2.7) by (rewrite Ej; lra). apply Rabs_le. clear - H H0. set (x := n_jc s) in *. set (y := n_jc s') in *. clearbody x y. nra. }
    unfold m_th. set (w := n_dpsi s * _) in *. set (w' := n_dpsi s' * _) in *. set (q := n_jc s ^ 2) in *. set (q' := n_jc s' ^ 2) in *. set (r := n_jc s ^ 3) in *. set (r' := n_jc s' ^ 3) in *.
    match goal with |- Rabs ?e <= _ => replace e with ((s - s') * (360.98564736629 / 86400 * (PI / 180)) + (0.000387933 * (q - q') - (r - r') / 38710000 + (w - w')) * (PI / 180)) by (unfold n_jd; q2; field) end.
    eapply Rle_trans; [apply Rabs_triang|]. apply Rplus_le_compat.
    - rewrite Rabs_mult. fold D. rewrite Rmult_comm. apply Rmult_le_compat_r; [exact P|]. interval.
    - rewrite Rabs_mult. assert (0 <= PI / 180 <= 0.0175) by (split; interval). rewrite (Rabs_pos_eq (PI / 180)) by lra.
      assert (K : Rabs (0.000387933 * (q - q') - (r - r') / 38710000 + (w - w')) <= 51 * d) by (apply Rabs_le_inv in J2, J3, C; clearbody q q' r r' w w' d; apply Rabs_le; lra).
      set (y := Rabs _) in *. assert (0 <= y) by apply Rabs_pos. clearbody y d. nra.
  Qed.
End Pair.
