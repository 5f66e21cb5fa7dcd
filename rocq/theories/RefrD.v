(** * RefrD: the refraction corrections in double precision *)

From Coq Require Import ZArith QArith Reals Bool List String Lra Lia.
From Flocq Require Import Core.Raux.
From Interval Require Import Tactic.
From Verif Require Import Num Ext ExtLemmas Libspa Usecases Spec GenericLemmas Sky SkyClose AstroTac SingleSpec Double DoubleTac DoubleLemmas DoubleCore PsaD
  Psa Soltrack Iqbal Nrel RefrSpec.
Import ListNotations.
Open Scope R_scope.

(** ** The cells with and without refraction *)
Section Cells.
  Import NumNotations. Local Open Scope num_scope.
  Context {F : Type} {O : Ops F}.

  Definition psa_refr (zenith : F) : F :=
    let sun_elev := HALFPI - zenith in
    let refr_corr := $1 * $1.7802e-2 / ($60 * ftan (sun_elev + $3.1376e-3 / (sun_elev + $8.9186e-2))) in
    HALFPI - where_ (sun_elev >=. (- $1.4545e-2)) (sun_elev + refr_corr) sun_elev.
  Definition iq_refr (sza_rad : F) : F :=
    let alpha := HALFPI - sza_rad in
    let alpha2 := alpha * alpha in
    let refcor := $0.061359 * ($0.1594 + ($1.1230 * alpha) + ($0.065656 * alpha2)) / ($1.0 + ($28.9344 * alpha) + ($277.3971 * alpha2)) in
    HALFPI - (alpha + refcor).
  Definition st_refr (alt : F) : F := HALFPI - (alt + ($2.967e-4 / ftan (alt + $3.1376e-3 / (alt + $8.92e-2)))).
  Definition nr_refr (e : F) : F :=
    HALFPI - where_ (e >=. (- $1.4545e-2)) (e + ATM_REFR * $1.7802e-2 / ($60 * ftan (e + $3.1376e-3 / (e + $8.9186e-2)))) e.
  Definition plain (alg : string) (x : F) : F := if (String.eqb alg "psa" || String.eqb alg "iqbal")%bool then x else HALFPI - x.
  Definition bent (alg : string) (x : F) : F :=
    if String.eqb alg "psa" then psa_refr x else if String.eqb alg "iqbal" then iq_refr x else if String.eqb alg "nrel" then nr_refr x else st_refr x.
  Lemma refr_cells alg eng m uc t lo la : In (alg, eng, m) supported ->
    exists x, fst (lib_cell m uc false t lo la) = plain alg x /\ fst (lib_cell m uc true t lo la) = bent alg x.
  Proof.
    cbn [supported In]. intros [X|[X|[X|[X|[X|[X|[X|[]]]]]]]]; injection X as <- <- <-; destruct uc; eexists; split; reflexivity.
  Qed.
End Cells.

(** ** cot in double precision *)
Lemma inv_rel a b k : b <> 0 -> 0 <= k <= / 2 -> Rabs (a - b) <= k * Rabs b -> a <> 0 /\ Rabs (/ a - / b) <= 2 * k * Rabs (/ b).
Proof.
  intros Hb Hk H. assert (Pb : 0 < Rabs b) by now apply Rabs_pos_lt.
  assert (La : Rabs b / 2 <= Rabs a) by (assert (T := Rabs_triang (- (a - b)) a); rewrite Rabs_Ropp in T; replace (- (a - b) + a) with b in T by ring; nra).
  assert (Ha : a <> 0) by (intros ->; rewrite Rabs_R0 in La; lra). split; [exact Ha|].
  replace (/ a - / b) with (- (a - b) * / a * / b) by (field; split; assumption). rewrite !Rabs_mult, Rabs_Ropp, !Rabs_inv.
  apply Rmult_le_compat_r; [left; now apply Rinv_0_lt_compat|].
  assert (I : / Rabs a <= 2 / Rabs b).
  { replace (2 / Rabs b) with (/ (Rabs b / 2)) by (field; lra). apply Rinv_le_contravar; lra. }
  assert (0 < / Rabs a) by (apply Rinv_0_lt_compat; lra).
  apply Rle_trans with (k * Rabs b * (2 / Rabs b)); [apply Rmult_le_compat; [apply Rabs_pos|lra|exact H|exact I]|right; field; lra].
Qed.
Section D64.
  Variable D : Env64.
  Hypothesis HD : double_like D.
  Notation O64 := (DoubleOps D).
  Lemma two_powers : / 2 ^ 1000 <= / 10 ^ 25 /\ 10 ^ 12 <= 2 ^ 40.
  Proof. split; [|lra]. apply Rle_trans with u90; [exact tiny_u90|]. unfold u90, S90. lra. Qed.
  Lemma tan_inv v : 0.0199 <= Rabs (sin v) -> tan64 D v <> 0 /\ Rabs (/ tan64 D v - cos v / sin v) <= / 10 ^ 12.
  Proof.
    intros Hs. assert (Ns : sin v <> 0) by (intros E; rewrite E, Rabs_R0 in Hs; lra). destruct two_powers as [P1 P2].
    destruct (Req_EM_T (cos v) 0) as [E|E].
    - assert (T := dl_tan_pole D HD v E). assert (Nt : tan64 D v <> 0) by (intros Z; rewrite Z, Rabs_R0 in T; lra). split; [exact Nt|].
      rewrite E. unfold Rdiv. rewrite Rmult_0_l, Rminus_0_r, Rabs_inv. apply Rinv_le_contravar; lra.
    - assert (T := dl_tan D HD v E).
      assert (Lt : 0.0199 <= Rabs (tan v)).
      { unfold tan, Rdiv. rewrite Rabs_mult, Rabs_inv. pose proof (COS_bound v) as Bc. assert (Pc : 0 < Rabs (cos v)) by now apply Rabs_pos_lt.
        assert (Rabs (cos v) <= 1) by (apply Rabs_le; lra). assert (1 <= / Rabs (cos v)) by (rewrite <- Rinv_1 at 1; apply Rinv_le_contravar; lra). nra. }
      assert (Nt : tan v <> 0) by (intros Z; rewrite Z, Rabs_R0 in Lt; lra).
      destruct (inv_rel (tan64 D v) (tan v) (2 / 10 ^ 15) Nt ltac:(lra)) as [N1 N2].
      { eapply Rle_trans; [exact T|]. lra. }
      split; [exact N1|]. replace (cos v / sin v) with (/ tan v) by (unfold tan; field; split; assumption).
      eapply Rle_trans; [exact N2|]. rewrite Rabs_inv. assert (/ Rabs (tan v) <= 51) by (replace 51 with (/ (/ 51)) by field; apply Rinv_le_contravar; lra). lra.
  Qed.
  Lemma cot_core v x w c : Rabs (v - x) <= / 10 ^ 13 -> 0.02 <= Rabs (sin x) -> 0 < c ->
    Rabs (w - c * tan64 D v) <= 3 / 10 ^ 16 * Rabs (c * tan64 D v) ->
    w <> 0 /\ Rabs (/ w - cos x / sin x / c) <= 3 / 10 ^ 10 / c.
  Proof.
    intros Hv Hx Hc Hw. assert (Ls := sin_lip v x). assert (Sv : 0.0199 <= Rabs (sin v)).
    { assert (T := Rabs_triang (- (sin v - sin x)) (sin v)). rewrite Rabs_Ropp in T. replace (- (sin v - sin x) + sin v) with (sin x) in T by ring. lra. }
    destruct (tan_inv v Sv) as [Nt Ti]. assert (Nx : sin x <> 0) by (intros E; rewrite E, Rabs_R0 in Hx; lra).
    assert (Nv : sin v <> 0) by (intros E; rewrite E, Rabs_R0 in Sv; lra).
    destruct (inv_rel w (c * tan64 D v) (3 / 10 ^ 16) ltac:(apply Rmult_integral_contrapositive_currified; lra) ltac:(lra) Hw) as [Nw Wi]. split; [exact Nw|].
    assert (Cv : Rabs (cos v / sin v) <= 51).
    { unfold Rdiv. rewrite Rabs_mult, Rabs_inv. pose proof (COS_bound v) as Bc. assert (Rabs (cos v) <= 1) by (apply Rabs_le; lra).
      assert (/ Rabs (sin v) <= 51) by (replace 51 with (/ (/ 51)) by field; apply Rinv_le_contravar; lra).
      assert (0 < / Rabs (sin v)) by (apply Rinv_0_lt_compat; lra). pose proof (Rabs_pos (cos v)). nra. }
    assert (Tt : Rabs (/ tan64 D v) <= 52).
    { replace (/ tan64 D v) with ((/ tan64 D v - cos v / sin v) + cos v / sin v) by ring. eapply Rle_trans; [apply Rabs_triang|]. lra. }
    assert (Cx : Rabs (cos v / sin v - cos x / sin x) <= 2.6 / 10 ^ 10).
    { replace (cos v / sin v - cos x / sin x) with (sin (x - v) * / (sin v * sin x)) by (rewrite sin_minus; field; split; assumption).
      rewrite Rabs_mult, Rabs_inv, Rabs_mult. assert (S0 := sin_lip (x - v) 0). rewrite sin_0, !Rminus_0_r, (Rabs_minus_sym x v) in S0.
      assert (0.000398 <= Rabs (sin v) * Rabs (sin x)) by nra.
      assert (/ (Rabs (sin v) * Rabs (sin x)) <= 2513) by (replace 2513 with (/ (/ 2513)) by field; apply Rinv_le_contravar; lra).
      assert (0 < / (Rabs (sin v) * Rabs (sin x))) by (apply Rinv_0_lt_compat; lra). pose proof (Rabs_pos (sin (x - v))). nra. }
    assert (Ic : 0 < / c) by now apply Rinv_0_lt_compat.
    rewrite Rinv_mult in Wi. rewrite Rabs_mult, (Rabs_pos_eq (/ c)) in Wi by lra.
    replace (/ w - cos x / sin x / c) with ((/ w - / c * / tan64 D v) + / c * ((/ tan64 D v - cos v / sin v) + (cos v / sin v - cos x / sin x))) by (unfold Rdiv; ring).
    eapply Rle_trans; [apply Rabs_triang|]. rewrite Rabs_mult, (Rabs_pos_eq (/ c)) by lra.
    assert (X := Rabs_triang (/ tan64 D v - cos v / sin v) (cos v / sin v - cos x / sin x)). unfold Rdiv. nra.
  Qed.
  (** [W] is the computed product of [c] and the tangent of [A]; it may overflow. *)
  Definition tan_times (A W : ext) (c : R) : Prop := exists v, A = Fin v /\
    ((exists w, W = Fin w /\ Rabs (w - c * tan64 D v) <= 3 / 10 ^ 16 * Rabs (c * tan64 D v)) \/ ((W = PInf \/ W = NInf) /\ 10 ^ 20 <= Rabs (tan64 D v))).
  (** [N / W] with [W] the product of [c] and a tangent. *)
  Lemma cot64 A x b e N n bn en W c : apb A x b e -> Rz e <= / 10 ^ 13 -> 0.02 <= Rabs (sin x) -> 1 <= c ->
    apb N n bn en -> Rz en <= / 10 ^ 16 -> Rabs n <= 0.0003 * c ->
    tan_times A W c ->
    near (div (Ops := O64) N W) (n / c * (cos x / sin x)) (2 / 10 ^ 13).
  Proof.
    intros (v0 & HA & H1 & _) He Hx Hc (nf & -> & N1 & _) Hen Hn (v & Ev & HW). rewrite HA in Ev. injection Ev as ->.
    set (C := cos x / sin x) in *.
    destruct HW as [(w & -> & Hw)|[HW Hb]].
    2:{ destruct (cot_core v x (c * tan64 D v) c ltac:(lra) Hx ltac:(lra)) as [_ Wi]. { rewrite Rminus_diag_eq, Rabs_R0 by reflexivity. pose proof (Rabs_pos (c * tan64 D v)). lra. }
        exists 0. split.
        - assert (Z : e_rd D (Fin 0) = Fin 0) by (rewrite (rd_fin_s D HD) by (rewrite Rabs_R0; lra); f_equal; apply (dl_int D HD 0); vm_compute; discriminate).
          destruct HW as [-> | ->]; cbn [div DoubleOps e_div]; exact Z.
        - fold C in Wi. assert (Ic : 0 < / c <= 1) by (split; [apply Rinv_0_lt_compat; lra|rewrite <- Rinv_1; apply Rinv_le_contravar; lra]).
          assert (Bi : Rabs (/ (c * tan64 D v)) <= / c * / 10 ^ 20).
          { rewrite Rinv_mult, Rabs_mult, (Rabs_pos_eq (/ c)) by lra. apply Rmult_le_compat_l; [lra|]. rewrite Rabs_inv. apply Rinv_le_contravar; [lra|exact Hb]. }
          assert (BC : Rabs (C / c) <= (3 / 10 ^ 10 + / 10 ^ 20) * / c).
          { replace (C / c) with (/ (c * tan64 D v) - (/ (c * tan64 D v) - C / c)) by ring. eapply Rle_trans; [apply Rabs_triang|]. rewrite Rabs_Ropp. unfold Rdiv in *. lra. }
          replace (0 - n / c * C) with (- (n * (C / c))) by (unfold Rdiv; ring). rewrite Rabs_Ropp, Rabs_mult.
          assert (Nn : Rabs n * / c <= 0.0003) by (apply Rmult_le_reg_r with c; [lra|]; rewrite Rmult_assoc, Rinv_l by lra; lra).
          assert (Rabs n * Rabs (C / c) <= Rabs n * ((3 / 10 ^ 10 + / 10 ^ 20) * / c)) by (apply Rmult_le_compat_l; [apply Rabs_pos|exact BC]).
          replace (Rabs n * ((3 / 10 ^ 10 + / 10 ^ 20) * / c)) with (Rabs n * / c * (3 / 10 ^ 10 + / 10 ^ 20)) in * by ring. lra. }
    destruct (cot_core v x w c ltac:(lra) Hx ltac:(lra) Hw) as [Nw Wi]. fold C in Wi. cbn [div DoubleOps]. rewrite fin_div by exact Nw.
    assert (Ic : 0 < / c <= 1) by (split; [apply Rinv_0_lt_compat; lra|rewrite <- Rinv_1; apply Rinv_le_contravar; lra]).
    assert (BC : Rabs C <= 51).
    { unfold C, Rdiv. rewrite Rabs_mult, Rabs_inv. pose proof (COS_bound x) as Bc. assert (Rabs (cos x) <= 1) by (apply Rabs_le; lra).
      assert (/ Rabs (sin x) <= 51) by (replace 51 with (/ (/ 51)) by field; apply Rinv_le_contravar; lra).
      assert (0 < / Rabs (sin x)) by (apply Rinv_0_lt_compat; lra). pose proof (Rabs_pos (cos x)). nra. }
    assert (Bw : Rabs (/ w) <= 52 * / c).
    { replace (/ w) with ((/ w - C / c) + C * / c) by (unfold Rdiv; ring). eapply Rle_trans; [apply Rabs_triang|]. rewrite Rabs_mult, (Rabs_pos_eq (/ c)) by lra. unfold Rdiv in *. nra. }
    assert (Nc : Rabs n * / c <= 0.0003) by (apply Rmult_le_reg_r with c; [lra|]; rewrite Rmult_assoc, Rinv_l by lra; lra).
    assert (E1 : Rabs (nf / w - n / c * C) <= 1.6 / 10 ^ 13).
    { replace (nf / w - n / c * C) with ((nf - n) * / w + n * (/ w - C / c)) by (unfold Rdiv; ring). eapply Rle_trans; [apply Rabs_triang|]. rewrite !Rabs_mult.
      assert (Rabs (nf - n) * Rabs (/ w) <= / 10 ^ 16 * 52) by (apply Rmult_le_compat; try apply Rabs_pos; [lra|nra]).
      assert (Rabs n * Rabs (/ w - C / c) <= Rabs n * (3 / 10 ^ 10 / c)) by (apply Rmult_le_compat_l; [apply Rabs_pos|exact Wi]).
      replace (Rabs n * (3 / 10 ^ 10 / c)) with (Rabs n * / c * (3 / 10 ^ 10)) in * by (unfold Rdiv; ring). lra. }
    assert (Bq : Rabs (nf / w) <= 0.02).
    { replace (nf / w) with ((nf / w - n / c * C) + n * / c * C) by (unfold Rdiv; ring). eapply Rle_trans; [apply Rabs_triang|]. rewrite !Rabs_mult, (Rabs_pos_eq (/ c)) by lra. pose proof (Rabs_pos C). pose proof (Rabs_pos n). nra. }
    rewrite (rd_fin_s D HD) by lra. eexists. split; [reflexivity|].
    assert (R := dl_err D HD (nf / w)). destruct two_powers as [P1 _].
    replace (r64 D (nf / w) - n / c * C) with ((r64 D (nf / w) - nf / w) + (nf / w - n / c * C)) by ring. eapply Rle_trans; [apply Rabs_triang|]. lra.
  Qed.
  Lemma w60 A x b e : apb A x b e -> Rz e <= / 10 ^ 13 -> 0.02 <= Rabs (sin x) ->
    tan_times A (mul (Ops := O64) (lit (Ops := O64) 60) (ftan (Ops := O64) A)) 60.
  Proof.
    intros (v & -> & H1 & _) He Hx. exists v. cbn [mul lit ftan DoubleOps e_fun]. replace (Q2R 60) with 60 by q2r. rewrite (dl_int D HD 60) by (vm_compute; discriminate). rewrite fin_mul. split; [reflexivity|]. assert (Ls := sin_lip v x). assert (Sv : 0.0199 <= Rabs (sin v)).
    { assert (T := Rabs_triang (- (sin v - sin x)) (sin v)). rewrite Rabs_Ropp in T. replace (- (sin v - sin x) + sin v) with (sin x) in T by ring. lra. }
    destruct (tan_inv v Sv) as [Nt Ti].
    assert (Cv : Rabs (cos v / sin v) <= 51).
    { unfold Rdiv. rewrite Rabs_mult, Rabs_inv. pose proof (COS_bound v) as Bc. assert (Rabs (cos v) <= 1) by (apply Rabs_le; lra).
      assert (/ Rabs (sin v) <= 51) by (replace 51 with (/ (/ 51)) by field; apply Rinv_le_contravar; lra).
      assert (0 < / Rabs (sin v)) by (apply Rinv_0_lt_compat; lra). pose proof (Rabs_pos (cos v)). nra. }
    assert (Tt : Rabs (/ tan64 D v) <= 52).
    { replace (/ tan64 D v) with ((/ tan64 D v - cos v / sin v) + cos v / sin v) by ring. eapply Rle_trans; [apply Rabs_triang|]. lra. }
    rewrite Rabs_inv in Tt. assert (Pt : 0 < Rabs (tan64 D v)) by now apply Rabs_pos_lt.
    assert (Lt : 1 <= 52 * Rabs (tan64 D v)).
    { apply Rmult_le_compat_r with (r := Rabs (tan64 D v)) in Tt; [|lra]. rewrite Rinv_l in Tt by lra. lra. }
    assert (R := dl_err D HD (60 * tan64 D v)). destruct two_powers as [P1 _]. cbn [e_rd]. unfold fin64. destruct (Rlt_dec (Rabs (r64 D (60 * tan64 D v))) (2 ^ 1024)) as [F|F].
    - left. eexists. split; [reflexivity|]. rewrite Rabs_mult, (Rabs_pos_eq 60) in * by lra. lra.
    - right. split; [destruct (Rlt_dec _ _); [now left|now right]|]. assert (B : 10 ^ 30 <= 2 ^ 1024) by (apply Rle_trans with (2 ^ 100); [lra|apply Rle_pow; [lra|lia]]).
      assert (T := Rabs_triang (60 * tan64 D v) (r64 D (60 * tan64 D v) - 60 * tan64 D v)). replace (60 * tan64 D v + (r64 D (60 * tan64 D v) - 60 * tan64 D v)) with (r64 D (60 * tan64 D v)) in T by ring.
      rewrite Rabs_mult, (Rabs_pos_eq 60) in * by lra. lra.
  Qed.
  Lemma near_to_apb x a b e tol : near x a tol -> Rabs a <= Rz b -> tol <= Rz e -> apb x a b e.
  Proof. intros (v & -> & H) Hb He. apply ap_fin; lra. Qed.
  Definition e13 : Z := Eval vm_compute in (qbnd 2e-13).
  Lemma e13_ok : 2 / 10 ^ 13 <= Rz e13. Proof. unfold Rz, u90, S90, e13. lra. Qed.

  (** The branch of Saemundsson's formula with the factor 60 (psa, nrel): the elevation [E_] is near [el]. *)
  Definition e15 : Z := Eval vm_compute in (qbnd 5e-15).
  Lemma k60 E_ el N n bn en : apb E_ el (4 * S90) e15 -> -0.0146 <= el <= PI / 2 + 1 / 10 ^ 8 -> apb N n bn en -> Rz en <= / 10 ^ 16 -> Rabs n <= 0.018 -> Rz bn <= 0.02 ->
    near (div (Ops := O64) N (mul (Ops := O64) (lit (Ops := O64) 60) (ftan (Ops := O64)
           (add (Ops := O64) E_ (div (Ops := O64) (lit (Ops := O64) 3.1376e-3) (add (Ops := O64) E_ (lit (Ops := O64) 8.9186e-2)))))))
      (saemundsson (n / 60) 0.089186 el) (2 / 10 ^ 13) /\ Rabs (saemundsson (n / 60) 0.089186 el) <= 0.02.
  Proof.
    intros HE Be HN Hen Hn Hbn. norm_in HE.
    assert (L : Rz (qlow 0.07) <= Rabs (el + Q2R 8.9186e-2)).
    { replace (qlow 0.07) with (qlow 0.07) by reflexivity. eapply Rle_trans; [apply Q2R_low; reflexivity|]. q2. rewrite Rabs_pos_eq by lra. lra. }
    assert (P2 : PI / 2 <= 1.5708) by interval.
    lazymatch goal with |- near (div _ (mul _ (ftan ?A))) _ _ /\ _ => eassert (HA : apb A _ _ _) by (ap D HD) end. norm_in HA.
    set (x := el + Q2R 3.1376e-3 / (el + Q2R 8.9186e-2)) in *.
    assert (Bx : 0.027 <= x <= 1.58).
    { unfold x. q2. assert (Bl : -0.0146 <= el <= 1.5709) by lra. clear - Bl. split; interval with (i_bisect el, i_prec 60). }
    assert (Sx : 0.02 <= sin x) by (clear - Bx; interval with (i_bisect x, i_prec 60)).
    assert (Hs : 0.02 <= Rabs (sin x)) by (rewrite Rabs_pos_eq by lra; exact Sx).
    assert (He : Rz (let 'e := ltac:(lazymatch type of HA with apb _ _ _ ?e => exact e end) in e) <= / 10 ^ 13) by (cbv zeta; unfold Rz, u90, S90; lra). cbv zeta in He.
    assert (Ex : saemundsson (n / 60) 0.089186 el = n / 60 * (cos x / sin x)).
    { unfold saemundsson. cbv zeta. replace (el + 0.0031376 / (el + 0.089186)) with x; [reflexivity|]. unfold x. q2. field. lra. }
    rewrite Ex. split.
    - apply (cot64 _ x _ _ _ n _ _ _ 60 HA He Hs ltac:(lra) HN Hen ltac:(lra) (w60 _ _ _ _ HA He Hs)).
    - assert (Cx : -0.02 <= cos x / sin x <= 38) by (clear - Bx; split; interval with (i_bisect x, i_prec 60)).
      unfold Rdiv at 1. rewrite !Rabs_mult, (Rabs_pos_eq (/ 60)) by lra. assert (Rabs (cos x / sin x) <= 38) by (apply Rabs_le; lra). pose proof (Rabs_pos n). pose proof (Rabs_pos (cos x / sin x)). nra.
  Qed.
  Lemma b02 : 0.02 <= Rz (qbnd 0.02).
  Proof. eapply Rle_trans; [apply Rle_abs|]. replace 0.02 with (Q2R 0.02) by q2r. apply Q2R_abs_up. Qed.
  Lemma z_apb z : -1 / 10 ^ 8 <= z <= PI + 1 / 10 ^ 8 -> apb (Fin z) z (4 * S90) 0.
  Proof. intros B. assert (PI <= 3.1416) by interval. apply exact_apb. rewrite Rz_k. apply Rabs_le. lra. Qed.
  Lemma le_test x a b e : apb x a b e -> Rz e <= / 10 ^ 15 * 5.1 ->
    (fle (Ops := O64) (neg (Ops := O64) (lit (Ops := O64) 1.4545e-2)) x = true /\ -0.014545 - / 10 ^ 14 <= a) \/
    (fle (Ops := O64) (neg (Ops := O64) (lit (Ops := O64) 1.4545e-2)) x = false /\ a <= -0.014545 + / 10 ^ 14).
  Proof.
    intros (v & -> & H1 & _) He. assert (Hq := ap_lit D HD 1.4545e-2). destruct Hq as (w & Ew & Hw & _). rewrite Ew. cbn [fle neg DoubleOps e_neg e_le].
    assert (Rz (qerr 1.4545e-2) <= / 10 ^ 17) by (let z := eval vm_compute in (qerr 1.4545e-2) in change (qerr 1.4545e-2) with z; unfold Rz, u90, S90; lra).
    assert (Eq : Q2R 1.4545e-2 = 0.014545) by q2r. rewrite Eq in Hw. apply Rabs_le_inv in H1, Hw. unfold Rleb. destruct (Rle_dec (- w) v) as [L|L]; [left|right]; (split; [reflexivity|lra]).
  Qed.
  Ltac apc := lazymatch goal with |- near ?x ?a ?t => eassert (Hfin : apb x _ _ _) by (ap D HD); norm_in Hfin; apply (ap_eq _ _ a _ _) in Hfin; [apply (apb_near _ _ _ _ _ Hfin); unfold Rz, u90, S90; lra|] end.
  Lemma psa_refr_D z : -1 / 10 ^ 8 <= z <= PI + 1 / 10 ^ 8 -> exists z', psa_refr (O := O64) (Fin z) = Fin z' /\ corrected "psa" z z'.
  Proof.
    intros B. assert (HZ := z_apb z B). assert (PI <= 3.1416) by interval. unfold psa_refr.
    generalize dependent (Fin z). intros Z HZ. norm_in HZ.
    eassert (HE : apb (sub (Ops := O64) (HALFPI (O := O64)) Z) _ _ _) by (ap D HD). norm_in HE.
    apply ap_bnd with (b' := (4 * S90)%Z) in HE; [|rewrite Rz_k; assert (3.14 < PI) by interval; apply Rabs_le; lra].
    assert (HE' : apb (sub (Ops := O64) (HALFPI (O := O64)) Z) (PI / 2 - z) (4 * S90) e15) by (refine (ap_le _ _ _ _ _ _ HE _ _); vm_compute; reflexivity).
    generalize dependent (sub (Ops := O64) (HALFPI (O := O64)) Z). intros E_ HE HE'. cbv zeta.
    assert (He : Rz e15 <= / 10 ^ 15 * 5.1) by (unfold Rz, u90, S90, e15; lra).
    assert (He0 : Rz (let 'e := ltac:(lazymatch type of HE with apb _ _ _ ?e => exact e end) in e) <= / 10 ^ 15 * 5.1) by (cbv zeta; unfold Rz, u90, S90; lra). cbv zeta in He0.
    unfold corrected. cbn [String.eqb Ascii.eqb Bool.eqb orb correction].
    destruct (le_test _ _ _ _ HE He0) as [[T L]|[T L]]; rewrite T; cbn [where_].
    - eassert (HN : apb (mul (Ops := O64) (lit (Ops := O64) 1) (lit (Ops := O64) 1.7802e-2)) _ _ _) by (ap D HD). norm_in HN.
      destruct (k60 E_ (PI / 2 - z) _ _ _ _ HE' ltac:(lra) HN ltac:(unfold Rz, u90, S90; lra) ltac:(q2; apply Rabs_le; lra) ltac:(unfold Rz, u90, S90; lra)) as [K1 K2].
      apply (near_to_apb _ _ (qbnd 0.02) e13 _) in K1; [|eapply Rle_trans; [exact K2|exact b02]|exact e13_ok].
      lazymatch type of K1 with apb ?x _ _ _ => generalize dependent x end. intros CORR K1. norm_in K1.
      assert (G : near (sub (Ops := O64) (HALFPI (O := O64)) (add (Ops := O64) E_ CORR)) (z - saemundsson (0.017802 / 60) 0.089186 (PI / 2 - z)) (/ 10 ^ 11)).
      { apc. replace (Q2R 1 * Q2R 1.7802e-2 / 60) with (0.017802 / 60) by (q2; lra). ring. }
      destruct G as (z' & Ez & Hz). exists z'. split; [exact Ez|]. left. split; [exact L|exact Hz].
    - assert (G : near (sub (Ops := O64) (HALFPI (O := O64)) E_) z (/ 10 ^ 14)) by (apc; ring).
      destruct G as (z' & Ez & Hz). exists z'. split; [exact Ez|]. right. split; [exact L|exact Hz].
  Qed.
  (** What the unrefracted zenith tells about the elevation it was computed from. *)
  Lemma alt_of x z : sub (Ops := O64) (HALFPI (O := O64)) x = Fin z -> -1 / 10 ^ 8 <= z <= PI + 1 / 10 ^ 8 -> apb x (PI / 2 - z) (4 * S90) e15.
  Proof.
    destruct (ap_HALFPI D HD) as (H & EH & H1 & _). rewrite EH. assert (Pi : 3.1415 <= PI <= 3.1416) by (split; interval).
    assert (Hh : Rz halfpiE <= / 10 ^ 15) by (unfold Rz, u90, S90, halfpiE; lra). apply Rabs_le_inv in H1.
    destruct x as [| | |a]; cbn [sub DoubleOps e_sub e_rd e_add e_neg]; intros E B; try discriminate E. apply fin64_inv in E. symmetry in E. change (H + - a) with (H - a) in E.
    assert (R := dl_err D HD (H - a)). rewrite E in R. destruct two_powers as [P1 _]. apply ap_fin; [|rewrite Rz_k; apply Rabs_le; lra].
    set (y := H - a) in *. assert (By : Rabs y <= 3.2).
    { assert (T := Rabs_triang (- (z - y)) z). rewrite Rabs_Ropp in T. replace (- (z - y) + z) with y in T by ring. assert (Rabs z <= 3.15) by (apply Rabs_le; lra). lra. }
    assert (R' : Rabs (z - y) <= 4 / 10 ^ 16) by lra. apply Rabs_le_inv in R'. apply Rle_trans with (3 / 10 ^ 15); [|unfold Rz, u90, S90, e15; lra].
    replace a with (H - y) by (unfold y; ring). apply Rabs_le. lra.
  Qed.
  Lemma nr_refr_D x z : sub (Ops := O64) (HALFPI (O := O64)) x = Fin z -> -1 / 10 ^ 8 <= z <= PI + 1 / 10 ^ 8 -> exists z', nr_refr (O := O64) x = Fin z' /\ corrected "nrel" z z'.
  Proof.
    intros E B. assert (HE := alt_of x z E B). assert (HE' := HE). norm_in HE. assert (PI <= 3.1416) by interval. unfold nr_refr.
    assert (He0 : Rz e15 <= / 10 ^ 15 * 5.1) by (unfold Rz, u90, S90, e15; lra).
    unfold corrected. cbn [String.eqb Ascii.eqb Bool.eqb orb correction].
    destruct (le_test _ _ _ _ HE' He0) as [[T L]|[T L]]; rewrite T; cbn [where_].
    - assert (Lq : Rz (qlow 280) <= Rabs (Q2R 273 + Q2R 12.0)) by (eapply Rle_trans; [apply Q2R_low; reflexivity|]; q2; rewrite Rabs_pos_eq by lra; lra).
      eassert (HN : apb (mul (Ops := O64) (ATM_REFR (O := O64)) (lit (Ops := O64) 1.7802e-2)) _ _ _) by (unfold ATM_REFR, PRESSURE, TEMPERATURE; ap D HD). norm_in HN.
      destruct (k60 x (PI / 2 - z) _ _ _ _ HE' ltac:(lra) HN ltac:(unfold Rz, u90, S90; lra) ltac:(q2; apply Rabs_le; lra) ltac:(unfold Rz, u90, S90; lra)) as [K1 K2].
      apply (near_to_apb _ _ (qbnd 0.02) e13 _) in K1; [|eapply Rle_trans; [exact K2|exact b02]|exact e13_ok].
      lazymatch type of K1 with apb ?x _ _ _ => generalize dependent x end. intros CORR K1. norm_in K1.
      assert (G : near (sub (Ops := O64) (HALFPI (O := O64)) (add (Ops := O64) x CORR)) (z - saemundsson (1013.25 / 1010 * (283 / (273 + 12)) * (0.017802 / 60)) 0.089186 (PI / 2 - z)) (/ 10 ^ 11)).
      { apc. replace (1013.25 / 1010 * (283 / (273 + 12)) * (0.017802 / 60)) with (Q2R 1013.25 / Q2R 1010.0 * (Q2R 283.0 / (Q2R 273 + Q2R 12.0)) * Q2R 1.7802e-2 / 60) by (q2; lra). ring. }
      destruct G as (z' & Ez & Hz). exists z'. split; [exact Ez|]. left. split; [exact L|exact Hz].
    - assert (HZ := z_apb z B). rewrite <- E in HZ. rewrite E. exists z. split; [reflexivity|]. right. split; [exact L|]. rewrite Rminus_diag_eq, Rabs_R0 by reflexivity. lra.
  Qed.
  Lemma st_refr_D x z : sub (Ops := O64) (HALFPI (O := O64)) x = Fin z -> -1 / 10 ^ 8 <= z <= PI + 1 / 10 ^ 8 ->
    -0.07 <= PI / 2 - z \/ PI / 2 - z <= -0.11 -> exists z', st_refr (O := O64) x = Fin z' /\ corrected "soltrack" z z'.
  Proof.
    intros E B Hd. assert (HE := alt_of x z E B). norm_in HE. assert (P2 : 3.1415 <= PI <= 3.1416) by (split; interval). unfold st_refr.
    unfold corrected. cbn [String.eqb Ascii.eqb Bool.eqb orb correction]. set (el := PI / 2 - z) in *.
    assert (Be : -1.5709 <= el <= 1.5709) by (unfold el; lra).
    assert (L : Rz (qlow 0.019) <= Rabs (el + Q2R 8.92e-2)).
    { eapply Rle_trans; [apply Q2R_low; reflexivity|]. q2. destruct Hd; [rewrite Rabs_pos_eq by lra; lra|rewrite Rabs_left by lra; lra]. }
    lazymatch goal with |- context [ftan ?A] => eassert (HA : apb A _ _ _) by (ap D HD) end. norm_in HA.
    set (y := el + Q2R 3.1376e-3 / (el + Q2R 8.92e-2)) in *.
    assert (By : 0.022 <= y <= 1.58 \/ -1.58 <= y <= -0.2).
    { unfold y. q2. destruct Hd as [Hd|Hd]; [left; assert (Bl : -0.07 <= el <= 1.5709) by lra|right; assert (Bl : -1.5709 <= el <= -0.11) by lra]; clear - Bl; split; interval with (i_bisect el, i_prec 60). }
    assert (Hs : 0.02 <= Rabs (sin y)).
    { clear - By. destruct By as [By|By]; [assert (0.02 <= sin y) by interval with (i_bisect y, i_prec 60); rewrite Rabs_pos_eq; lra|assert (sin y <= -0.02) by interval with (i_bisect y, i_prec 60); rewrite Rabs_left; lra]. }
    assert (He : Rz (let 'e := ltac:(lazymatch type of HA with apb _ _ _ ?e => exact e end) in e) <= / 10 ^ 13) by (cbv zeta; unfold Rz, u90, S90; lra). cbv zeta in He.
    assert (Ex : saemundsson 0.0002967 0.0892 el = Q2R 2.967e-4 / 1 * (cos y / sin y)).
    { unfold saemundsson. cbv zeta. replace (el + 0.0031376 / (el + 0.0892)) with y; [f_equal; q2; lra|]. unfold y. q2. field. lra. }
    rewrite Ex. assert (HN := ap_lit D HD 2.967e-4). norm_in HN.
    assert (K1 : near (div (Ops := O64) (lit (Ops := O64) 2.967e-4) (ftan (Ops := O64) (add (Ops := O64) x (div (Ops := O64) (lit (Ops := O64) 3.1376e-3) (add (Ops := O64) x (lit (Ops := O64) 8.92e-2))))))
                   (Q2R 2.967e-4 / 1 * (cos y / sin y)) (2 / 10 ^ 13)).
    { apply (cot64 _ y _ _ _ _ _ _ _ 1 HA He Hs ltac:(lra) HN ltac:(unfold Rz, u90, S90; lra) ltac:(q2; apply Rabs_le; lra)).
      destruct HA as (v & EA & _). exists v. rewrite EA. split; [reflexivity|]. left. exists (tan64 D v). split; [reflexivity|]. rewrite Rmult_1_l, Rminus_diag_eq, Rabs_R0 by reflexivity. pose proof (Rabs_pos (tan64 D v)). lra. }
    assert (Cy : Rabs (cos y / sin y) <= 46) by (apply Rabs_le; clear - By; destruct By as [By|By]; split; interval with (i_bisect y, i_prec 60)).
    apply (near_to_apb _ _ (qbnd 0.02) e13 _) in K1; [|eapply Rle_trans; [|exact b02]; rewrite Rabs_mult; replace (Rabs (Q2R 2.967e-4 / 1)) with 0.0002967 by (q2; rewrite Rabs_pos_eq by lra; lra); lra|exact e13_ok].
    lazymatch type of K1 with apb ?x _ _ _ => generalize dependent x end. intros CORR K1. norm_in K1.
    assert (G : near (sub (Ops := O64) (HALFPI (O := O64)) (add (Ops := O64) x CORR)) (z - Q2R 2.967e-4 / 1 * (cos y / sin y)) (/ 10 ^ 11)) by (apc; unfold el; ring).
    destruct G as (z' & Ez & Hz). exists z'. split; [exact Ez|exact Hz].
  Qed.
  Lemma iq_refr_D z : -1 / 10 ^ 8 <= z <= PI + 1 / 10 ^ 8 -> exists z', iq_refr (O := O64) (Fin z) = Fin z' /\ corrected "iqbal" z z'.
  Proof.
    intros B. assert (HZ := z_apb z B). assert (P2 : 3.1415 <= PI <= 3.1416) by (split; interval). unfold iq_refr.
    generalize dependent (Fin z). intros Z HZ. norm_in HZ.
    eassert (HE : apb (sub (Ops := O64) (HALFPI (O := O64)) Z) _ _ _) by (ap D HD). norm_in HE.
    apply ap_bnd with (b' := qbnd 1.571) in HE; [|eapply Rle_trans; [|apply Q2R_abs_up]; q2; rewrite (Rabs_pos_eq (_ / _)) by lra; apply Rabs_le; lra].
    generalize dependent (sub (Ops := O64) (HALFPI (O := O64)) Z). intros E_ HE. norm_in HE. cbv zeta.
    unfold corrected. cbn [String.eqb Ascii.eqb Bool.eqb orb correction]. set (el := PI / 2 - z) in *.
    assert (Be : -1.571 <= el <= 1.571) by (unfold el; lra).
    assert (L : Rz (qlow 0.24) <= Rabs (Q2R 1.0 + Q2R 28.9344 * el + Q2R 277.3971 * (el * el))).
    { eapply Rle_trans; [apply Q2R_low; reflexivity|]. q2. rewrite Rabs_pos_eq; assert (Q : 0 <= (el + 0.0521534) * (el + 0.0521534)) by apply Rle_0_sqr; lra. }
    assert (G : exists v, sub (Ops := O64) (HALFPI (O := O64)) (add (Ops := O64) E_ (div (Ops := O64) (mul (Ops := O64) (lit (Ops := O64) 0.061359)
        (add (Ops := O64) (add (Ops := O64) (lit (Ops := O64) 0.1594) (mul (Ops := O64) (lit (Ops := O64) 1.1230) E_)) (mul (Ops := O64) (lit (Ops := O64) 0.065656) (mul (Ops := O64) E_ E_))))
        (add (Ops := O64) (add (Ops := O64) (lit (Ops := O64) 1.0) (mul (Ops := O64) (lit (Ops := O64) 28.9344) E_)) (mul (Ops := O64) (lit (Ops := O64) 277.3971) (mul (Ops := O64) E_ E_))))) = Fin v /\ Rabs (v - (z - rigollier el)) <= / 10 ^ 11).
    { eassert (Hf : apb (sub (Ops := O64) (HALFPI (O := O64)) (add (Ops := O64) E_ (div (Ops := O64) (mul (Ops := O64) (lit (Ops := O64) 0.061359)
        (add (Ops := O64) (add (Ops := O64) (lit (Ops := O64) 0.1594) (mul (Ops := O64) (lit (Ops := O64) 1.1230) E_)) (mul (Ops := O64) (lit (Ops := O64) 0.065656) (mul (Ops := O64) E_ E_))))
        (add (Ops := O64) (add (Ops := O64) (lit (Ops := O64) 1.0) (mul (Ops := O64) (lit (Ops := O64) 28.9344) E_)) (mul (Ops := O64) (lit (Ops := O64) 277.3971) (mul (Ops := O64) E_ E_)))))) _ _ _) by (ap D HD).
      norm_in Hf. apply (ap_eq _ _ (z - rigollier el) _ _) in Hf; [apply (apb_near _ _ _ _ _ Hf); unfold Rz, u90, S90; lra|].
      assert (Nd : Q2R 1.0 + Q2R 28.9344 * el + Q2R 277.3971 * (el * el) <> 0).
      { intros Z0. rewrite Z0, Rabs_R0 in L. assert (X : 0 < Rz (qlow 0.24)) by (let q := eval vm_compute in (qlow 0.24) in change (qlow 0.24) with q; unfold Rz, u90, S90; lra). lra. }
      unfold rigollier, el in *. revert Nd. q2. intros Nd. field. lra. }
    destruct G as (z' & Ez & Hz). exists z'. split; [exact Ez|exact Hz].
  Qed.
  Lemma fin64_nan v : fin64 v <> NaN.
  Proof. unfold fin64. destruct (Rlt_dec _ _); [discriminate|]. destruct (Rlt_dec _ _); discriminate. Qed.
  Lemma bent_nan alg : bent (O := O64) alg NaN = NaN.
  Proof.
    assert (N : forall x, sub (Ops := O64) x NaN = NaN) by (intros [| | |]; reflexivity).
    unfold bent. destruct (String.eqb alg "psa"); [unfold psa_refr; rewrite N; apply N|]. destruct (String.eqb alg "iqbal"); [unfold iq_refr; rewrite N; apply N|].
    destruct (String.eqb alg "nrel"); apply N.
  Qed.
End D64.
