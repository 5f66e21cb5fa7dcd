(** * SoltrackD: soltrack in double precision *)

From Coq Require Import ZArith QArith Reals Bool List Lra Lia.
From Flocq Require Import Core.Raux.
From Interval Require Import Tactic.
From Verif Require Import Num Ext ExtLemmas Sky SkyClose AstroTac AstroSpec SingleSpec Double DoubleTac DoubleLemmas Psa PsaR PsaD Soltrack SoltrackR.
Open Scope R_scope.

(** The time part of soltrack without the reductions to one turn. *)
Definition u_L (s : R) : R := t_l0 s + t_sec s + - #9.93087e-5 / t_R s + t_dpsi s.
Definition u_ra (s : R) : R := Ratan2 (cos (t_obl s) * sin (u_L s)) (cos (u_L s)).
Definition u_dec (s : R) : R := asin (sin (t_obl s) * sin (u_L s)).
Definition u_eot (s : R) : R := t_eot Rfloor_mod s.

Lemma sin_turn x k : sin (x - IZR k * (2 * PI)) = sin x.
Proof. replace (x - IZR k * (2 * PI)) with (x - 2 * PI * IZR k) by ring. apply sin_2kpi. Qed.
Lemma cos_turn x k : cos (x - IZR k * (2 * PI)) = cos x.
Proof. replace (x - IZR k * (2 * PI)) with (x - 2 * PI * IZR k) by ring. apply cos_2kpi. Qed.

Section Md.
  Variable md : R -> R -> R.
  Hypothesis Hmd : mod_spec md.
  Variable s : R.
  Lemma t_L_u : exists k : Z, t_L md s = u_L s - IZR k * (2 * PI).
  Proof. unfold t_L. fold (u_L s). destruct (Hmd (u_L s) (2 * PI)) as (k & H & _); [pose proof PI_RGT_0; lra|]. now exists k. Qed.
  Lemma t_dec_u : t_dec md s = u_dec s.
  Proof. destruct t_L_u as (k & H). unfold t_dec, u_dec. now rewrite H, sin_turn. Qed.
  Lemma t_ra0_u : t_ra0 md s = u_ra s.
  Proof. destruct t_L_u as (k & H). unfold t_ra0, u_ra. now rewrite H, sin_turn, cos_turn. Qed.
  Lemma t_ra_u : exists k : Z, t_ra md s = u_ra s + 2 * PI * IZR k.
  Proof.
    unfold t_ra. destruct (Hmd (t_ra0 md s) (2 * PI)) as (k & H & _); [pose proof PI_RGT_0; lra|]. exists (- k)%Z. rewrite H, t_ra0_u, opp_IZR. ring.
  Qed.
End Md.

Record st_close (s : R) (t : st_time) : Prop := {
  sc_dec  : near (st_dec t) (u_dec s) tol9;
  sc_ra   : exists k : Z, near_b (st_ra t) (u_ra s + 2 * PI * IZR k) tol9 11;
  sc_agst : near_b (st_agst t) (t_agst s) (2 * tol9) 800000;
  sc_eot  : near (st_eot t) (u_eot s) (10 * tol9);
  sc_ecf  : near (st_ecf t) (t_ecf s) tol9 }.

Section Soltrack.
  Variable D : Env64.
  Hypothesis HD : double_like D.
  Variable s : R.
  Hypothesis Hs : in_ns_range s.

  Lemma t_den_low : Rz (qlow 0.98) <= Rabs (#1.0 + t_ecc s * cos (t_ma s + t_sec s)).
  Proof. assert (H := t_den_b s Hs). rewrite Rabs_pos_eq by lra. let z := eval vm_compute in (qlow 0.98) in change (qlow 0.98) with z. unfold Rz, u90, S90. lra. Qed.
  Lemma t_R_low : Rz (qlow 0.96) <= Rabs (t_R s).
  Proof. assert (H := t_R_b s Hs). rewrite Rabs_pos_eq by lra. let z := eval vm_compute in (qlow 0.96) in change (qlow 0.96) with z. unfold Rz, u90, S90. lra. Qed.
  Lemma t_R2_low : Rz (qlow 0.96) <= Rabs (t_R s ^ 2).
  Proof. assert (H := t_R_b s Hs). rewrite Rabs_pos_eq by nra. let z := eval vm_compute in (qlow 0.96) in change (qlow 0.96) with z. unfold Rz, u90, S90. nra. Qed.
  Lemma u_ra_norm : 1 / 2 <= cos (t_obl s) * sin (u_L s) * (cos (t_obl s) * sin (u_L s)) + cos (u_L s) * cos (u_L s).
  Proof.
    assert (Hep : 0.917 <= cos (t_obl s)) by (pose proof (t_obl_b s Hs); generalize dependent (t_obl s); intros x Hx; interval).
    assert (S := sc1 (u_L s)). set (c := cos (t_obl s)) in *. replace (_ + _) with (1 - (1 - c * c) * (sin (u_L s) * sin (u_L s))) by nra.
    assert (0.84 <= c * c) by nra. assert (0 <= sin (u_L s) * sin (u_L s) <= 1) by nra. nra.
  Qed.
  Lemma u_eot_ref (k j : Z) : exists n : Z,
    (- #0.0057183 + (t_l0 s - (u_ra s - IZR k * (2 * PI)) + t_dpsi s * cos (t_obl s)) * (180 / PI) - IZR j * #360) * #4 = u_eot s + 1440 * IZR n.
  Proof.
    destruct (t_eot_thm Rfloor_mod floor_mod_mod_spec s Hs) as [_ (k1 & K1)]. destruct (t_ra_u Rfloor_mod floor_mod_mod_spec s) as (k2 & K2).
    exists (k + k2 - k1 - j)%Z. unfold u_eot. rewrite K1, K2, !minus_IZR, plus_IZR. qs. field. apply PI_neq.
  Qed.
  Lemma u_eot_b : Rabs (u_eot s) <= 18.2.
  Proof. pose proof (proj1 (t_eot_thm Rfloor_mod floor_mod_mod_spec s Hs)). unfold u_eot. lra. Qed.
  Lemma two_pi_low : Rz (6 * S90) <= 2 * PI.
  Proof. rewrite Rz_k. assert (3.1 < PI) by interval. lra. Qed.

  Lemma ne_soltrack_time_D S0 : apb S0 s bS 0 -> st_close s (ne_soltrack_time (O := DoubleOps D) S0).
  Proof.
    intros H0. cbv beta delta [ne_soltrack_time]. assert (DL := t_den_low). assert (RL := t_R_low). assert (RL2 := t_R2_low).
    dl D HD (t_JD s). dl D HD (t_JC s). dl D HD (t_JC2 s). dl D HD (t_l0 s). dl D HD (t_ma s). dl D HD (t_sec s). dl D HD (t_omg s).
    dl D HD (t_dpsi s). dl D HD (t_ecc s). dl D HD (t_R s).
    (* longitude *)
    lazymatch goal with |- _ (let x := nemod ?a ?b in _) => edestruct (ap_nemod D a b) as (k & Hk); [ap D HD|apply (ap_TWOPI D HD)|exact two_pi_low|vm_compute; reflexivity|] end.
    fold (u_L s) in Hk. norm_in Hk.
    lazymatch type of Hk with apb ?x _ _ _ => generalize dependent x; intros A0 Hk; dskip end.
    dl D HD (t_obl s).
    dlq D HD (sin (u_L s)) (apply sin_turn). dlq D HD (cos (u_L s)) (apply cos_turn). dl D HD (cos (t_obl s)). dl D HD (sin (t_obl s)).
    (* right ascension *)
    lazymatch goal with |- _ (let x := nemod (fatan2 ?a ?b) _ in _) => edestruct (ap_atan2 D HD a b) as (k1 & Hk1); [ap D HD|ap D HD|exact u_ra_norm|vm_compute; reflexivity|] end.
    fold (u_ra s) in Hk1. norm_in Hk1. lazymatch type of Hk1 with apb ?x _ _ _ => generalize dependent x; intros A1 Hk1 end.
    edestruct (ap_nemod D A1 (TWOPI (O := DoubleOps D))) as (k2 & Hk2); [exact Hk1|apply (ap_TWOPI D HD)|exact two_pi_low|vm_compute; reflexivity|].
    norm_in Hk2. lazymatch type of Hk2 with apb ?x _ _ _ => generalize dependent x; intros A2 Hk2; dskip end.
    eapply ap_eq in Hk2; [|instantiate (1 := u_ra s - IZR (k2 - k1) * (2 * PI)); rewrite minus_IZR; ring].
    generalize dependent (k2 - k1)%Z. intros kr Hkr.
    (* declination *)
    lazymatch goal with |- _ (let x := fasin ?a in _) => assert (Hd : apb a (sin (t_obl s) * sin (u_L s)) (S90 / 2 - 2 ^ 53) (2 ^ 53)) end.
    { eapply ap_le; [ap D HD| |]; vm_compute; reflexivity. }
    apply (ap_asin D HD) in Hd; [|vm_compute; reflexivity]. fold (u_dec s) in Hd.
    lazymatch type of Hd with apb ?x _ _ _ => generalize dependent x; intros A3 Hd; dskip end.
    (* equation of time *)
    dl D HD ((t_l0 s - (u_ra s - IZR kr * (2 * PI)) + t_dpsi s * cos (t_obl s)) * (180 / PI)).
    lazymatch goal with |- _ (let x := mul (nemod ?a ?b) _ in _) => edestruct (ap_nemod D a b) as (j & Hj); [ap D HD|apply (ap_lit D HD)|apply (Q2R_low 360 eq_refl)|vm_compute; reflexivity|] end.
    norm_in Hj. lazymatch type of Hj with apb ?x _ _ _ => generalize dependent x; intros A4 Hj end.
    lazymatch goal with |- _ (let x := ?body in _) => eassert (He : apb body _ _ _) by (ap D HD) end. norm_in He.
    destruct (u_eot_ref kr j) as (n & Hn). rewrite Hn in He. clear Hn Hj.
    lazymatch type of He with apb ?x _ _ _ => generalize dependent x; intros A5 He; dskip end. dskip. dskip.
    assert (Hw := ap_wrap_lt_first D HD A5 (u_eot s) n _ _ 1440 He u_eot_b ltac:(vm_compute; reflexivity) ltac:(vm_compute; reflexivity) (or_intror eq_refl)).
    cbv zeta in Hw. norm_in Hw. lazymatch type of Hw with apb ?x _ _ _ => generalize dependent x; intros A6 Hw end.
    dl D HD (t_ecf s). dl D HD (t_gmst s). dl D HD (t_agst s).
    constructor; cbn [st_dec st_ra st_agst st_eot st_ecf].
    - eapply apb_near; [exact Hd|tol].
    - exists (- kr)%Z. eapply apb_near_b; [eapply ap_eq; [exact Hkr|rewrite opp_IZR; ring]|tol|tol].
    - eapply apb_near_b; [eassumption|tol|tol].
    - eapply apb_near; [exact Hw|tol].
    - eapply apb_near; [eassumption|tol].
  Qed.

  Lemma sin_obl_b : 0.39 <= sin (t_obl s) <= 0.4.
  Proof. assert (H := t_obl_b s Hs). generalize dependent (t_obl s). intros o Ho. split; interval. Qed.
  Lemma sin_obl2 : #1.0 - cos (t_obl s) ^ 2 = sin (t_obl s) * sin (t_obl s).
  Proof. pose proof (sc1 (t_obl s)). q2. lra. Qed.
  Lemma sin_obl_low : 1 / 16 <= sin (t_obl s) * sin (t_obl s).
  Proof. pose proof sin_obl_b. nra. Qed.
  Lemma sin_obl_sqrt : sqrt (sin (t_obl s) * sin (t_obl s)) = sin (t_obl s).
  Proof. apply sqrt_square. pose proof sin_obl_b. lra. Qed.
  Lemma sin_obl_up : Rabs (sin (t_obl s)) <= Rz (qbnd 0.4).
  Proof. pose proof sin_obl_b. rewrite Rabs_pos_eq by lra. let z := eval vm_compute in (qbnd 0.4) in change (qbnd 0.4) with z. unfold Rz, u90, S90. lra. Qed.

  Lemma py_soltrack_time_D S0 : apb S0 s bS 0 -> st_close s (py_soltrack_time (O := DoubleOps D) S0).
  Proof.
    intros H0. cbv beta delta [py_soltrack_time]. assert (DL := t_den_low). assert (RL := t_R_low). assert (RL2 := t_R2_low).
    dl D HD (t_JD s). dl D HD (t_JC s). dl D HD (t_JC2 s). dl D HD (t_l0 s). dl D HD (t_ma s). dl D HD (t_sec s). dl D HD (t_l0 s + t_sec s). dl D HD (t_omg s).
    dl D HD (t_dpsi s). dl D HD (t_ecc s). dl D HD (t_ma s + t_sec s). dl D HD (t_R s). dl D HD (- #9.93087e-5 / t_R s).
    (* longitude *)
    lazymatch goal with |- _ (let x := npmod ?a ?b in _) => edestruct (ap_npmod D HD a b) as (k & Hk); [ap D HD|apply (ap_TWOPI D HD)|exact two_pi_low|vm_compute; reflexivity|] end.
    fold (u_L s) in Hk. norm_in Hk.
    lazymatch type of Hk with apb ?x _ _ _ => generalize dependent x; intros A0 Hk; dskip end.
    dl D HD (#0.409092804222 - #2.26965525e-4 * t_JC s - #2.86e-9 * t_JC2 s). dl D HD (#4.4615e-5 * cos (t_omg s)). dl D HD (t_obl s).
    dlq D HD (sin (u_L s)) (apply sin_turn). dlq D HD (cos (u_L s)) (apply cos_turn). dl D HD (cos (t_obl s)). 
    lazymatch goal with |- _ (let x := fsqrt ?a in _) => eassert (Hq : apb a _ _ _) by (ap D HD) end. norm_in Hq.
    eapply ap_eq in Hq; [|exact sin_obl2]. apply (ap_sqrt D HD) in Hq; [|exact sin_obl_low|vm_compute; reflexivity|vm_compute; reflexivity]. rewrite sin_obl_sqrt in Hq. norm_in Hq.
    lazymatch type of Hq with apb ?x _ _ _ => generalize dependent x; intros AQ Hq; dskip end.
    apply (ap_bnd _ _ _ _ (qbnd 0.4)) in Hq; [|exact sin_obl_up]. norm_in Hq.
    (* right ascension *)
    lazymatch goal with |- _ (let x := npmod (fatan2 ?a ?b) _ in _) => edestruct (ap_atan2 D HD a b) as (k1 & Hk1); [ap D HD|ap D HD|exact u_ra_norm|vm_compute; reflexivity|] end.
    fold (u_ra s) in Hk1. norm_in Hk1. lazymatch type of Hk1 with apb ?x _ _ _ => generalize dependent x; intros A1 Hk1 end.
    edestruct (ap_npmod D HD A1 (TWOPI (O := DoubleOps D))) as (k2 & Hk2); [exact Hk1|apply (ap_TWOPI D HD)|exact two_pi_low|vm_compute; reflexivity|].
    norm_in Hk2. lazymatch type of Hk2 with apb ?x _ _ _ => generalize dependent x; intros A2 Hk2; dskip end.
    eapply ap_eq in Hk2; [|instantiate (1 := u_ra s - IZR (k2 - k1) * (2 * PI)); rewrite minus_IZR; ring].
    generalize dependent (k2 - k1)%Z. intros kr Hkr.
    (* declination *)
    lazymatch goal with |- _ (let x := fasin ?a in _) => assert (Hd : apb a (sin (t_obl s) * sin (u_L s)) (S90 / 2 - 2 ^ 53) (2 ^ 53)) end.
    { eapply ap_le; [ap D HD| |]; vm_compute; reflexivity. }
    apply (ap_asin D HD) in Hd; [|vm_compute; reflexivity]. fold (u_dec s) in Hd.
    lazymatch type of Hd with apb ?x _ _ _ => generalize dependent x; intros A3 Hd; dskip end.
    (* equation of time *)
    dl D HD ((t_l0 s - (u_ra s - IZR kr * (2 * PI)) + t_dpsi s * cos (t_obl s)) * (180 / PI)).
    lazymatch goal with |- _ (let x := mul (npmod ?a ?b) _ in _) => edestruct (ap_npmod D HD a b) as (j & Hj); [ap D HD|apply (ap_lit D HD)|apply (Q2R_low 360 eq_refl)|vm_compute; reflexivity|] end.
    norm_in Hj. lazymatch type of Hj with apb ?x _ _ _ => generalize dependent x; intros A4 Hj end.
    lazymatch goal with |- _ (let x := ?body in _) => eassert (He : apb body _ _ _) by (ap D HD) end. norm_in He.
    destruct (u_eot_ref kr j) as (n & Hn). rewrite Hn in He. clear Hn Hj.
    lazymatch type of He with apb ?x _ _ _ => generalize dependent x; intros A5 He; dskip end. dskip. dskip.
    assert (Hw := ap_wrap_lt_first D HD A5 (u_eot s) n _ _ 1440 He u_eot_b ltac:(vm_compute; reflexivity) ltac:(vm_compute; reflexivity) (or_intror eq_refl)).
    cbv zeta in Hw. norm_in Hw. lazymatch type of Hw with apb ?x _ _ _ => generalize dependent x; intros A6 Hw end.
    dl D HD (t_ecf s). dl D HD (t_gmst s). dl D HD (t_agst s).
    constructor; cbn [st_dec st_ra st_agst st_eot st_ecf].
    - eapply apb_near; [exact Hd|tol].
    - exists (- kr)%Z. eapply apb_near_b; [eapply ap_eq; [exact Hkr|rewrite opp_IZR; ring]|tol|tol].
    - eapply apb_near_b; [eassumption|tol|tol].
    - eapply apb_near; [exact Hw|tol].
    - eapply apb_near; [eassumption|tol].
  Qed.
End Soltrack.
