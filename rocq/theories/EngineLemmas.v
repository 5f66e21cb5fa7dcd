(** * EngineLemmas: the numpy and numexpr engines in exact arithmetic *)

From Coq Require Import ZArith QArith Reals Bool List String Lra Lia.
From Flocq Require Import Core.Raux Core.Generic_fmt.
From Interval Require Import Tactic.
From Verif Require Import Num Arrays Libspa Time Core Usecases Spec GenericLemmas GenericLemmas2 Ext ExtLemmas NanCells
  Sky AstroTac Refraction AstroSpec Astro AstroCell AstroCall AstroRefute
  Psa PsaR PsaCell Soltrack SoltrackR SoltrackCell Iqbal IqbalR.
Import ListNotations.
Open Scope R_scope.

(** ** soltrack: the modulo operators only shift by whole turns *)
Section Sol.
  Variables (md1 md2 : R -> R -> R) (s : R).
  Hypothesis H1 : mod_spec md1.
  Hypothesis H2 : mod_spec md2.
  Hypothesis Hs : in_ns_range s.
  Lemma t_L_turn : exists k : Z, t_L md1 s = t_L md2 s - 2 * PI * IZR k.
  Proof.
    unfold t_L. set (x := _ + t_dpsi s). pose proof PI_RGT_0.
    destruct (H1 x (2 * PI)) as (k1 & -> & _); [lra|]. destruct (H2 x (2 * PI)) as (k2 & -> & _); [lra|].
    exists (k1 - k2)%Z. rewrite minus_IZR. ring.
  Qed.
  Lemma t_dec_md : t_dec md1 s = t_dec md2 s.
  Proof. unfold t_dec. destruct t_L_turn as (k & ->). now rewrite sin_2kpi. Qed.
  Lemma t_ra_turn : exists k : Z, t_ra md1 s = t_ra md2 s - 2 * PI * IZR k.
  Proof.
    unfold t_ra, t_ra0. destruct t_L_turn as (k & ->). rewrite sin_2kpi, cos_2kpi. set (x := Ratan2 _ _). pose proof PI_RGT_0.
    destruct (H1 x (2 * PI)) as (k1 & -> & _); [lra|]. destruct (H2 x (2 * PI)) as (k2 & -> & _); [lra|].
    exists (k1 - k2)%Z. rewrite minus_IZR. ring.
  Qed.
  Lemma t_eot_md : t_eot md1 s = t_eot md2 s.
  Proof.
    destruct (t_eot_thm md1 H1 s Hs) as [B1 (k1 & E1)]. destruct (t_eot_thm md2 H2 s Hs) as [B2 (k2 & E2)].
    destruct t_ra_turn as (k & Hk). rewrite Hk in E1.
    assert (Ed : t_eot md1 s - t_eot md2 s = 1440 * IZR (k1 - k2 + k)).
    { rewrite E1, E2, plus_IZR, minus_IZR. field. apply PI_neq. }
    apply Rabs_le_inv in B1, B2. assert (-1 < IZR (k1 - k2 + k) < 1) by lra.
    assert (-1 < k1 - k2 + k < 1)%Z by (split; apply lt_IZR; lra). replace (k1 - k2 + k)%Z with 0%Z in Ed by lia. lra.
  Qed.
End Sol.

Lemma st_finish_turn E r d ra1 ra2 agst lo la k :
  ra1 = ra2 - 2 * PI * IZR k ->
  (st_finish E r (s_zen0 agst ra1 d lo la), Fin (s_az agst ra1 d lo la)) = (st_finish E r (s_zen0 agst ra2 d lo la), Fin (s_az agst ra2 d lo la)).
Proof.
  intros ->. unfold s_zen0, s_az, st_az, sun_U, s_H.
  replace (agst - (ra2 - 2 * PI * IZR k) + lo * (PI / 180)) with (agst - ra2 + lo * (PI / 180) - 2 * PI * IZR (- k)) by (rewrite opp_IZR; ring).
  now rewrite cos_2kpi, sin_2kpi.
Qed.

(** ** Both engines, one place *)
Definition coord_ok (la lo : ext) : Prop :=
  (la = NaN \/ exists x, la = Fin x /\ -90 <= x <= 90) /\ (lo = NaN \/ exists x, lo = Fin x /\ -180 <= x < 180).
Lemma coord_ok_in E lat lon la lo : coords_ok (O := ExtOps E) lat lon -> In la lat -> In lo lon -> coord_ok la lo.
Proof.
  intros [H1 H2] Ha Ho. specialize (H1 _ Ha). specialize (H2 _ Ho). split.
  - destruct la as [| | |x]; [now left|exfalso..|]; cbn -[Q2R Rleb Rltb] in H1; try (destruct H1 as [H|[H H']]; discriminate).
    right. exists x. split; [reflexivity|]. destruct H1 as [H|[A B]]; [discriminate H|].
    destruct (Rleb_spec (Q2R (-90)) x) as [A'|]; [|discriminate]. destruct (Rleb_spec x (Q2R 90)) as [B'|]; [|discriminate].
    clear - A' B'. q2. lra.
  - destruct lo as [| | |x]; [now left|exfalso..|]; cbn -[Q2R Rleb Rltb] in H2; try (destruct H2 as [H|[H H']]; discriminate).
    right. exists x. split; [reflexivity|]. destruct H2 as [H|[A B]]; [discriminate H|].
    destruct (Rleb_spec (Q2R (-180)) x) as [A'|]; [|discriminate]. destruct (Rltb_spec x (Q2R 180)) as [B'|]; [|discriminate].
    clear - A' B'. q2. lra.
Qed.
Lemma lib_cast_nan E alg eng m : In (alg, eng, m) (supported (O := ExtOps E)) -> lib_cast m NaN = NaN.
Proof. cbn [supported In]. intros [H|[H|[H|[H|[H|[H|[H|[]]]]]]]]; injection H as _ _ <-; reflexivity. Qed.

Lemma engines_time E alg m m' t : In (alg, "numpy"%string, m) (supported (O := ExtOps E)) ->
  In (alg, "numexpr"%string, m') (supported (O := ExtOps E)) -> in_ns_range (IZR t) ->
  lib_dec m (lib_time m t) = lib_dec m' (lib_time m' t) /\ lib_eot m (lib_time m t) = lib_eot m' (lib_time m' t) /\
  lib_ecf m (lib_time m t) = lib_ecf m' (lib_time m' t).
Proof.
  intros Hin Hin' Hs. cbn [supported In] in Hin, Hin'.
  destruct Hin as [H|[H|[H|[H|[H|[H|[H|[]]]]]]]]; try discriminate H; injection H as <- <-;
  destruct Hin' as [H|[H|[H|[H|[H|[H|[H|[]]]]]]]]; try discriminate H; injection H as <-;
    cbn [py_psa ne_psa py_soltrack ne_soltrack py_iqbal ne_iqbal lib_dec lib_time lib_eot lib_ecf].
  - change (ofZ (Ops := ExtOps E) t) with (Fin (IZR t)). rewrite py_psa_time_R, ne_psa_time_R' by exact Hs. repeat split.
  - change (ofZ (Ops := ExtOps E) t) with (Fin (IZR t)). rewrite py_soltrack_time_R, ne_soltrack_time_R by exact Hs. cbn [st_dec st_eot st_ecf].
    pose proof floor_mod_mod_spec as F. pose proof (nem_mod_spec E) as N.
    rewrite (t_dec_md _ _ _ F N). rewrite (t_eot_md _ _ _ F N Hs). repeat split.
  - rewrite (proj1 (iq_time_R E t)), (proj2 (iq_time_R E t)). repeat split.
Qed.

Lemma engines_cell E alg m m' r t la lo : ideal E -> alg = "soltrack"%string \/ alg = "iqbal"%string ->
  In (alg, "numpy"%string, m) (supported (O := ExtOps E)) -> In (alg, "numexpr"%string, m') (supported (O := ExtOps E)) ->
  representable t -> coord_ok la lo ->
  lib_2d m r (lib_time m (sec_of t)) (lib_cast m lo) (lib_cast m la) = lib_2d m' r (lib_time m' (sec_of t)) (lib_cast m' lo) (lib_cast m' la).
Proof.
  intros HE Hal Hin Hin' Ht [Ha Ho]. assert (Hs := sec_range t Ht).
  destruct Ha as [->|(xa & -> & Ba)].
  { rewrite (lib_cast_nan _ _ _ _ Hin), (lib_cast_nan _ _ _ _ Hin').
    etransitivity; [exact (proj2 (nan_cells E _ _ _ Hin Sites r _ _))|]. symmetry. exact (proj2 (nan_cells E _ _ _ Hin' Sites r _ _)). }
  destruct Ho as [->|(xo & -> & Bo)].
  { rewrite (lib_cast_nan _ _ _ _ Hin), (lib_cast_nan _ _ _ _ Hin').
    etransitivity; [exact (proj1 (nan_cells E _ _ _ Hin Sites r _ _))|]. symmetry. exact (proj1 (nan_cells E _ _ _ Hin' Sites r _ _)). }
  cbn [supported In] in Hin, Hin'.
  destruct Hin as [H|[H|[H|[H|[H|[H|[H|[]]]]]]]]; try discriminate H; injection H as <- <-;
  destruct Hin' as [H|[H|[H|[H|[H|[H|[H|[]]]]]]]]; try discriminate H; injection H as <-.
  - destruct Hal as [H|H]; discriminate H.
  - cbn [py_soltrack ne_soltrack lib_2d lib_time lib_cast]. rewrite ofZ_fin, py_soltrack_time_R, ne_soltrack_time_R by exact Hs.
    ext_ops. rewrite !fin_fun, !HE. pose proof floor_mod_mod_spec as F. pose proof (nem_mod_spec E) as N.
    pose proof (cos_dec_b (t_dec (nem E) (IZR (sec_of t))) ltac:(pose proof (t_dec_b _ Hs (nem E)); lra)).
    rewrite (t_dec_md _ _ _ F N). rewrite py_soltrack_cell_R, ne_soltrack_cell_R by (assumption || lra).
    destruct (t_ra_turn _ _ (IZR (sec_of t)) F N) as (k & Hk). eapply st_finish_turn. exact Hk.
  - cbn [py_iqbal ne_iqbal lib_2d lib_time lib_cast]. rewrite (proj1 (iq_time_R E (sec_of t))), (proj2 (iq_time_R E (sec_of t))).
    ext_ops. rewrite !fin_fun, !HE.
    pose proof (cos_dec_b (i_dec (sec_of t))) as H. pose proof (i_dec_b (i_ang (sec_of t))) as H'. change (i_dec0 (i_ang (sec_of t))) with (i_dec (sec_of t)) in H'.
    rewrite py_iqbal_cell_R, ne_iqbal_cell_R by (assumption || lra). reflexivity.
Qed.

(** ** psa *)
Definition EMr := 42587565907513806 / 1000000000000000000000.
Lemma cos_parallax z1 z2 e : 0 <= e <= 1 -> 0 <= z1 <= PI -> 0 <= z2 <= PI ->
  Rabs (cos (z1 + e * sin z1) - cos (z2 + e * sin z2)) <= (1 + e) * (1 + e) * Rabs (cos z1 - cos z2).
Proof.
  intros He B1 B2. pose proof PI_RGT_0 as HP. set (m := (z1 + z2) / 2). set (dl := (z1 - z2) / 2).
  assert (Hm : 0 <= sin m) by (apply sin_ge_0; unfold m; lra).
  assert (Hf : forall a b, cos a - cos b = -2 * sin ((a - b) / 2) * sin ((a + b) / 2)) by (intros; apply form2).
  rewrite !Hf. fold m. fold dl.
  assert (S1 : sin z1 = sin (m + dl)) by (f_equal; unfold m, dl; field). assert (S2 : sin z2 = sin (m - dl)) by (f_equal; unfold m, dl; field).
  replace ((z1 + e * sin z1 - (z2 + e * sin z2)) / 2) with (dl + e * cos m * sin dl)
    by (rewrite S1, S2, sin_plus, sin_minus; unfold dl; field).
  replace ((z1 + e * sin z1 + (z2 + e * sin z2)) / 2) with (m + e * cos dl * sin m)
    by (rewrite S1, S2, sin_plus, sin_minus; unfold m; field).
  assert (Hg : forall x c, -1 <= c <= 1 -> Rabs (sin (x + e * c * sin x)) <= (1 + e) * Rabs (sin x)).
  { intros x c Hc. rewrite sin_plus. set (y := e * c * sin x).
    assert (Ay : Rabs (sin y) <= e * Rabs (sin x)).
    { assert (A0 : Rabs y <= e * Rabs (sin x)).
      { unfold y. rewrite !Rabs_mult. rewrite (Rabs_pos_eq e) by lra. assert (Rabs c <= 1) by (apply Rabs_le; lra).
        apply Rmult_le_compat_r; [apply Rabs_pos|]. rewrite <- (Rmult_1_r e) at 2. apply Rmult_le_compat_l; lra. }
      eapply Rle_trans; [|exact A0]. clear. destruct (Rle_or_lt 0 y) as [H|H].
      - rewrite (Rabs_pos_eq y) by exact H. destruct (Req_dec y 0) as [->|Hn]; [rewrite sin_0, Rabs_R0; lra|].
        assert (sin y < y) by (apply sin_lt_x; lra).
        destruct (Rle_or_lt 1 y); [pose proof (SIN_bound y); apply Rabs_le; lra|].
        assert (0 <= sin y) by (apply sin_ge_0; [lra|assert (3 < PI) by interval; lra]). rewrite Rabs_pos_eq; lra.
      - rewrite (Rabs_left y) by exact H. rewrite <- (Rabs_Ropp (sin y)), <- sin_neg.
        assert (sin (- y) < - y) by (apply sin_lt_x; lra).
        destruct (Rle_or_lt 1 (- y)); [pose proof (SIN_bound (- y)); apply Rabs_le; lra|].
        assert (0 <= sin (- y)) by (apply sin_ge_0; [lra|assert (3 < PI) by interval; lra]). rewrite Rabs_pos_eq; lra. }
    eapply Rle_trans; [apply Rabs_triang|]. rewrite !Rabs_mult.
    assert (Rabs (cos y) <= 1) by (apply Rabs_le, COS_bound). assert (Rabs (cos x) <= 1) by (apply Rabs_le, COS_bound).
    assert (0 <= Rabs (sin x)) by apply Rabs_pos. assert (0 <= Rabs (sin y)) by apply Rabs_pos.
    assert (0 <= Rabs (cos x)) by apply Rabs_pos. assert (0 <= Rabs (cos y)) by apply Rabs_pos. nra. }
  assert (G1 := Hg dl (cos m) (COS_bound m)). assert (G2 := Hg m (cos dl) (COS_bound dl)).
  rewrite !Rabs_mult. set (a := Rabs (sin (dl + _))) in *. set (b := Rabs (sin (m + _))) in *.
  assert (0 <= a) by apply Rabs_pos. assert (0 <= b) by apply Rabs_pos.
  assert (0 <= Rabs (sin dl)) by apply Rabs_pos. assert (0 <= Rabs (sin m)) by apply Rabs_pos.
  rewrite (Rabs_left (-2)) by lra.
  assert (a * b <= (1 + e) * Rabs (sin dl) * ((1 + e) * Rabs (sin m))) by (apply Rmult_le_compat; assumption). nra.
Qed.

Lemma round6_eq x n : Rabs (x * 1000000 - IZR n) < / 2 -> Rround6 x = IZR n / 1000000.
Proof. intros H. unfold Rround6. f_equal. f_equal. now apply Znearest_imp. Qed.

(** The two psa engines in exact arithmetic. *)
Lemma psa_cells E t : ideal E -> representable t ->
  exists H0 d, -0.411 <= d <= 0.411 /\
  forall r la lo,
    lib_2d (ne_psa (O := ExtOps E)) r (lib_time (ne_psa (O := ExtOps E)) (sec_of t)) (Fin lo) (Fin la)
    = (Fin (psa_finish r (acos (sun_U (la * (PI / 180)) d (H0 + lo * (PI / 180))))),
       Fin (psa_az d (sin (la * (PI / 180))) (cos (la * (PI / 180))) (H0 + lo * (PI / 180)))) /\
    lib_2d (py_psa (O := ExtOps E)) r (lib_time (py_psa (O := ExtOps E)) (sec_of t)) (Fin lo) (Fin la)
    = (Fin (psa_finish r (acos (Rround6 (sun_U (la * (PI / 180)) d (H0 + lo * (PI / 180)))))),
       Fin (psa_az d (sin (la * (PI / 180))) (cos (la * (PI / 180))) (H0 + lo * (PI / 180)))).
Proof.
  intros HE Ht. assert (Hs := sec_range t Ht). set (s := IZR (sec_of t)) in *.
  exists (p_gmst (nem E) s * #15 * (PI / 180) - p_ra s), (p_delta s). pose proof (p_delta_b s Hs) as Bd. split; [lra|].
  assert (Hc := cos_dec_b (p_delta s) ltac:(lra)).
  intros r la lo. cbn [ne_psa py_psa lib_2d lib_time]. rewrite ofZ_fin, ne_psa_time_R', py_psa_time_R by exact Hs. fold s.
  destruct (psa_gmst_k E t) as (n & Hn). destruct (psa_gmst_k' t) as (n' & Hn'). fold s in Hn, Hn'.
  assert (E1 : c_H (p_ra s) (p_gmst (nem E) s) lo = p_gmst (nem E) s * #15 * (PI / 180) - p_ra s + lo * (PI / 180)) by (unfold c_H; ring).
  assert (E2 : c_H (p_ra s) (p_gmst Rfloor_mod s) lo = c_H (p_ra s) (p_gmst (nem E) s) lo - 2 * PI * IZR (n' - n)).
  { unfold c_H, p_gmst, p_dh. rewrite Hn, Hn', minus_IZR. q2. field. }
  split.
  - rewrite ne_psa_cell_R by lra. unfold c_zen, c_zen0, c_az. rewrite c_cosz_U, E1. unfold c_phi. reflexivity.
  - assert (Eq : q_cosz E (p_delta s) (p_ra s) (p_gmst Rfloor_mod s) lo la = sun_U (la * (PI / 180)) (p_delta s) (c_H (p_ra s) (p_gmst (nem E) s) lo)).
    { unfold q_cosz, q_sl, q_cl, q_phi, sun_U. rewrite !HE, E2, cos_2kpi. ring. }
    rewrite py_psa_cell_R; [|lra|].
    + unfold q_zen, q_zen0, q_az, psa_az. rewrite Eq. unfold q_sl, q_cl, q_phi. rewrite !HE, E2, cos_2kpi, sin_2kpi, E1. reflexivity.
    + rewrite Eq. apply round6_unit. pose proof (sun_U_bound (la * (PI / 180)) (p_delta s) (c_H (p_ra s) (p_gmst (nem E) s) lo)). lra.
Qed.
