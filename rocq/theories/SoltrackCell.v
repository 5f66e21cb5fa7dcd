(** * SoltrackCell: the location-dependent part of the soltrack modules over the reals *)

From Coq Require Import ZArith QArith Reals Bool List Lra Lia.
From Interval Require Import Tactic.
From Verif Require Import Num Ext ExtLemmas Sky AstroTac Refraction Psa PsaR PsaCell Soltrack SoltrackR GenericLemmas.
Open Scope R_scope.

Notation KST := (#4.2635e-5).

Definition st_parallax (z0 : R) : R := z0 + KST * sin z0.
Lemma st_parallax_b z : 0 <= z <= PI -> 0 <= st_parallax z <= PI.
Proof. apply parallax_b. q2; lra. Qed.
(** The apparent altitude, refraction included, as computed on extended reals. *)
Definition st_refracted (E : Env) (alt : R) : ext :=
  e_sub (Fin (PI / 2)) (e_add (Fin alt)
    (e_div (Fin #2.967e-4) (e_tan (e_add (Fin alt) (e_div (Fin #3.1376e-3) (e_add (Fin alt) (Fin #8.92e-2))))))).
Definition st_finish (E : Env) (r : bool) (z0 : R) : ext :=
  if r then st_refracted E (PI / 2 - st_parallax z0) else Fin (st_parallax z0).
Definition st_az (del sl cl h : R) : R := Ratan2 (sin h) (cos h * sl - tan del * cl).

Section Cell.
  Variables (agst ra del lon lat : R).   (* radians; degrees *)
  Definition s_H : R := agst - ra + lon * (PI / 180).
  Definition s_phi : R := lat * (PI / 180).
  Definition s_zen0 : R := acos (sun_U s_phi del s_H).
  Definition s_az : R := st_az del (sin s_phi) (cos s_phi) s_H.
  Lemma s_zen0_spec : is_zenith s_zen0 s_phi del s_H.
  Proof. unfold is_zenith, s_zen0. split; [apply acos_bound|]. apply cos_acos, sun_U_bound. Qed.
  Lemma s_az_spec : 0 < cos del -> is_azimuth s_az s_phi del s_H.
  Proof. apply azimuth_south. Qed.
End Cell.

Lemma asin_acos' x : -1 <= x <= 1 -> asin x = PI / 2 - acos x.
Proof.
  intros H. pose proof (asin_bound x). pose proof (acos_bound x).
  assert (E : sin (asin x) = sin (PI / 2 - acos x)) by (rewrite sin_shift, sin_asin, cos_acos by lra; reflexivity).
  rewrite <- (asin_sin (PI / 2 - acos x)) by lra. now rewrite <- E, asin_sin by lra.
Qed.
Lemma st_alt_eq x : -1 <= x <= 1 -> asin x - KST * cos (asin x) = PI / 2 - st_parallax (acos x).
Proof. intros H. rewrite asin_acos' by assumption. rewrite cos_shift. unfold st_parallax. ring. Qed.

Lemma ne_soltrack_cell_R E r agst ra del ecf eot lon lat :
  0 < cos del ->
  ne_soltrack_2d (O := ExtOps E) r {| st_agst := Fin agst; st_ra := Fin ra; st_dec := Fin del; st_ecf := ecf; st_eot := eot |}
    (Fin lon) (Fin lat) = (st_finish E r (s_zen0 agst ra del lon lat), Fin (s_az agst ra del lon lat)).
Proof.
  intros Hd. assert (Hd' : cos del <> 0) by lra.
  cbv beta iota zeta delta [ne_soltrack_2d st_agst st_ra st_dec]. ext_ops. fin_all.
  change (lat * (PI / 180)) with (s_phi lat). change (agst - ra + lon * (PI / 180)) with (s_H agst ra lon).
  change (sin (s_phi lat) * sin del + cos (s_phi lat) * cos del * cos (s_H agst ra lon)) with (sun_U (s_phi lat) del (s_H agst ra lon)).
  rewrite fin_unit by apply sun_U_bound. fin.
  rewrite st_alt_eq by apply sun_U_bound.
  change (acos (sun_U (s_phi lat) del (s_H agst ra lon))) with (s_zen0 agst ra del lon lat).
  apply f_equal2; [|reflexivity].
  destruct r; [reflexivity|]. cbn [st_finish]. rewrite fin_sub. f_equal. ring.
Qed.

(** The numpy engine without float32 rounding: the same. *)
Lemma cos_lat_pos lat : -90 <= lat <= 90 -> 0 <= cos (lat * (PI / 180)).
Proof. intros H. pose proof PI_RGT_0. apply cos_ge_0; nra. Qed.
Lemma sqrt_1_sin2 x : 0 <= cos x -> sqrt (1 - sin x * sin x) = cos x.
Proof. intros H. pose proof (sc1 x). replace (1 - sin x * sin x) with (cos x * cos x) by lra. now apply sqrt_square. Qed.

Lemma py_soltrack_cell_R E r agst ra del ecf eot lon lat :
  ideal E -> 0 < cos del -> -90 <= lat <= 90 ->
  py_soltrack_2d (O := ExtOps E) r {| st_agst := Fin agst; st_ra := Fin ra; st_dec := Fin del; st_ecf := ecf; st_eot := eot |}
    (Fin lon) (Fin lat) = (st_finish E r (s_zen0 agst ra del lon lat), Fin (s_az agst ra del lon lat)).
Proof.
  intros HE Hd Hl.
  cbv beta iota zeta delta [py_soltrack_2d st_agst st_ra st_dec sub32 mul32 sqrt32]. ext_ops. fin. repeat (rewrite HE; fin).
  qs. change (lat * (PI / 180)) with (s_phi lat). change (agst - ra + lon * (PI / 180)) with (s_H agst ra lon).
  assert (Hcl : 0 <= cos (s_phi lat)) by now apply cos_lat_pos.
  assert (E1 : 0 <= 1 - sin (s_phi lat) * sin (s_phi lat)) by (pose proof (sc1 (s_phi lat)); nra).
  assert (E2 : 0 <= 1 - sin del ^ 2) by (pose proof (sc1 del); nra).
  rewrite (fin_sqrt (1 - sin del ^ 2)) by assumption. rewrite (fin_sqrt (1 - _ * _)) by assumption.
  replace (sin del ^ 2) with (sin del * sin del) by ring.
  rewrite !sqrt_1_sin2 by lra. rewrite fin_div by lra. fin. rewrite ?HE.
  change (sin (s_phi lat) * sin del + cos (s_phi lat) * cos del * cos (s_H agst ra lon)) with (sun_U (s_phi lat) del (s_H agst ra lon)).
  rewrite fin_unit by apply sun_U_bound. fin.
  rewrite st_alt_eq by apply sun_U_bound.
  change (acos (sun_U (s_phi lat) del (s_H agst ra lon))) with (s_zen0 agst ra del lon lat).
  apply f_equal2; [|reflexivity].
  destruct r; [reflexivity|]. cbn [st_finish]. rewrite fin_sub. f_equal. ring.
Qed.
