(** * PsaCell: the location-dependent part of the psa modules over the reals *)

From Coq Require Import ZArith QArith Reals Bool List Lra Lia.
From Flocq Require Import Core.Raux Core.Generic_fmt Core.Round_NE.
From Interval Require Import Tactic.
From Verif Require Import Num Ext ExtLemmas Sky AstroTac Refraction Psa PsaR.
Open Scope R_scope.

(** Parallax: z + k sin z stays inside [0, pi] for small k >= 0. *)
Lemma parallax_b k z : 0 <= k <= 1 -> 0 <= z <= PI -> 0 <= z + k * sin z <= PI.
Proof.
  intros Hk Hz. assert (0 <= sin z) by (apply sin_ge_0; lra).
  assert (sin z <= PI - z).
  { rewrite <- sin_PI_x. destruct (Req_dec z PI) as [->|]; [rewrite Rminus_diag_eq by reflexivity; rewrite sin_0; lra|].
    left. apply sin_lt_x. lra. }
  split; nra.
Qed.

Notation EM := (#0.000042587565907513806).

(** From the geometric zenith angle to the returned one: parallax, refraction. *)
Definition psa_parallax (z0 : R) : R := z0 + EM * sin z0.
Definition psa_elev (z0 : R) : R := PI / 2 - psa_parallax z0.
Definition psa_finish (r : bool) (z0 : R) : R :=
  if r then PI / 2 - where_ (Rleb (- #1.4545e-2) (psa_elev z0))
                       (psa_elev z0 + refr_corr (#1 * #1.7802e-2) #60 k_psa (psa_elev z0)) (psa_elev z0)
  else psa_parallax z0.
(** The azimuth from the local sine/cosine of latitude and the hour angle. *)
Definition psa_az (del sl cl h : R) : R := turn (Ratan2 (- sin h) (tan del * cl - sl * cos h)).

Lemma psa_parallax_b z : 0 <= z <= PI -> 0 <= psa_parallax z <= PI.
Proof. apply parallax_b. q2; lra. Qed.
Lemma psa_elev_b z : 0 <= z <= PI -> - (PI / 2) <= psa_elev z <= PI / 2.
Proof. intros H. pose proof (psa_parallax_b z H). unfold psa_elev. lra. Qed.

Section Cell.
  Variables (del ra gmst lon lat : R).   (* radians, radians, hours, degrees, degrees *)
  Definition c_H : R := (gmst * #15 + lon) * (PI / 180) - ra.
  Definition c_phi : R := lat * (PI / 180).
  Definition c_cosz : R := cos c_phi * cos c_H * cos del + sin del * sin c_phi.
  Definition c_zen0 : R := acos c_cosz.
  Definition c_zen (r : bool) : R := psa_finish r c_zen0.
  Definition c_az : R := psa_az del (sin c_phi) (cos c_phi) c_H.

  Lemma c_cosz_U : c_cosz = sun_U c_phi del c_H.
  Proof. unfold c_cosz, sun_U. ring. Qed.
  Lemma c_unit : -1 <= c_cosz <= 1.
  Proof. rewrite c_cosz_U. apply sun_U_bound. Qed.
  Lemma c_zen0_spec : is_zenith c_zen0 c_phi del c_H.
  Proof.
    unfold is_zenith, c_zen0. split; [apply acos_bound|]. rewrite cos_acos by apply c_unit. apply c_cosz_U.
  Qed.
End Cell.

Lemma refr_where el A :
  - (PI / 2) <= el <= PI / 2 ->
  where_ (e_le (Fin (- #1.4545e-2)) (Fin el))
    (e_add (Fin el) (e_div (Fin (A * #1.7802e-2)) (e_mul (Fin #60) (e_tan (e_add (Fin el) (e_div (Fin #3.1376e-3) (Fin (el + k_psa)))))))) (Fin el)
  = Fin (where_ (Rleb (- #1.4545e-2) el) (el + refr_corr (A * #1.7802e-2) #60 k_psa el) el).
Proof.
  intros H. rewrite fin_le. destruct (Rleb_spec (- #1.4545e-2) el) as [Hl|Hl]; cbn [where_].
  - assert (Hb : - #1.4545e-2 <= el <= PI / 2) by lra.
    rewrite fin_div by (q2; lra). rewrite fin_add. change (el + #3.1376e-3 / (el + k_psa)) with (refr_arg k_psa el).
    rewrite ext_cot; [now rewrite fin_add|q2; lra|now apply refr_sin].
  - reflexivity.
Qed.

Lemma psa_finish_eq E (r : bool) z0 :
  0 <= z0 <= PI ->
  (if r then
     e_sub (Fin (PI / 2))
       (where_ (e_le (Fin (- #1.4545e-2)) (e_sub (Fin (PI / 2)) (e_add (Fin z0) (e_mul (EMRAU (O := ExtOps E)) (e_fun sin (Fin z0))))))
         (e_add (e_sub (Fin (PI / 2)) (e_add (Fin z0) (e_mul (EMRAU (O := ExtOps E)) (e_fun sin (Fin z0)))))
            (e_div (Fin (#1 * #1.7802e-2)) (e_mul (Fin #60) (e_tan (e_add (e_sub (Fin (PI / 2)) (e_add (Fin z0) (e_mul (EMRAU (O := ExtOps E)) (e_fun sin (Fin z0)))))
                (e_div (Fin #3.1376e-3) (e_add (e_sub (Fin (PI / 2)) (e_add (Fin z0) (e_mul (EMRAU (O := ExtOps E)) (e_fun sin (Fin z0))))) (Fin k_psa))))))))
         (e_sub (Fin (PI / 2)) (e_add (Fin z0) (e_mul (EMRAU (O := ExtOps E)) (e_fun sin (Fin z0))))))
   else e_add (Fin z0) (e_mul (EMRAU (O := ExtOps E)) (e_fun sin (Fin z0)))) = Fin (psa_finish r z0).
Proof.
  intros Hz. unfold EMRAU. ext_ops. rewrite fin_fun, fin_mul, fin_add, fin_sub.
  change (z0 + EM * sin z0) with (psa_parallax z0).
  change (PI / 2 - psa_parallax z0) with (psa_elev z0).
  destruct r; [|reflexivity]. rewrite (fin_add (psa_elev _) k_psa).
  rewrite refr_where by now apply psa_elev_b. reflexivity.
Qed.
Lemma psa_az_eq del sl cl h :
  Fin (where_ (Rltb (Ratan2 (- sin h) (tan del * cl - sl * cos h)) #0.0)
        (Ratan2 (- sin h) (tan del * cl - sl * cos h) + PI) (Ratan2 (- sin h) (tan del * cl - sl * cos h) - PI))
  = Fin (psa_az del sl cl h).
Proof. unfold psa_az, turn. qs. reflexivity. Qed.

(** The numexpr engine: coordinates rounded to float32, the rest exact. *)
Lemma ne_psa_cell_R E r del ra gmst eot ecf lon lat :
  0 < cos del ->
  ne_psa_2d (O := ExtOps E) r {| psa_delta := Fin del; psa_ra := Fin ra; psa_gmst := Fin gmst; psa_eot := eot; psa_ecf := ecf |}
    (Fin lon) (Fin lat) = (Fin (c_zen del ra gmst lon lat r), Fin (c_az del ra gmst lon lat)).
Proof.
  intros Hd. assert (Hd' : cos del <> 0) by lra. cbv beta iota zeta delta [ne_psa_2d psa_delta psa_ra psa_gmst].
  ext_ops. fin_all.
  change (lat * (PI / 180)) with (c_phi lat).
  change ((gmst * #15 + lon) * (PI / 180) - ra) with (c_H ra gmst lon).
  apply f_equal2; [|apply psa_az_eq].
  change (cos (c_phi lat) * cos (c_H ra gmst lon) * cos del + sin del * sin (c_phi lat)) with (c_cosz del ra gmst lon lat).
  rewrite fin_unit by apply c_unit.
  change (acos (c_cosz del ra gmst lon lat)) with (c_zen0 del ra gmst lon lat).
  apply psa_finish_eq. apply c_zen0_spec.
Qed.

(** The numpy engine: float32 sine and cosine of the latitude, cosine of the zenith rounded to 6 decimals. *)
Section PyCell.
  Variable E : Env.
  Variables (del ra gmst lon lat : R).
  Definition q_phi : R := rnd E (lat * (PI / 180)).
  Definition q_sl : R := rnd E (sin q_phi).
  Definition q_cl : R := rnd E (cos q_phi).
  Definition q_cosz : R := q_cl * cos (c_H ra gmst lon) * cos del + sin del * q_sl.
  Definition q_zen0 : R := acos (Rround6 q_cosz).
  Definition q_zen (r : bool) : R := psa_finish r q_zen0.
  Definition q_az : R := psa_az del q_sl q_cl (c_H ra gmst lon).
End PyCell.

Lemma round6_err x : Rabs (Rround6 x - x) <= 5 / 10000000.
Proof.
  unfold Rround6. assert (H := Znearest_half (fun z => negb (Z.even z)) (x * 1000000)).
  fold ZnearestE in H. set (n := IZR (ZnearestE (x * 1000000))) in *.
  replace (n / 1000000 - x) with ((n - x * 1000000) / 1000000) by field.
  unfold Rdiv. rewrite Rabs_mult, (Rabs_pos_eq (/ 1000000)) by lra. rewrite Rabs_minus_sym in H. lra.
Qed.
Lemma round6_unit x : -1 - 4 / 10000000 <= x <= 1 + 4 / 10000000 -> -1 <= Rround6 x <= 1.
Proof.
  intros H. unfold Rround6. assert (Hn := Znearest_half (fun z => negb (Z.even z)) (x * 1000000)).
  fold ZnearestE in Hn. apply Rabs_le_inv in Hn. set (n := ZnearestE (x * 1000000)) in *.
  assert (-1000001 < IZR n < 1000001) by lra.
  assert (-1000001 < n < 1000001)%Z by (split; apply lt_IZR; lra).
  assert (IZR (-1000000) <= IZR n <= IZR 1000000) by (split; apply IZR_le; lia). lra.
Qed.

(** float32 accuracy on [-1, 1]: half an ulp. *)
Definition rnd_accurate (E : Env) : Prop := forall x, -1 <= x <= 1 -> Rabs (rnd E x - x) <= / 33554432.

Lemma q_cosz_err E del ra gmst lon lat : rnd_accurate E ->
  Rabs (q_cosz E del ra gmst lon lat - sun_U (q_phi E lat) del (c_H ra gmst lon)) <= 6 / 100000000.
Proof.
  intros HE. unfold q_cosz, q_sl, q_cl, sun_U. set (phi := q_phi E lat). set (h := c_H ra gmst lon).
  assert (Hs := HE (sin phi) (SIN_bound phi)). assert (Hc := HE (cos phi) (COS_bound phi)).
  set (ds := rnd E (sin phi) - sin phi) in *. set (dc := rnd E (cos phi) - cos phi) in *.
  replace (rnd E (cos phi)) with (cos phi + dc) by (unfold dc; ring).
  replace (rnd E (sin phi)) with (sin phi + ds) by (unfold ds; ring).
  replace (_ - _) with (dc * (cos h * cos del) + ds * sin del) by ring.
  pose proof (COS_bound h). pose proof (COS_bound del). pose proof (SIN_bound del).
  assert (Hp : forall a b, Rabs a <= / 33554432 -> -1 <= b <= 1 -> Rabs (a * b) <= / 33554432).
  { intros a b Ha Hb. rewrite Rabs_mult. assert (Rabs b <= 1) by (apply Rabs_le; lra).
    assert (0 <= Rabs a) by apply Rabs_pos. assert (0 <= Rabs b) by apply Rabs_pos. nra. }
  eapply Rle_trans; [apply Rabs_triang|].
  assert (Rabs (dc * (cos h * cos del)) <= / 33554432) by (apply Hp; [assumption|split; nra]).
  assert (Rabs (ds * sin del) <= / 33554432) by (apply Hp; assumption). lra.
Qed.
Lemma q_unit E del ra gmst lon lat : rnd_accurate E -> -1 <= Rround6 (q_cosz E del ra gmst lon lat) <= 1.
Proof.
  intros HE. apply round6_unit. assert (H := q_cosz_err E del ra gmst lon lat HE). apply Rabs_le_inv in H.
  pose proof (sun_U_bound (q_phi E lat) del (c_H ra gmst lon)). lra.
Qed.

Lemma py_psa_cell_R E r del ra gmst eot ecf lon lat :
  0 < cos del -> -1 <= Rround6 (q_cosz E del ra gmst lon lat) <= 1 ->
  py_psa_2d (O := ExtOps E) r {| psa_delta := Fin del; psa_ra := Fin ra; psa_gmst := Fin gmst; psa_eot := eot; psa_ecf := ecf |}
    (Fin lon) (Fin lat) = (Fin (q_zen E del ra gmst lon lat r), Fin (q_az E del ra gmst lon lat)).
Proof.
  intros Hd Hu. assert (Hd' : cos del <> 0) by lra. cbv beta iota zeta delta [py_psa_2d psa_delta psa_ra psa_gmst].
  ext_ops. revert Hu. fin_all. intros Hu.
  change (rnd E (lat * (PI / 180))) with (q_phi E lat).
  change (rnd E (sin (q_phi E lat))) with (q_sl E lat). change (rnd E (cos (q_phi E lat))) with (q_cl E lat).
  change ((gmst * #15 + lon) * (PI / 180) - ra) with (c_H ra gmst lon).
  change (Rround6 (q_cl E lat * cos (c_H ra gmst lon) * cos del + sin del * q_sl E lat)) with (Rround6 (q_cosz E del ra gmst lon lat)).
  rewrite fin_unit by apply Hu.
  apply f_equal2; [|apply psa_az_eq].
  change (acos (Rround6 (q_cosz E del ra gmst lon lat))) with (q_zen0 E del ra gmst lon lat).
  apply psa_finish_eq. apply acos_bound.
Qed.
