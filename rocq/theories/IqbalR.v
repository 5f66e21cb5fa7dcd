(** * IqbalR: the iqbal modules over the reals *)

From Coq Require Import ZArith QArith Reals Bool List Lra Lia.
From Interval Require Import Tactic.
From Verif Require Import Num Ext ExtLemmas Sky AstroTac Refraction Calendar PsaR PsaCell SoltrackCell Iqbal.
Open Scope R_scope.

Section Time.
  Variable s : Z.
  Definition i_std : R := IZR (hour_of s) + (IZR (minute_of s) + IZR (second_of s) / #60.0) / #60.0.
  Definition i_doy : Z := let '(y, m, d) := civil_of_seconds s in day_of_year y m d.
  Definition i_ang : R := 2 * PI * (IZR i_doy + i_std / #24.0) / #365.0.
  Definition i_ecf0 (a : R) : R :=
    #1.00012825e+00
    + #3.33572253e-02 * cos a + #1.99417932e-03 * sin a
    + #6.97434604e-04 * cos (#2 * a) + #1.14828177e-04 * sin (#2 * a)
    + #1.74028675e-05 * cos (#3 * a) + #1.13778023e-05 * sin (#3 * a).
  Definition i_eot0 (a : R) : R :=
    (#0.00986571
     + #0.58688718 * cos a - #7.34538133 * sin a
     - #3.31493999 * cos (#2 * a) - #9.35366541 * sin (#2 * a)
     - #0.08151750 * cos (#3 * a) - #0.30892409 * sin (#3 * a)
     - #0.13532889 * cos (#4 * a) - #0.17336220 * sin (#4 * a)).
  Definition i_dec0 (a : R) : R :=
    #0.006918
    - #0.399912 * cos a + #0.070257 * sin a
    - #0.006758 * cos (#2 * a) + #0.000907 * sin (#2 * a)
    - #0.002697 * cos (#3 * a) + #0.001480 * sin (#3 * a).
  Definition i_ecf : R := i_ecf0 i_ang.
  Definition i_eoth : R := i_eot0 i_ang / #60.0.       (* hours *)
  Definition i_dec : R := i_dec0 i_ang.
End Time.

Lemma iq_ecf_R E a : ne_eccentricity_correction_factor (O := ExtOps E) (Fin a) = Fin (i_ecf0 a).
Proof. unfold ne_eccentricity_correction_factor, i_ecf0. ext_ops. fin. reflexivity. Qed.
Lemma iq_eot_R E a : ne_equation_of_time (O := ExtOps E) (Fin a) = Fin (i_eot0 a / #60.0).
Proof. unfold ne_equation_of_time, i_eot0. ext_ops. fin. rewrite fin_div by (q2; lra). reflexivity. Qed.
Lemma iq_dec_R E a : ne_solar_declination (O := ExtOps E) (Fin a) = Fin (i_dec0 a).
Proof. unfold ne_solar_declination, i_dec0. ext_ops. fin. reflexivity. Qed.
Lemma iq_ang_R E y m d x : ne_day_angle (O := ExtOps E) y m d (Fin x) = Fin (2 * PI * (IZR (day_of_year y m d) + x / #24.0) / #365.0).
Proof. cbv beta zeta delta [ne_day_angle]. ext_ops. fin_all. reflexivity. Qed.
Lemma iq_std_R E s : 
  add (Ops := ExtOps E) (ofZ (Ops := ExtOps E) (hour_of s)) (div (Ops := ExtOps E) (add (Ops := ExtOps E) (ofZ (Ops := ExtOps E) (minute_of s)) (div (Ops := ExtOps E) (ofZ (Ops := ExtOps E) (second_of s)) (lit (Ops := ExtOps E) 60.0%Q))) (lit (Ops := ExtOps E) 60.0%Q)) = Fin (i_std s).
Proof. unfold i_std. ext_ops. fin_all. reflexivity. Qed.

Lemma iq_time_R E s :
  ne_iqbal_time (O := ExtOps E) s = {| iq_std := Fin (i_std s); iq_ecf := Fin (i_ecf s); iq_eot := Fin (i_eoth s); iq_dec := Fin (i_dec s) |} /\
  py_iqbal_time (O := ExtOps E) s = {| iq_std := Fin (i_std s); iq_ecf := Fin (i_ecf s); iq_eot := Fin (i_eoth s); iq_dec := Fin (i_dec s) |}.
Proof.
  assert (H : ne_iqbal_time (O := ExtOps E) s = {| iq_std := Fin (i_std s); iq_ecf := Fin (i_ecf s); iq_eot := Fin (i_eoth s); iq_dec := Fin (i_dec s) |}).
  { unfold ne_iqbal_time, i_ecf, i_eoth, i_dec, i_ang, i_doy.
    destruct (civil_of_seconds s) as [[y m] d]. cbv zeta.
    rewrite iq_std_R, iq_ang_R, iq_ecf_R, iq_eot_R, iq_dec_R. reflexivity. }
  split; [exact H|]. rewrite <- H. unfold py_iqbal_time, ne_iqbal_time.
  unfold py_day_angle, py_eccentricity_correction_factor, py_equation_of_time, py_solar_declination,
    ne_day_angle, ne_eccentricity_correction_factor, ne_equation_of_time, ne_solar_declination. generalize (civil_of_seconds s).
  intros [[y m] d]. reflexivity.
Qed.

(** ** Bounds for every day angle *)
Lemma i_reduce (f : R -> R) (P : R -> Prop) a :
  (forall x k, f (x - 2 * PI * IZR k) = f x) -> (forall x, - 3.1416 <= x <= 3.1416 -> P (f x)) -> P (f a).
Proof.
  intros Hf HP. destruct (angle_reduce a) as (k & Hk). rewrite <- (Hf a k). apply HP.
  assert (PI <= 3.1416) by interval. lra.
Qed.
Lemma mul_2kpi n x k : IZR n * (x - 2 * PI * IZR k) = IZR n * x - 2 * PI * IZR (n * k).
Proof. rewrite mult_IZR. ring. Qed.
Lemma Q2_ : #2 = IZR 2. Proof. q2r. Qed.
Lemma Q3_ : #3 = IZR 3. Proof. q2r. Qed.
Lemma Q4_ : #4 = IZR 4. Proof. q2r. Qed.

Lemma i_dec_per x k : i_dec0 (x - 2 * PI * IZR k) = i_dec0 x.
Proof. unfold i_dec0. rewrite Q2_, Q3_, !mul_2kpi, !cos_2kpi, !sin_2kpi. reflexivity. Qed.
Lemma i_eot_per x k : i_eot0 (x - 2 * PI * IZR k) = i_eot0 x.
Proof. unfold i_eot0. rewrite Q2_, Q3_, Q4_, !mul_2kpi, !cos_2kpi, !sin_2kpi. reflexivity. Qed.

Lemma i_ecf_b a : 0.96 <= i_ecf0 a <= 1.04.
Proof. unfold i_ecf0. generalize (#2 * a) (#3 * a). intros b c. q2. split; interval. Qed.
Lemma i_dec_b a : -0.41 <= i_dec0 a <= 0.41.
Proof.
  apply (i_reduce i_dec0 (fun y => -0.41 <= y <= 0.41) a); [apply i_dec_per|].
  intros x Hx. unfold i_dec0. q2. split; interval with (i_bisect x, i_autodiff x).
Qed.
Lemma i_eot_b a : -18 <= i_eot0 a <= 18.
Proof.
  apply (i_reduce i_eot0 (fun y => -18 <= y <= 18) a); [apply i_eot_per|].
  intros x Hx. unfold i_eot0. q2. split; interval with (i_bisect x, i_autodiff x).
Qed.

(** The time of day in hours. *)
Lemma i_std_eq s : i_std s = IZR (s mod 86400) / 3600.
Proof.
  unfold i_std, hour_of, minute_of, second_of.
  assert (E : (s mod 86400 = 3600 * ((s - s / 86400 * 86400) / 3600) + 60 * ((s - s / 3600 * 3600) / 60) + (s - s / 60 * 60))%Z).
  { assert (s - s / 86400 * 86400 = s mod 86400)%Z by (rewrite Z.mod_eq by lia; lia).
    Z.div_mod_to_equations. lia. }
  rewrite E, !plus_IZR, !mult_IZR. q2. field.
Qed.
Lemma i_std_b s : 0 <= i_std s < 24.
Proof.
  rewrite i_std_eq. assert (0 <= s mod 86400 < 86400)%Z by (apply Z.mod_pos_bound; lia).
  assert (IZR 0 <= IZR (s mod 86400) < IZR 86400) by (split; [apply IZR_le|apply IZR_lt]; lia). lra.
Qed.

(** ** Cells *)
Definition i_lat1 (std lon15 eot : R) : R := std + lon15 + eot.
Definition i_lat2 (x : R) : R := where_ (Rltb x #0) (x + #24.0) x.
Definition i_lat (std lon15 eot : R) : R :=
  let y := i_lat2 (i_lat1 std lon15 eot) in where_ (Rleb #24 y) (y - #24.0) y.
Definition i_refr (sza : R) : ext :=
  e_sub (Fin (PI / 2)) (e_add (Fin (PI / 2 - sza))
    (e_div (Fin (#0.061359 * (#0.1594 + #1.1230 * (PI / 2 - sza) + #0.065656 * ((PI / 2 - sza) * (PI / 2 - sza)))))
           (Fin (#1.0 + #28.9344 * (PI / 2 - sza) + #277.3971 * ((PI / 2 - sza) * (PI / 2 - sza)))))).

Lemma i_lat_spec std lon15 eot : 0 <= std < 24 -> -12 <= lon15 <= 12 -> -0.3 <= eot <= 0.3 ->
  0 <= i_lat std lon15 eot < 24 /\ exists k : Z, i_lat std lon15 eot = std + lon15 + eot + 24 * IZR k.
Proof.
  intros H1 H2 H3. unfold i_lat, i_lat2, i_lat1, where_. assert (E1 : #24.0 = 24) by q2r. assert (E2 : #24 = 24) by q2r.
  rewrite E1, E2. qs. cbv zeta.
  destruct (Rltb_spec (std + lon15 + eot) 0) as [Hn|Hn];
  match goal with |- context [Rleb 24 ?x] => destruct (Rleb_spec 24 x) as [Hm|Hm] end;
  (split; [lra|]); [exists 0%Z|exists 1%Z|exists (-1)%Z|exists 0%Z]; lra.
Qed.

Section Cell.
  Variables (std eot del lon lat : R).
  Definition i_H : R := (i_lat std (lon / #15.0) eot - #12.0) * #15.0 * (PI / #180.0).
  Definition i_phi : R := lat * (PI / #180.0).
  Definition i_zen0 : R := acos (sun_U i_phi del i_H).
  Definition i_az : R := psa_az del (sin i_phi) (cos i_phi) i_H.
  Definition i_finish (r : bool) : ext := if r then i_refr i_zen0 else Fin i_zen0.
  Lemma i_zen0_spec : is_zenith i_zen0 i_phi del i_H.
  Proof. unfold is_zenith, i_zen0. split; [apply acos_bound|]. apply cos_acos, sun_U_bound. Qed.
  Lemma i_az_spec : 0 < cos del -> is_azimuth i_az i_phi del i_H.
  Proof. apply azimuth_turn. Qed.
End Cell.

Lemma lat_where std l15 eot :
  where_ (e_le (Fin #24) (where_ (e_lt (Fin (std + l15 + eot)) (Fin #0)) (e_add (Fin (std + l15 + eot)) (Fin #24.0)) (Fin (std + l15 + eot))))
    (e_sub (where_ (e_lt (Fin (std + l15 + eot)) (Fin #0)) (e_add (Fin (std + l15 + eot)) (Fin #24.0)) (Fin (std + l15 + eot))) (Fin #24.0))
    (where_ (e_lt (Fin (std + l15 + eot)) (Fin #0)) (e_add (Fin (std + l15 + eot)) (Fin #24.0)) (Fin (std + l15 + eot)))
  = Fin (i_lat std l15 eot).
Proof. fin. reflexivity. Qed.

Lemma eIQ_RAD E : IQ_RAD (O := ExtOps E) = Fin (PI / #180.0).
Proof. unfold IQ_RAD. ext_ops. fin_all. reflexivity. Qed.

Ltac iq_cell E HE Hd :=
  assert (Hd' : cos _ <> 0) by (apply Rgt_not_eq; exact Hd);
  ext_ops; rewrite !eIQ_RAD; fin; repeat (rewrite HE; fin); fin_all; repeat (rewrite HE; fin).

Section Cells.
  Variable E : Env.
  Hypothesis HE : ideal E.
  Variables (r : bool) (std eot del lon lat : R) (ecf : ext).
  Hypothesis Hd : 0 < cos del.
  Let t := {| iq_std := Fin std; iq_ecf := ecf; iq_eot := Fin eot; iq_dec := Fin del |}.

  Lemma iq_core :
    let l := Fin (i_lat std (lon / #15.0) eot) in
    let h := e_mul (e_mul (e_sub l (Fin #12.0)) (Fin #15.0)) (Fin (PI / #180.0)) in
    let sza := e_unit acos (e_add (e_mul (Fin (sin del)) (Fin (sin (lat * (PI / #180.0)))))
                 (e_mul (e_mul (Fin (cos del)) (Fin (cos (lat * (PI / #180.0))))) (e_fun cos h))) in
    let alpha := e_sub (Fin (PI / 2)) sza in
    let az := e_atan2 (e_neg (e_fun sin h)) (e_sub (e_mul (e_tan (Fin del)) (Fin (cos (lat * (PI / #180.0)))))
                (e_mul (Fin (sin (lat * (PI / #180.0)))) (e_fun cos h))) in
    (if r then e_sub (Fin (PI / 2)) (e_add alpha
        (e_div (e_mul (Fin #0.061359) (e_add (e_add (Fin #0.1594) (e_mul (Fin #1.1230) alpha)) (e_mul (Fin #0.065656) (e_mul alpha alpha))))
          (e_add (e_add (Fin #1.0) (e_mul (Fin #28.9344) alpha)) (e_mul (Fin #277.3971) (e_mul alpha alpha)))))
     else sza,
     where_ (e_lt az (Fin #0)) (e_add az (Fin PI)) (e_sub az (Fin PI)))
    = (i_finish std eot del lon lat r, Fin (i_az std eot del lon lat)).
  Proof.
    cbv zeta. rewrite fin_tan by lra. fin.
    change ((i_lat std (lon / #15.0) eot - #12.0) * #15.0 * (PI / #180.0)) with (i_H std eot lon).
    change (lat * (PI / #180.0)) with (i_phi lat).
    replace (sin del * sin (i_phi lat) + cos del * cos (i_phi lat) * cos (i_H std eot lon)) with (sun_U (i_phi lat) del (i_H std eot lon))
      by (unfold sun_U; ring).
    rewrite fin_unit by apply sun_U_bound. fin.
    change (acos (sun_U (i_phi lat) del (i_H std eot lon))) with (i_zen0 std eot del lon lat).
    apply f_equal2; [destruct r; reflexivity|]. rewrite Q0. rewrite <- Q00. exact (psa_az_eq _ _ _ _).
  Qed.

  Lemma ne_iqbal_cell_R : ne_iqbal_2d (O := ExtOps E) r t (Fin lon) (Fin lat) = (i_finish std eot del lon lat r, Fin (i_az std eot del lon lat)).
  Proof.
    rewrite <- iq_core. subst t. cbv beta iota zeta delta [ne_iqbal_2d iq_std iq_eot iq_dec div32 mul32].
    ext_ops. rewrite !eIQ_RAD, !eHALFPI, !ePI. rewrite !fin_fun. rewrite !HE. rewrite !fin_mul. rewrite !fin_fun, !HE.
    rewrite fin_div by (q2; lra). rewrite !fin_fun, !HE. rewrite !fin_add. rewrite lat_where. reflexivity.
  Qed.
  Lemma py_iqbal_cell_R : py_iqbal_2d (O := ExtOps E) r t (Fin lon) (Fin lat) = (i_finish std eot del lon lat r, Fin (i_az std eot del lon lat)).
  Proof.
    rewrite <- iq_core. subst t. cbv beta iota zeta delta [py_iqbal_2d iq_std iq_eot iq_dec div32 mul32].
    ext_ops. rewrite !eIQ_RAD, !eHALFPI, !ePI. rewrite !fin_fun. rewrite !HE. rewrite !fin_mul. rewrite !fin_fun, !HE.
    rewrite fin_div by (q2; lra). rewrite !fin_fun, !HE. rewrite !fin_add. rewrite lat_where. reflexivity.
  Qed.
  Lemma ne_iqbal_cell1_R : ne_iqbal_1d (O := ExtOps E) r t (Fin lon) (Fin lat) = (i_finish std eot del lon lat r, Fin (i_az std eot del lon lat)).
  Proof.
    rewrite <- iq_core. subst t. cbv beta iota zeta delta [ne_iqbal_1d iq_std iq_eot iq_dec div32 mul32].
    ext_ops. rewrite !eIQ_RAD, !eHALFPI, !ePI. rewrite !fin_fun. rewrite !HE. rewrite !fin_mul. rewrite !fin_fun, !HE.
    rewrite fin_div by (q2; lra). rewrite !fin_add. rewrite lat_where. reflexivity.
  Qed.
End Cells.
