(** * DoubleCell: the cells of psa, soltrack and iqbal in double precision *)

From Coq Require Import ZArith QArith Reals Bool List String Lra Lia.
From Flocq Require Import Core.Raux Core.Generic_fmt Core.Round_NE.
From Interval Require Import Tactic.
From Verif Require Import Num Ext ExtLemmas Sky SkyClose AstroTac SingleSpec Double DoubleTac DoubleLemmas DoubleCore
  Psa PsaR PsaD Soltrack SoltrackR SoltrackD Iqbal IqbalR IqbalD.
Open Scope R_scope.

Definition gcos (d h sl cl : R) : R := sin d * sl + cos d * cl * cos h.
Definition e9 : Z := Eval vm_compute in (qbnd 1e-9).
Lemma e9_ok : tol9 <= Rz e9. Proof. unfold tol9, Rz, u90, S90, e9. lra. Qed.

Ltac tolb := unfold Rz, u90, S90; match goal with |- IZR ?z * _ <= _ => let z' := eval vm_compute in z in change z with z' end; lra.
Lemma Hd_le x d e : apb x d (qbnd 0.42) e -> Rz e <= 1 / 100000000 -> apb x d (qbnd 0.42) e. Proof. auto. Qed.
(** tan of the declination. *)
Ltac dtan D HD Hd :=
  let Ht := fresh "Ht" in assert (Ht := ap_tan D HD _ _ _ Hd ltac:(tolb)); norm_in Ht;
  match type of Ht with apb ?x _ _ _ => generalize dependent x; let y := fresh "TD" in intros y Ht; dskip end.
(** A subterm and the real it stands for. *)
Ltac dsub D HD H body v := eassert (H : apb body _ _ _) by (ap D HD); norm_in H; apply (ap_eq _ _ v _ _) in H; [|reflexivity || (unfold gcos; ring)].

Section Cells.
  Variable D : Env64.
  Hypothesis HD : double_like D.
  Notation O64 := (DoubleOps D).

  (** What a cell returns, relative to the sine and cosine [sl], [cl] it uses of the latitude and the exact hour angle [h]. *)
  Definition raw (al r : bool) (k tolc d h sl cl : R) (res : ext * ext) : Prop :=
    (exists a, snd res = Fin a /\ Rabs a <= r64 D PI /\ exists rho, 0 <= rho /\
        Rabs (rho * cos a - (cos d * cos h * sl - sin d * cl)) <= 1.1 / 100000000 /\ Rabs (rho * sin a - cos d * sin h) <= 1.1 / 100000000) /\
    ((exists z0, 0 <= z0 <= PI /\ Rabs (cos z0 - gcos d h sl cl) <= tolc /\
        (r = false -> near (fst res) (z0 + k * sin z0) tol9))
     \/ (al = false /\ fst res = NaN /\ 1 - tolc < Rabs (gcos d h sl cl))).

  (** The raw result of a cosine [C] and an azimuth. *)
  Lemma raw_flip al r k d h sl cl C X Y bx by_ ex ey b e tolc (fin : ext -> ext) q0 res :
    0.9 <= cos d <= 1 -> Rz ex <= 1 / 100000000 -> Rz ey <= 1 / 100000000 -> Rz bx <= 3 -> Rz by_ <= 1.1 -> q0 = 0%Q \/ q0 = 0.0%Q ->
    apb Y (- sin h) by_ ey -> apb X (tan d * cl - sl * cos h) bx ex ->
    apb C (gcos d h sl cl) b e -> Rz e <= tolc ->
    (forall z0 v, 0 <= z0 <= PI -> apb (Fin v) z0 piB (2 ^ 40) -> r = false -> near (fin (Fin v)) (z0 + k * sin z0) tol9) ->
    fin NaN = NaN -> (al = true -> facos (Ops := O64) C <> NaN) ->
    res = (fin (facos (Ops := O64) C), (let az := fatan2 (Ops := O64) Y X in
                 where_ (flt (Ops := O64) az (lit (Ops := O64) q0)) (add (Ops := O64) az (PI_ (O := O64))) (sub (Ops := O64) az (PI_ (O := O64))))) ->
    raw al r k tolc d h sl cl res.
  Proof.
    intros Hd Hx Hy Hbx Hby Hq HY HX HC He Hf Hn Hal ->. split.
    - destruct (az_flip D HD d h sl cl X Y bx by_ ex ey Hd Hx Hy Hbx Hby q0 Hq HY HX) as (a & E & A1 & A2). exists a. now split.
    - destruct (acos64_cases D HD C _ b e tolc HC He) as [(z0 & v & E1 & E2 & B & H1 & H2 & H3 & H4)|(E1 & E2 & H)].
      + left. exists z0. split; [exact B|]. split; [exact H1|]. intros Hr. cbn [fst]. rewrite E1. apply Hf; try assumption.
        apply ap_fin; [exact H3|]. eapply Rle_trans; [|exact piB_ok]. rewrite !Rabs_pos_eq by lra. lra.
      + right. cbn [fst]. split; [destruct al; [now contradiction Hal|reflexivity]|]. rewrite E1. now split.
  Qed.
  Lemma raw_plain r k d h sl cl C X Y bx by_ ex ey b e tolc (fin : ext -> ext) res :
    0.9 <= cos d <= 1 -> Rz ex <= 1 / 100000000 -> Rz ey <= 1 / 100000000 -> Rz bx <= 3 -> Rz by_ <= 1.1 ->
    apb Y (sin h) by_ ey -> apb X (cos h * sl - tan d * cl) bx ex ->
    apb C (gcos d h sl cl) b e -> Rz e <= tolc ->
    (forall z0 v, 0 <= z0 <= PI -> apb (Fin v) (PI / 2 - z0) (2 * S90) (2 ^ 40) -> r = false -> near (fin (Fin v)) (z0 + k * sin z0) tol9) ->
    fin NaN = NaN ->
    res = (fin (fasin (Ops := O64) C), fatan2 (Ops := O64) Y X) ->
    raw false r k tolc d h sl cl res.
  Proof.
    intros Hd Hx Hy Hbx Hby HY HX HC He Hf Hn ->. split.
    - destruct (az_plain D HD d h sl cl X Y bx by_ ex ey Hd Hx Hy Hbx Hby HY HX) as (a & E & A1 & A2). exists a. now split.
    - destruct (acos64_cases D HD C _ b e tolc HC He) as [(z0 & v & E1 & E2 & B & H1 & H2 & H3 & H4)|(E1 & E2 & H)].
      + left. exists z0. split; [exact B|]. split; [exact H1|]. intros Hr. cbn [fst]. rewrite E2. apply Hf; try assumption.
        apply ap_fin; [exact H4|]. rewrite Rz_k. assert (3.14 < PI < 3.142) by (split; interval). apply Rabs_le. lra.
      + right. cbn [fst]. split; [reflexivity|]. rewrite E2. now split.
  Qed.

  (** np.round(x, 6) *)
  Definition r6E : Z := Eval vm_compute in (qbnd 5.1e-7).
  Lemma ap_round6 C g b e : apb C g b e -> Rz e <= 1 / 100000000 -> Rabs g <= 1 + 3 / 10000000 ->
    apb (round6 (Ops := O64) C) g (2 * S90) (e + r6E) /\ facos (Ops := O64) (round6 (Ops := O64) C) <> NaN.
  Proof.
    intros (x & -> & H1 & _) He Hg. cbn [round6 facos DoubleOps e_fun]. unfold e_round64. rewrite fin_mul.
    assert (Bx : Rabs x <= 1 + 3.2 / 10000000) by (replace x with ((x - g) + g) by ring; eapply Rle_trans; [apply Rabs_triang|lra]).
    assert (Er : forall y, Rabs y <= 1100000 -> Rabs (r64 D y - y) <= 1 / 1000000000).
    { intros y Hy. eapply Rle_trans; [apply (dl_err D HD)|]. pose proof tiny_u90. assert (u90 <= 1 / 100000000000000000000) by (unfold u90, S90; lra).
      assert (Rabs y / 2 ^ 53 <= 0.5 / 1000000000); [|lra]. unfold Rdiv. apply Rmult_le_reg_r with (2 ^ 53); [apply pow_lt; lra|].
      rewrite Rmult_assoc, Rinv_l by (apply pow_nonzero; lra). lra. }
    apply Rabs_le_inv in Bx. set (w := r64 D (x * 1000000)). assert (Ew := Er (x * 1000000) ltac:(apply Rabs_le; lra)). fold w in Ew.
    rewrite (rd_fin_s D HD) by (apply Rabs_le; lra). fold w. set (n := ZnearestE w).
    assert (En : Rabs (IZR n - w) <= 1 / 2) by (rewrite Rabs_minus_sym; pose proof (Znearest_half (fun x => negb (Z.even x)) w) as X; fold n in X; lra).
    apply Rabs_le_inv in Ew, En.
    assert (Bn : (-1000000 <= n <= 1000000)%Z).
    { assert (-1000001 < IZR n < 1000001) by lra. split; apply Z.lt_succ_r; apply lt_IZR; unfold Z.succ; rewrite ?plus_IZR; lra. }
    assert (Bn' : -1000000 <= IZR n <= 1000000) by (split; apply IZR_le; lia).
    set (v := r64 D (IZR n / 1000000)).
    assert (R1 : r64 D 1 = 1) by (apply (dl_int D HD 1); vm_compute; discriminate). assert (Rm1 : r64 D (-1) = -1) by (apply (dl_int D HD (-1)); vm_compute; discriminate).
    assert (V1 := dl_mono D HD (-1) (IZR n / 1000000) ltac:(lra)). assert (V2 := dl_mono D HD (IZR n / 1000000) 1 ltac:(lra)). fold v in V1, V2. rewrite Rm1 in V1. rewrite R1 in V2.
    assert (Ev : Rabs (v - IZR n / 1000000) <= 1 / 1000000000) by (apply Er, Rabs_le; lra).
    rewrite (rd_fin_s D HD) by (apply Rabs_le; lra). fold v. split.
    - apply ap_fin.
      + rewrite Rz_plus. assert (5.1 / 10000000 <= Rz r6E) by (unfold Rz, u90, S90, r6E; lra).
        replace (v - g) with ((v - x) + (x - g)) by ring. eapply Rle_trans; [apply Rabs_triang|].
        assert (Rabs (v - x) <= 5.1 / 10000000); [|lra]. apply Rabs_le_inv in Ev. apply Rabs_le. lra.
      + rewrite Rz_k. lra.
    - rewrite fin_unit by lra. discriminate.
  Qed.

  Section Psa.
    Variables (r : bool) (t : psa_time (F := ext)) (d ra gm lo la : R).
    Hypothesis Hd : apb (psa_delta t) d (qbnd 0.42) e9.
    Hypothesis Bd : 0.9 <= cos d <= 1.
    Hypothesis Hra : near_b (psa_ra t) ra tol9 11.
    Hypothesis Hgm : near_b (psa_gmst t) gm tol9 8000.
    Hypothesis Blo : Rabs lo <= 180.
    Hypothesis Bla : Rabs la <= 90.
    Let h := (gm * #15 + lo) * (PI / 180) - ra.
    Let HRA : apb (psa_ra t) ra (11 * S90) e9.
    Proof. destruct Hra as [H1 H2]. apply (near_apb _ _ _ tol9); [exact H1|rewrite Rz_k; exact H2|exact e9_ok]. Qed.
    Let HGM : apb (psa_gmst t) gm (8000 * S90) e9.
    Proof. destruct Hgm as [H1 H2]. apply (near_apb _ _ _ tol9); [exact H1|rewrite Rz_k; exact H2|exact e9_ok]. Qed.
    Let HLO : apb (Fin lo) lo (180 * S90) 0. Proof. apply exact_apb. rewrite Rz_k. exact Blo. Qed.
    Let HLA : apb (Fin la) la (90 * S90) 0. Proof. apply exact_apb. rewrite Rz_k. exact Bla. Qed.

    (** Both engines end alike. *)
    Let psa_end (zenith : ext) : ext :=
      let zenith := add (Ops := O64) zenith (mul (Ops := O64) (EMRAU (O := O64)) (fsin (Ops := O64) zenith)) in
      if r then
        let sun_elev := sub (Ops := O64) (HALFPI (O := O64)) zenith in
        let refr_corr := div (Ops := O64) (mul (Ops := O64) (lit (Ops := O64) 1) (lit (Ops := O64) 1.7802e-2))
           (mul (Ops := O64) (lit (Ops := O64) 60) (ftan (Ops := O64) (add (Ops := O64) sun_elev (div (Ops := O64) (lit (Ops := O64) 3.1376e-3) (add (Ops := O64) sun_elev (lit (Ops := O64) 8.9186e-2)))))) in
        sub (Ops := O64) (HALFPI (O := O64)) (where_ (fle (Ops := O64) (neg (Ops := O64) (lit (Ops := O64) 1.4545e-2)) sun_elev) (add (Ops := O64) sun_elev refr_corr) sun_elev)
      else zenith.
    Let psa_end_nan : psa_end NaN = NaN. Proof.
      assert (N : forall x, sub (Ops := O64) x NaN = NaN) by (intros []; reflexivity). unfold psa_end. cbv zeta.
      change (add (Ops := O64) NaN (mul (Ops := O64) (EMRAU (O := O64)) (fsin (Ops := O64) NaN))) with NaN. rewrite N. destruct r; [|reflexivity].
      change (fle (Ops := O64) (neg (Ops := O64) (lit (Ops := O64) 1.4545e-2)) NaN) with false. cbn [where_]. apply N.
    Qed.
    Let psa_end_ok z0 v : 0 <= z0 <= PI -> apb (Fin v) z0 piB (2 ^ 40) -> r = false -> near (psa_end (Fin v)) (z0 + #0.000042587565907513806 * sin z0) tol9.
    Proof. 
      intros _ Hv Hr. unfold psa_end. rewrite Hr. generalize dependent (Fin v). intros V Hv. norm_in Hv. cbv zeta. unfold EMRAU. nap D HD.
    Qed.
    Lemma ne_psa_D : raw false r (#0.000042587565907513806) (1 / 100000000) d h (sin (la * (PI / 180))) (cos (la * (PI / 180))) (ne_psa_2d (O := O64) r t (Fin lo) (Fin la)).
    Proof.
      generalize HRA HGM HLO HLA Hd. clear HRA HGM HLO HLA Hd Hra Hgm. cbv beta delta [ne_psa_2d].
      generalize (Fin lo) (Fin la) (psa_ra t) (psa_gmst t) (psa_delta t). intros LO LA RA GM DE HRA HGM HLO HLA Hd.
      norm_in HRA. norm_in HGM. norm_in HLO. norm_in HLA. norm_in Hd.
      dl D HD (la * (PI / 180)). dskip. dl D HD h. dl D HD (sin h). dl D HD (cos h). dl D HD (sin (la * (PI / 180))). dl D HD (cos (la * (PI / 180))).
      dl D HD (sin d). dl D HD (cos d). dtan D HD Hd.
      cbv zeta.
      lazymatch goal with |- context [facos ?C] => dsub D HD HC C (gcos d h (sin (la * (PI / 180))) (cos (la * (PI / 180)))) end.
      lazymatch goal with |- context [fatan2 ?Y ?X] => dsub D HD HY Y (- sin h); dsub D HD HX X (tan d * cos (la * (PI / 180)) - sin (la * (PI / 180)) * cos h) end.
      eapply raw_flip with (fin := psa_end); [exact Bd| | | | | |exact HY|exact HX|exact HC| | | | |]; [tolb|tolb|tolb|tolb|now right|tolb| | | |].
      - exact psa_end_ok.
      - exact psa_end_nan.
      - discriminate.
      - reflexivity.
    Qed.

    Variables (sl cl : R).
    Hypothesis Hsl : Rabs sl <= 1.
    Hypothesis Hcl : Rabs cl <= 1.
    Hypothesis Hg : Rabs (gcos d h sl cl) <= 1 + 3 / 10000000.
    Lemma py_psa_D : sl = sinf D (radf D la) -> cl = cosf D (radf D la) ->
      raw true r (#0.000042587565907513806) (52 / 100000000) d h sl cl (py_psa_2d (O := O64) r t (Fin lo) (Fin la)).
    Proof.
      intros Esl Ecl. 
      assert (HSL : apb (sin32 (Ops := O64) (radians32 (Ops := O64) (Fin la))) sl S90 0).
      { cbn [sin32 radians32 DoubleOps e_fun]. rewrite <- Esl. apply exact_apb. now rewrite Rz_S. }
      assert (HCL : apb (cos32 (Ops := O64) (radians32 (Ops := O64) (Fin la))) cl S90 0).
      { cbn [cos32 radians32 DoubleOps e_fun]. rewrite <- Ecl. apply exact_apb. now rewrite Rz_S. }
      cbv beta delta [py_psa_2d]. revert HSL HCL.
      generalize HRA HGM HLO Hd. clear HRA HGM HLO HLA Hd Hra Hgm.
      set (LA := radians32 (Ops := O64) (Fin la)). generalize (Fin lo) (psa_ra t) (psa_gmst t) (psa_delta t). intros LO RA GM DE HRA HGM HLO Hd HSL HCL.
      norm_in HRA. norm_in HGM. norm_in HLO. norm_in Hd.
      dskip. dl D HD h. dskip. fold LA.
      generalize dependent (sin32 (Ops := O64) LA). intros SL HSL. dskip. generalize dependent (cos32 (Ops := O64) LA). intros CL HCL. dskip.
      dl D HD (sin h). dl D HD (cos h). dl D HD (sin d). dl D HD (cos d). dtan D HD Hd.
      dl D HD (cl * cos h * cos d + sin d * sl).
      lazymatch goal with HC : apb ?C (cl * cos h * cos d + sin d * sl) _ _ |- _ => apply (ap_eq _ _ (gcos d h sl cl)) in HC; [|unfold gcos; ring];
        destruct (ap_round6 C _ _ _ HC ltac:(tolb) Hg) as [HC6 Hu]; clear HC; norm_in HC6 end.
      cbv zeta.
      lazymatch goal with |- context [fatan2 ?Y ?X] => dsub D HD HY Y (- sin h); dsub D HD HX X (tan d * cl - sl * cos h) end.
      eapply raw_flip with (fin := psa_end); [exact Bd| | | | | |exact HY|exact HX|exact HC6| | | | |]; [tolb|tolb|tolb|tolb|now right|tolb| | | |].
      - exact psa_end_ok.
      - exact psa_end_nan.
      - intros _. exact Hu.
      - reflexivity.
    Qed.
  End Psa.

  Section Soltrack.
    Variables (r : bool) (t : st_time (F := ext)) (d ra ag lo la : R).
    Hypothesis Hd : apb (st_dec t) d (qbnd 0.42) e9.
    Hypothesis Bd : 0.9 <= cos d <= 1.
    Hypothesis Hra : near_b (st_ra t) ra tol9 11.
    Hypothesis Hag : near_b (st_agst t) ag (2 * tol9) 800000.
    Let HRA : apb (st_ra t) ra (11 * S90) e9.
    Proof. destruct Hra as [H1 H2]. apply (near_apb _ _ _ tol9); [exact H1|rewrite Rz_k; exact H2|exact e9_ok]. Qed.
    Let HAG : apb (st_agst t) ag (800000 * S90) (2 * e9).
    Proof.
      destruct Hag as [H1 H2]. apply (near_apb _ _ _ (2 * tol9)); [exact H1|rewrite Rz_k; exact H2|].
      replace (Rz (2 * e9)) with (2 * Rz e9) by (unfold Rz; rewrite mult_IZR; ring). pose proof e9_ok. lra.
    Qed.
    Let cosd_low : Rz (qlow 0.9) <= Rabs (cos d).
    Proof. rewrite Rabs_pos_eq by lra. assert (Rz (qlow 0.9) <= 0.9) by (replace 0.9 with (#0.9) by q2r; apply Q2R_low; reflexivity). lra. Qed.

    (** The end of each function. *)
    Let st_end (q : ext -> ext) (alt : ext) : ext :=
      let alt := sub (Ops := O64) alt (mul (Ops := O64) (lit (Ops := O64) 4.2635e-5) (fcos (Ops := O64) alt)) in
      sub (Ops := O64) (HALFPI (O := O64)) (if r then q alt else alt).
    Let st_end_nan q : q NaN = NaN -> st_end q NaN = NaN. Proof.
      intros H. assert (N : forall x, sub (Ops := O64) x NaN = NaN) by (intros []; reflexivity). unfold st_end. cbv zeta.
      change (sub (Ops := O64) NaN (mul (Ops := O64) (lit (Ops := O64) 4.2635e-5) (fcos (Ops := O64) NaN))) with NaN. rewrite H. destruct r; apply N.
    Qed.
    Let st_end_ok q z0 v : 0 <= z0 <= PI -> apb (Fin v) (PI / 2 - z0) (2 * S90) (2 ^ 40) -> r = false -> near (st_end q (Fin v)) (z0 + #4.2635e-5 * sin z0) tol9.
    Proof. 
      intros _ Hv Hr. unfold st_end. rewrite Hr. generalize dependent (Fin v). intros V Hv. norm_in Hv. cbv zeta.
      replace (z0 + #4.2635e-5 * sin z0) with (PI / 2 - (PI / 2 - z0 - #4.2635e-5 * cos (PI / 2 - z0))) by (rewrite cos_shift; ring). nap D HD.
    Qed.
    Definition st_rq (alt : ext) : ext := 
      add (Ops := O64) alt (div (Ops := O64) (lit (Ops := O64) 2.967e-4) (ftan (Ops := O64) (add (Ops := O64) alt (div (Ops := O64) (lit (Ops := O64) 3.1376e-3) (add (Ops := O64) alt (lit (Ops := O64) 8.92e-2)))))).

    Section Ne.
    Hypothesis Blo : Rabs lo <= 180.
    Hypothesis Bla : Rabs la <= 90.
    Let h := ag - ra + lo * (PI / 180).
    Let HLO : apb (Fin lo) lo (180 * S90) 0. Proof. apply exact_apb. rewrite Rz_k. exact Blo. Qed.
    Let HLA : apb (Fin la) la (90 * S90) 0. Proof. apply exact_apb. rewrite Rz_k. exact Bla. Qed.
    Lemma ne_soltrack_D : raw false r (#4.2635e-5) (1 / 100000000) d h (sin (la * (PI / 180))) (cos (la * (PI / 180))) (ne_soltrack_1d (O := O64) r t (Fin lo) (Fin la)).
    Proof.
      generalize HRA HAG HLO HLA Hd. clear HRA HAG HLO HLA Hd Hra Hag. cbv beta delta [ne_soltrack_1d].
      generalize (Fin lo) (Fin la) (st_ra t) (st_agst t) (st_dec t). intros LO LA RA AG DE HRA HAG HLO HLA Hd.
      norm_in HRA. norm_in HAG. norm_in HLO. norm_in HLA. norm_in Hd.
      dl D HD h. dl D HD (sin h). dl D HD (cos h). dl D HD (sin d). dl D HD (cos d). dtan D HD Hd.
      dl D HD (sin (la * (PI / 180))). dl D HD (cos (la * (PI / 180))). 
      cbv zeta.
      lazymatch goal with |- context [fasin ?C] => dsub D HD HC C (gcos d h (sin (la * (PI / 180))) (cos (la * (PI / 180)))) end.
      lazymatch goal with |- context [fatan2 ?Y ?X] => dsub D HD HX X (cos h * sin (la * (PI / 180)) - tan d * cos (la * (PI / 180))) end.
      eapply raw_plain with (fin := st_end st_rq); [exact Bd| | | | |eassumption|exact HX|exact HC| | | |]; [tolb|tolb|tolb|tolb|tolb| | |].
      - apply st_end_ok.
      - now apply st_end_nan.
      - reflexivity.
    Qed.
    Lemma ne_soltrack_D2 : raw false r (#4.2635e-5) (1 / 100000000) d h (sin (la * (PI / 180))) (cos (la * (PI / 180))) (ne_soltrack_2d (O := O64) r t (Fin lo) (Fin la)).
    Proof.
      generalize HRA HAG HLO HLA Hd. clear HRA HAG HLO HLA Hd Hra Hag. cbv beta delta [ne_soltrack_2d].
      generalize (Fin lo) (Fin la) (st_ra t) (st_agst t) (st_dec t). intros LO LA RA AG DE HRA HAG HLO HLA Hd.
      norm_in HRA. norm_in HAG. norm_in HLO. norm_in HLA. norm_in Hd.
      dl D HD h. dl D HD (sin h). dl D HD (cos h). dl D HD (sin d). dl D HD (cos d). dl D HD (tan d).
      dl D HD (sin (la * (PI / 180))). dl D HD (cos (la * (PI / 180))). 
      cbv zeta.
      lazymatch goal with |- context [fasin ?C] => dsub D HD HC C (gcos d h (sin (la * (PI / 180))) (cos (la * (PI / 180)))) end.
      lazymatch goal with |- context [fatan2 ?Y ?X] => dsub D HD HX X (cos h * sin (la * (PI / 180)) - tan d * cos (la * (PI / 180))) end.
      eapply raw_plain with (fin := st_end st_rq); [exact Bd| | | | |eassumption|exact HX|exact HC| | | |]; [tolb|tolb|tolb|tolb|tolb| | |].
      - apply st_end_ok.
      - now apply st_end_nan.
      - reflexivity.
    Qed.
    End Ne.

    Variables (sl cl lor : R).
    Hypothesis Hsl : Rabs sl <= 1.
    Hypothesis Hcl : Rabs cl <= 1.
    Hypothesis Hlo : Rabs lor <= 4.
    Let h := ag - ra + lor.
    Lemma py_soltrack_D : radians32 (Ops := O64) (Fin lo) = Fin lor -> sin32 (Ops := O64) (radians32 (Ops := O64) (Fin la)) = Fin sl ->
      @sqrt32 ext O64 (@sub32 ext O64 (lit (Ops := O64) 1.0) (@mul32 ext O64 (Fin sl) (Fin sl))) = Fin cl ->
      raw false r (#4.2635e-5) (1 / 100000000) d h sl cl (py_soltrack_2d (O := O64) r t (Fin lo) (Fin la)).
    Proof.
      intros Elo Esl Ecl. cbv beta delta [py_soltrack_2d].
      assert (HSL : apb (Fin sl) sl S90 0) by (apply exact_apb; now rewrite Rz_S).
      assert (HCL : apb (Fin cl) cl S90 0) by (apply exact_apb; now rewrite Rz_S).
      assert (HLO : apb (Fin lor) lor (4 * S90) 0) by (apply exact_apb; now rewrite Rz_k).
      generalize HRA HAG Hd. clear HRA HAG Hd Hra Hag.
      generalize (st_ra t) (st_agst t) (st_dec t). intros RA AG DE HRA HAG Hd.
      norm_in HRA. norm_in HAG. norm_in Hd. norm_in HLO.
      dskip. dskip. rewrite Elo. dl D HD h. dl D HD (sin h). dl D HD (cos h). dl D HD (sin d).
      lazymatch goal with |- _ (let x := fsqrt ?a in _) => eassert (Hq : apb a _ _ _) by (ap D HD) end. norm_in Hq.
      eapply ap_eq in Hq; [|instantiate (1 := cos d * cos d); pose proof (sc1 d); q2; nra].
      apply (ap_sqrt D HD) in Hq; [|nra|vm_compute; reflexivity|vm_compute; reflexivity]. rewrite sqrt_square in Hq by lra. norm_in Hq.
      lazymatch type of Hq with apb ?x _ _ _ => generalize dependent x; intros CD Hq; dskip end.
      apply (ap_bnd _ _ _ _ S90) in Hq; [|rewrite Rz_S, Rabs_pos_eq; lra].
      dl D HD (tan d). dskip. rewrite Esl. dskip. rewrite Ecl. clear Elo Esl Ecl.
      generalize dependent (Fin sl). intros SL HSL. generalize dependent (Fin cl). intros CL HCL.
      cbv zeta.
      lazymatch goal with |- context [fasin ?C] => dsub D HD HC C (gcos d h sl cl) end.
      lazymatch goal with |- context [fatan2 ?Y ?X] => dsub D HD HX X (cos h * sl - tan d * cl) end.
      eapply raw_plain with (fin := st_end st_rq); [exact Bd| | | | |eassumption|exact HX|exact HC| | | |]; [tolb|tolb|tolb|tolb|tolb| | |].
      - apply st_end_ok.
      - now apply st_end_nan.
      - reflexivity.
    Qed.
  End Soltrack.

  (** LAT reduced to [0, 24). *)
  Definition w24E : Z := Eval vm_compute in rdE (200 * S90).
  Lemma h24 : apb (lit (Ops := O64) 24.0) 24 (24 * S90) 0.
  Proof.
    cbn [lit DoubleOps]. replace (Q2R 24.0) with (IZR 24) by q2r. rewrite (dl_int D HD) by (vm_compute; discriminate). apply exact_apb.
    rewrite Rz_k, Rabs_pos_eq; lra.
  Qed.
  Lemma ap_24 x a e : apb x a (50 * S90) e -> (e <=? S90)%Z = true ->
    exists j : Z, apb (let x := where_ (flt (Ops := O64) x (lit (Ops := O64) 0)) (add (Ops := O64) x (lit (Ops := O64) 24.0)) x in
                       where_ (fle (Ops := O64) (lit (Ops := O64) 24) x) (sub (Ops := O64) x (lit (Ops := O64) 24.0)) x) (a + 24 * IZR j) (100 * S90) (e + 2 * w24E).
  Proof.
    intros H He. cbv zeta. apply Z.leb_le in He. assert (N := apb_nonneg _ _ _ _ H). assert (P0 : (0 < S90)%Z) by reflexivity. assert (W0 : (0 < w24E)%Z) by reflexivity.
    assert (S1 : exists j1, apb (where_ (flt (Ops := O64) x (lit (Ops := O64) 0)) (add (Ops := O64) x (lit (Ops := O64) 24.0)) x) (a + 24 * IZR j1) (74 * S90) (e + w24E)).
    { destruct (flt (Ops := O64) x (lit (Ops := O64) 0)); cbn [where_].
      - exists 1%Z. assert (X := ap_add D HD _ _ _ _ _ _ _ _ H h24 ltac:(apply (fits64_mono (74 * S90) S90); [vm_compute; reflexivity|lia|lia])). rewrite Rmult_1_r. eapply ap_le; [exact X| |]; apply Z.leb_le; [lia|].
        assert (rdE (50 * S90 + 24 * S90 + (e + 0)) <= w24E)%Z; [|lia]. transitivity (rdE (200 * S90)); [|vm_compute; discriminate].
        unfold rdE. apply Z.add_le_mono_r. apply Z.div_le_mono; lia.
      - exists 0%Z. rewrite Rmult_0_r, Rplus_0_r. eapply ap_le; [exact H| |]; apply Z.leb_le; lia. }
    destruct S1 as (j1 & H1). generalize dependent (where_ (flt (Ops := O64) x (lit (Ops := O64) 0)) (add (Ops := O64) x (lit (Ops := O64) 24.0)) x). intros y Hy.
    destruct (fle (Ops := O64) (lit (Ops := O64) 24) y); cbn [where_].
    - exists (j1 - 1)%Z. assert (X := ap_sub D HD _ _ _ _ _ _ _ _ Hy h24 ltac:(apply (fits64_mono (98 * S90) (S90 + w24E)); [vm_compute; reflexivity|lia|lia])). rewrite minus_IZR.
      replace (a + 24 * (IZR j1 - 1)) with (a + 24 * IZR j1 - 24) by ring. eapply ap_le; [exact X| |]; apply Z.leb_le; [lia|].
      assert (rdE (74 * S90 + 24 * S90 + (e + w24E + 0)) <= w24E)%Z; [|lia]. transitivity (rdE (200 * S90)); [|vm_compute; discriminate].
      unfold rdE. apply Z.add_le_mono_r. apply Z.div_le_mono; [reflexivity|]. assert (w24E <= S90)%Z by (vm_compute; discriminate). lia.
    - exists j1. eapply ap_le; [exact Hy| |]; apply Z.leb_le; lia.
  Qed.

  Definition iqradB : Z := Eval vm_compute in (divB piB (qlow 180.0)).
  Definition iqradE : Z := Eval vm_compute in (divE piB (qlow 180.0) piE (qerr 180.0) + rdE (divB piB (qlow 180.0) + divE piB (qlow 180.0) piE (qerr 180.0)))%Z.
  Lemma ap_IQ_RAD : apb (IQ_RAD (O := O64)) (PI / 180) iqradB iqradE.
  Proof. unfold IQ_RAD. eapply ap_eq; [eapply ap_le; [ap D HD| |]; vm_compute; reflexivity|]. f_equal. q2r. Qed.

  Section Iqbal.
    Variables (r : bool) (t : iq_time (F := ext)) (d std eot la sl cl l15 : R) (LO LA : ext).
    Hypothesis Hd : apb (iq_dec t) d (qbnd 0.42) e9.
    Hypothesis Bd : 0.9 <= cos d <= 1.
    Hypothesis Hstd : near_b (iq_std t) std tol9 24.
    Hypothesis Heot : near_b (iq_eot t) eot tol9 1.
    Hypothesis Hsl : Rabs sl <= 1.
    Hypothesis Hcl : Rabs cl <= 1.
    Let HST : apb (iq_std t) std (24 * S90) e9.
    Proof. destruct Hstd as [H1 H2]. apply (near_apb _ _ _ tol9); [exact H1|rewrite Rz_k; exact H2|exact e9_ok]. Qed.
    Let HEO : apb (iq_eot t) eot (1 * S90) e9.
    Proof. destruct Heot as [H1 H2]. apply (near_apb _ _ _ tol9); [exact H1|rewrite Rz_k; exact H2|exact e9_ok]. Qed.
    Let h (j : Z) := (std + l15 + eot + 24 * IZR j - #12.0) * #15.0 * (PI / 180).

    Let iq_end (sza : ext) : ext :=
      if r then
        let alpha := sub (Ops := O64) (HALFPI (O := O64)) sza in
        let alpha2 := mul (Ops := O64) alpha alpha in
        let refcor := div (Ops := O64) (mul (Ops := O64) (lit (Ops := O64) 0.061359) (add (Ops := O64) (add (Ops := O64) (lit (Ops := O64) 0.1594) (mul (Ops := O64) (lit (Ops := O64) 1.1230) alpha)) (mul (Ops := O64) (lit (Ops := O64) 0.065656) alpha2)))
                      (add (Ops := O64) (add (Ops := O64) (lit (Ops := O64) 1.0) (mul (Ops := O64) (lit (Ops := O64) 28.9344) alpha)) (mul (Ops := O64) (lit (Ops := O64) 277.3971) alpha2)) in
        sub (Ops := O64) (HALFPI (O := O64)) (add (Ops := O64) alpha refcor)
      else sza.
    Let iq_end_nan : iq_end NaN = NaN. Proof. assert (N : forall x, sub (Ops := O64) x NaN = NaN) by (intros []; reflexivity). unfold iq_end. cbv zeta. rewrite N. destruct r; [|reflexivity]. apply N. Qed.
    Let iq_end_ok z0 v : 0 <= z0 <= PI -> apb (Fin v) z0 piB (2 ^ 40) -> r = false -> near (iq_end (Fin v)) (z0 + 0 * sin z0) tol9.
    Proof. intros _ Hv Hr. unfold iq_end. rewrite Hr, Rmult_0_l, Rplus_0_r. eapply apb_near; [exact Hv|]. unfold tol9. tolb. Qed.

    Lemma iq_shape res : apb LO l15 (13 * S90) (2 ^ 50) ->
      (res = 
        let hour_angle := mul (Ops := O64) (mul (Ops := O64) (sub (Ops := O64) 
           (let x := add (Ops := O64) (add (Ops := O64) (iq_std t) LO) (iq_eot t) in
            let x := where_ (flt (Ops := O64) x (lit (Ops := O64) 0)) (add (Ops := O64) x (lit (Ops := O64) 24.0)) x in
            where_ (fle (Ops := O64) (lit (Ops := O64) 24) x) (sub (Ops := O64) x (lit (Ops := O64) 24.0)) x)
           (lit (Ops := O64) 12.0)) (lit (Ops := O64) 15.0)) (IQ_RAD (O := O64)) in
        (iq_end (facos (Ops := O64) (add (Ops := O64) (mul (Ops := O64) (fsin (Ops := O64) (iq_dec t)) (Fin sl))
            (mul (Ops := O64) (mul (Ops := O64) (fcos (Ops := O64) (iq_dec t)) (Fin cl)) (fcos (Ops := O64) hour_angle)))),
         (let az := fatan2 (Ops := O64) (neg (Ops := O64) (fsin (Ops := O64) hour_angle))
                      (sub (Ops := O64) (mul (Ops := O64) (ftan (Ops := O64) (iq_dec t)) (Fin cl)) (mul (Ops := O64) (Fin sl) (fcos (Ops := O64) hour_angle))) in
          where_ (flt (Ops := O64) az (lit (Ops := O64) 0)) (add (Ops := O64) az (PI_ (O := O64))) (sub (Ops := O64) az (PI_ (O := O64)))))) ->
      exists j, raw false r 0 (1 / 100000000) d (h j) sl cl res.
    Proof.
      intros HLO ->.
      assert (HSL : apb (Fin sl) sl S90 0) by (apply exact_apb; now rewrite Rz_S).
      assert (HCL : apb (Fin cl) cl S90 0) by (apply exact_apb; now rewrite Rz_S).
      generalize HST HEO Hd. clear HST HEO Hd Hstd Heot.
      generalize (iq_std t) (iq_eot t) (iq_dec t). intros ST EO DE HST HEO Hd. norm_in HST. norm_in HEO. norm_in Hd. norm_in HLO.
      eassert (HL : apb (add (Ops := O64) (add (Ops := O64) ST LO) EO) _ _ _) by (ap D HD). norm_in HL.
      lazymatch type of HL with apb ?x ?a ?b ?e => 
        assert (HL' : apb x a (50 * S90) e) by (eapply ap_le; [exact HL| |]; vm_compute; reflexivity); generalize dependent x; intros LX _ HLX end.
      edestruct (ap_24 LX _ _ HLX) as (j & Hj); [vm_compute; reflexivity|]. norm_in Hj. cbv zeta in Hj |- *.
      lazymatch type of Hj with apb ?x _ _ _ => generalize dependent x; intros LT Hj end. exists j.
      assert (HI := ap_IQ_RAD). generalize dependent (IQ_RAD (O := O64)). intros IR HIR.
      lazymatch goal with |- context [fcos (mul (mul (sub LT ?a) ?b) IR)] => dsub D HD HH (mul (Ops := O64) (mul (Ops := O64) (sub (Ops := O64) LT a) b) IR) (h j); generalize dependent (mul (Ops := O64) (mul (Ops := O64) (sub (Ops := O64) LT a) b) IR) end.
      intros HA HH. 
      dsub D HD HSH (fsin (Ops := O64) HA) (sin (h j)). dsub D HD HCH (fcos (Ops := O64) HA) (cos (h j)).
      dsub D HD HSD (fsin (Ops := O64) DE) (sin d). dsub D HD HCD (fcos (Ops := O64) DE) (cos d).
      assert (Ht := ap_tan D HD _ _ _ Hd ltac:(tolb)). norm_in Ht.
      generalize dependent (fsin (Ops := O64) HA). intros SH HSH. generalize dependent (fcos (Ops := O64) HA). intros CH HCH.
      generalize dependent (fsin (Ops := O64) DE). intros SD HSD. generalize dependent (fcos (Ops := O64) DE). intros CD HCD.
      generalize dependent (ftan (Ops := O64) DE). intros TD Ht.
      generalize dependent (Fin sl). intros SL HSL. generalize dependent (Fin cl). intros CL HCL.
      lazymatch goal with |- context [facos ?C] => dsub D HD HC C (gcos d (h j) sl cl) end.
      lazymatch goal with |- context [fatan2 ?Y ?X] => dsub D HD HY Y (- sin (h j)); dsub D HD HX X (tan d * cl - sl * cos (h j)) end.
      eapply raw_flip with (fin := iq_end); [exact Bd| | | | | |exact HY|exact HX|exact HC| | | | |]; [tolb|tolb|tolb|tolb|now left|tolb| | | |].
      - exact iq_end_ok.
      - exact iq_end_nan.
      - discriminate.
      - reflexivity.
    Qed.
  End Iqbal.
End Cells.
