(** * SunposCells: values of airmass, eth, sunrise and incidence *)

From Coq Require Import ZArith QArith Reals Bool List String Lra Lia.
From Flocq Require Import Core.Raux.
From Interval Require Import Tactic.
From Verif Require Import Num Arrays Libspa Time Core Usecases Spec Ext ExtLemmas
  Sky AstroSpec Astro AstroCell AstroCall Sunpos SunposSpec SunposLemmas SunposR.
Import ListNotations.
Open Scope R_scope.

Lemma fin_powf a b : 0 < a -> e_powf (Fin a) (Fin b) = Fin (Rpower a b).
Proof. intros H. unfold e_powf. destruct (Rlt_dec 0 a); [reflexivity|contradiction]. Qed.
Lemma fin_zpow z p : 0 <= z -> 0 < p -> e_powf (Fin z) (Fin p) = Fin (zpow z p).
Proof.
  intros Hz Hp. unfold e_powf, zpow. destruct (Req_EM_T p 0); [lra|]. destruct (Rlt_dec 0 z).
  - destruct (Req_EM_T z 0); [lra|reflexivity].
  - destruct (Req_EM_T z 0); [|lra]. destruct (Rlt_dec 0 p); [reflexivity|contradiction].
Qed.
Lemma neg_powf z p : z < 0 -> e_powf (Fin z) p = NaN.
Proof. intros H. unfold e_powf. destruct p; try reflexivity. destruct (Rlt_dec 0 z); [lra|]. destruct (Req_EM_T z 0); [lra|reflexivity]. Qed.
Lemma fin_max a b : e_max (Fin a) (Fin b) = Fin (Rmax a b). Proof. reflexivity. Qed.
Lemma Da_max b z : 1e-4 <= b - z -> Rmax 1e-4 (b - z) = b - z.
Proof. intros H. now apply Rmax_right. Qed.

Section Cells.
  Variable E : Env.
  Variables (sp : Sunpos ext) (k j i : nat).
  Notation rec_am := (rec_airmass (O := ExtOps E)).

  Lemma rec_slant name c z : In (name, c) am_table -> 0 <= z <= 90 ->
    rec_am name (Fin (cos (rad z))) (Fin z) = Some (Fin (slant c z)).
  Proof.
    intros Hin Hz. cbn [In am_table] in Hin.
    assert (L0 : Q2R 1e-4 <= 0.001) by q2r.
    destruct Hin as [H|[H|[H|[H|[]]]]]; injection H as <- <-; unfold rec_airmass; cbn [String.eqb Ascii.eqb Bool.eqb]; ext_ops; unfold slant;
      generalize dependent (Q2R 1e-4); intros q L0;
      rewrite fin_sub, fin_max, Rmax_right by lra.
    1, 2: rewrite fin_powf by lra; rewrite fin_mul, fin_add; unfold zpow; destruct (Req_EM_T 0 0); [|contradiction]; do 2 f_equal;
      replace (Q2R (-1.253)) with (- (1.253)) by q2r; replace (Q2R (-1.6364)) with (- (1.6364)) by q2r; ring.
    all: rewrite fin_zpow by lra; rewrite fin_powf by lra; rewrite !fin_mul, fin_add; do 2 f_equal;
      replace (Q2R (-1.697)) with (- (1.697)) by q2r; replace (Q2R (-1.754)) with (- (1.754)) by q2r; ring.
  Qed.
  Lemma rec_finite name c z : In (name, c) am_table -> exists r, rec_am name (Fin (cos (rad z))) (Fin z) = Some r.
  Proof.
    intros Hin. cbn [In am_table] in Hin.
    destruct Hin as [H|[H|[H|[H|[]]]]]; injection H as <- <-; unfold rec_airmass; cbn [String.eqb Ascii.eqb Bool.eqb]; eauto.
  Qed.

  (** The value of the air mass at one zenith angle (degrees). *)
  Definition am_value (c : R * R * R * R) (z : R) : R := Rmax (1 / slant c z) 1.
  Lemma am_value_range name c z : In (name, c) am_table -> 0 <= z <= 90 -> 1 <= am_value c z <= 39.
  Proof.
    intros Hin Hz. destruct (slant_low c name z Hin Hz) as [H1 H2]. unfold am_value. split; [apply Rmax_r|].
    apply Rmax_lub; [|lra]. apply Rmult_le_reg_r with (slant c z); [lra|]. unfold Rdiv. rewrite Rmult_assoc, Rinv_l by lra. lra.
  Qed.

  Lemma airmass_at name c : In (name, c) am_table -> exists a, airmass (O := ExtOps E) sp name = Ok a /\
    forall zd, reads (zenith (O := ExtOps E) sp) k j i (Fin zd) ->
      (0 <= zd <= 90 -> reads a k j i (Fin (am_value c zd))) /\ (90 < zd -> reads a k j i NaN) /\
      (zd < 0 -> In name ["gueymard_2001"; "gueymard_2003"]%string -> reads a k j i NaN).
  Proof.
    intros Hin. unfold airmass.
    assert (HS : exists r, rec_am name (fnan (Ops := ExtOps E)) (fnan (Ops := ExtOps E)) = Some r).
    { cbn [In am_table] in Hin. destruct Hin as [H|[H|[H|[H|[]]]]]; injection H as <- <-; unfold rec_airmass; cbn [String.eqb Ascii.eqb Bool.eqb]; eauto. }
    destruct HS as [r0 HS]. rewrite HS. eexists. split; [reflexivity|]. intros zd Hz.
    assert (Hc := cosz_at E sp k j i zd Hz). 
    set (f := fun cz z => _). assert (Hf := reads_map2 f _ _ k j i _ _ Hc Hz).
    assert (P1 : Q2R 1.0 = 1) by q2r. assert (P90 : Q2R 90.0 = 90) by q2r.
    split; [|split]; intros H.
    - enough (Ev : f (Fin (cos (rad zd))) (Fin zd) = Fin (am_value c zd)) by (now rewrite Ev in Hf).
      unfold f. rewrite (rec_slant name c zd Hin H). ext_ops. rewrite fin_le, P90, Rleb_true by lra. cbn [where_].
      rewrite fin_div by (pose proof (slant_low c name zd Hin H); lra). rewrite fin_max. unfold am_value. now rewrite P1.
    - enough (Ev : f (Fin (cos (rad zd))) (Fin zd) = NaN) by (now rewrite Ev in Hf).
      unfold f. destruct (rec_finite name c zd Hin) as [r Hr]. rewrite Hr. ext_ops. rewrite fin_le, P90, Rleb_false by lra. reflexivity.
    - intros Hg. enough (Ev : f (Fin (cos (rad zd))) (Fin zd) = NaN) by (now rewrite Ev in Hf).
      unfold f. cbn [In] in Hg. destruct Hg as [<-|[<-|[]]]; unfold rec_airmass; cbn [String.eqb Ascii.eqb Bool.eqb]; ext_ops;
        rewrite (neg_powf zd _ H); rewrite nan_mul_r, nan_mul_l, nan_add_r; destruct (e_le _ _); reflexivity.
  Qed.

  (** ** eth *)
  Definition eth0 (s f zd : R) : R := s * f * Rmax 0 (cos (rad zd)).
  Section Eth.
    Variables (s f zd : R).
    Hypothesis Hf : reads (ecf sp) k j i (Fin f).
    Hypothesis Hz : reads (zenith (O := ExtOps E) sp) k j i (Fin zd).
    Notation eth := (eth (O := ExtOps E)).

    Lemma base_at : reads (da_map2 (mul (Ops := ExtOps E)) (da_map (mul (Ops := ExtOps E) (Fin s)) (ecf sp))
        (da_map (fmaximum (Ops := ExtOps E) (lit (Ops := ExtOps E) 0.0)) (cosz (O := ExtOps E) sp))) k j i (Fin (eth0 s f zd)).
    Proof.
      assert (Hc := cosz_at E sp k j i zd Hz).
      assert (H1 := reads_map (mul (Ops := ExtOps E) (Fin s)) _ k j i _ Hf).
      assert (H2 := reads_map (fmaximum (Ops := ExtOps E) (lit (Ops := ExtOps E) 0.0)) _ k j i _ Hc).
      assert (H3 := reads_map2 (mul (Ops := ExtOps E)) _ _ k j i _ _ H1 H2).
      unfold eth0. replace 0 with (Q2R 0.0) by q2r. exact H3.
    Qed.
    Lemma eth_none_at : exists e, eth sp (Fin s) "none" = Ok e /\ reads e k j i (Fin (eth0 s f zd)).
    Proof.
      eexists. split; [reflexivity|]. replace (eth0 s f zd) with (eth0 s f zd * Q2R 1.0) by (replace (Q2R 1.0) with 1 by q2r; ring).
      exact (reads_map (fun x => mul (Ops := ExtOps E) x (lit (Ops := ExtOps E) 1.0)) _ k j i _ base_at).
    Qed.
    Lemma eth_skartveit_at : exists e, eth sp (Fin s) "skarveith_1998" = Ok e /\ reads e k j i (Fin (eth0 s f zd * skartveit zd)).
    Proof.
      eexists. split; [reflexivity|].
      set (g := fun z : ext => _ : ext). assert (Hg := reads_map g _ k j i _ Hz).
      assert (Ev : g (Fin zd) = Fin (skartveit zd)).
      { unfold g, skartveit. ext_ops. rewrite fin_sub, fin_mul. unfold e_exp. rewrite fin_mul, fin_sub.
        replace (Q2R (-0.06)) with (- (0.06)) by q2r. replace (Q2R 90.0) with 90 by q2r. reflexivity. }
      rewrite Ev in Hg. exact (reads_map2 (mul (Ops := ExtOps E)) _ _ k j i _ _ base_at Hg).
    Qed.
    Lemma eth_perez_at : exists e, eth sp (Fin s) "perez_1990" = Ok e /\
      (0 <= zd <= 90 -> exists m, 1 <= m <= 39 /\ reads e k j i (Fin (eth0 s f zd * perez m))) /\ (90 < zd -> reads e k j i NaN).
    Proof.
      destruct (airmass_at "kasten_and_young_1989" _ (or_intror (or_introl eq_refl))) as (a & Ha & Hv). destruct (Hv zd Hz) as (H1 & H2 & _).
      unfold Sunpos.eth. cbn [String.eqb Ascii.eqb Bool.eqb]. rewrite Ha. cbn [rbind]. eexists. split; [reflexivity|].
      set (g := fun am : ext => _ : ext). split; intros H.
      - assert (Hr := am_value_range "kasten_and_young_1989" _ zd (or_intror (or_introl eq_refl)) H). set (m := am_value _ zd) in *.
        exists m. split; [exact Hr|]. specialize (H1 H).
        assert (Hg := reads_map g _ k j i _ H1).
        assert (Ev : g (Fin m) = Fin (perez m)).
        { unfold g, perez. ext_ops. clearbody m. assert (P9 : 0 < 9.4 / m) by (apply Rdiv_lt_0_compat; lra).
          rewrite (fin_div _ m) by lra. rewrite fin_add, fin_div by lra.
          unfold e_exp. rewrite fin_mul, fin_add. replace (Q2R (-1.4)) with (- (1.4)) by q2r. reflexivity. }
        rewrite Ev in Hg. exact (reads_map2 (mul (Ops := ExtOps E)) _ _ k j i _ _ base_at Hg).
      - assert (Hg := reads_map g _ k j i _ (H2 H)). 
        assert (Ev : g NaN = NaN) by (unfold g; ext_ops; cbv zeta; unfold e_ln; autorewrite with nan; cbn [e_exp]; now autorewrite with nan).
        rewrite Ev in Hg.
        rewrite <- (nan_mul_r (Fin (eth0 s f zd))). exact (reads_map2 (mul (Ops := ExtOps E)) _ _ k j i _ _ base_at Hg).
    Qed.
    Lemma eth_gonzalez_at : exists e, eth sp (Fin s) "gonzalez_and_calbo_1999" = Ok e /\
      (0 <= zd <= 90 -> exists m, 1 <= m <= 39 /\ reads e k j i (Fin (eth0 s f zd * gonzalez_calbo m))) /\ (90 < zd -> reads e k j i NaN).
    Proof.
      assert (Hin : In ("gueymard_2003"%string, (0.48353, 0.095846, 96.741, 1.754)) am_table) by (cbn; tauto).
      destruct (airmass_at "gueymard_2003" _ Hin) as (a & Ha & Hv). destruct (Hv zd Hz) as (H1 & H2 & _).
      unfold Sunpos.eth. cbn [String.eqb Ascii.eqb Bool.eqb]. rewrite Ha. cbn [rbind]. eexists. split; [reflexivity|].
      set (g := fun am : ext => _ : ext). split; intros H.
      - assert (Hr := am_value_range "gueymard_2003" _ zd Hin H). set (m := am_value _ zd) in *.
        exists m. split; [exact Hr|]. specialize (H1 H).
        assert (Hg := reads_map g _ k j i _ H1).
        assert (Ev : g (Fin m) = Fin (gonzalez_calbo m)).
        { unfold g, gonzalez_calbo. ext_ops. clearbody m. unfold e_ln. destruct (Rlt_dec 0 m); [|lra].
          cbv zeta. rewrite !fin_mul, fin_sub, fin_mul. unfold e_exp. rewrite fin_mul, fin_add.
          replace (Q2R (-1.74)) with (- (1.74)) by q2r. reflexivity. }
        rewrite Ev in Hg. exact (reads_map2 (mul (Ops := ExtOps E)) _ _ k j i _ _ base_at Hg).
      - assert (Hg := reads_map g _ k j i _ (H2 H)). 
        assert (Ev : g NaN = NaN) by (unfold g; ext_ops; cbv zeta; unfold e_ln; autorewrite with nan; cbn [e_exp]; now autorewrite with nan).
        rewrite Ev in Hg.
        rewrite <- (nan_mul_r (Fin (eth0 s f zd))). exact (reads_map2 (mul (Ops := ExtOps E)) _ _ k j i _ _ base_at Hg).
    Qed.
  End Eth.

  (** ** Sunrise *)
  Section Sunrise.
    Variables (la dd : R).
    Hypothesis Hla : reads (latitude sp) k j i (Fin la).
    Hypothesis Hd : reads (declination (O := ExtOps E) sp) k j i (Fin dd).
    Hypothesis Bla : -90 <= la <= 90.
    Hypothesis Bd : -90 < dd < 90.
    Definition wsr_value : ext :=
      if Rlt_dec (-90) la then if Rlt_dec la 90 then
        if Rle_dec (-1) (- tan (rad dd) * tan (rad la)) then
          if Rle_dec (- tan (rad dd) * tan (rad la)) 1 then Fin (acos (- tan (rad dd) * tan (rad la))) else NaN else NaN
      else NaN else NaN.
    Lemma sunrise_rad_at : reads (sunrise_rad (O := ExtOps E) sp) k j i wsr_value.
    Proof.
      assert (H1 := reads_map (fun x => ftan (Ops := ExtOps E) (radians (Ops := ExtOps E) x)) _ k j i _ Hla).
      assert (H2 := reads_map (fun x => ftan (Ops := ExtOps E) (radians (Ops := ExtOps E) x)) _ k j i _ Hd).
      assert (H3 := reads_map (neg (Ops := ExtOps E)) _ k j i _ H2).
      assert (H4 := reads_map2 (mul (Ops := ExtOps E)) _ _ k j i _ _ H3 H1).
      unfold sunrise_rad. set (g := fun x : ext => facos _).
      assert (H5 := reads_map g _ k j i _ H4).
      enough (Ev : g (mul (Ops := ExtOps E) (neg (Ops := ExtOps E) (ftan (Ops := ExtOps E) (radians (Ops := ExtOps E) (Fin dd))))
                (ftan (Ops := ExtOps E) (radians (Ops := ExtOps E) (Fin la)))) = wsr_value) by (now rewrite Ev in H5).
      clear H1 H2 H3 H4 H5. unfold g. ext_ops. rewrite !fin_fun. fold (rad la) (rad dd).
      assert (Cd := cos_lat_pos dd Bd). rewrite (fin_tan (rad dd)) by lra. rewrite fin_neg.
      assert (P1 : Q2R (-1) = -1) by q2r. assert (P2 : Q2R 1 = 1) by q2r. rewrite P1, P2.
      unfold wsr_value. destruct (Rlt_dec (-90) la) as [L1|L1]; [destruct (Rlt_dec la 90) as [L2|L2]|].
      - assert (Cl := cos_lat_pos la (conj L1 L2)). rewrite fin_tan by lra. rewrite fin_mul, !fin_le. unfold Rleb.
        destruct (Rle_dec (-1) (- tan (rad dd) * tan (rad la))) as [A|A]; [|reflexivity].
        destruct (Rle_dec (- tan (rad dd) * tan (rad la)) 1) as [B|B]; [|reflexivity]. cbn [andb where_]. apply fin_unit. lra.
      - assert (la = 90) by lra. assert (Er : rad la = PI / 2) by (subst la; unfold rad; field). rewrite Er. unfold e_tan.
        destruct (Req_EM_T (cos (PI / 2)) 0) as [_|C]; [|exfalso; apply C, cos_PI2].
        destruct (Rlt_dec 0 (sin (PI / 2))) as [_|C]; [|exfalso; apply C; rewrite sin_PI2; lra].
        unfold e_mul, e_sgn. destruct (Rlt_dec 0 (- tan (rad dd))); [reflexivity|]. destruct (Rlt_dec (- tan (rad dd)) 0); reflexivity.
      - assert (la = -90) by lra. assert (Er : rad la = - (PI / 2)) by (subst la; unfold rad; field). rewrite Er. unfold e_tan.
        rewrite cos_neg, sin_neg.
        destruct (Req_EM_T (cos (PI / 2)) 0) as [_|C]; [|exfalso; apply C, cos_PI2].
        destruct (Rlt_dec 0 (- sin (PI / 2))) as [C|_]; [exfalso; rewrite sin_PI2 in C; lra|].
        unfold e_mul, e_sgn. destruct (Rlt_dec 0 (- tan (rad dd))); [reflexivity|]. destruct (Rlt_dec (- tan (rad dd)) 0); reflexivity.
    Qed.
    Lemma wsr_crossing : la <> 90 /\ la <> -90 \/ dd <> 0 ->
      (wsr_value = NaN /\ ~ has_horizon_crossing (rad la) (rad dd)) \/
      exists w, wsr_value = Fin w /\ 0 <= w <= PI /\ sun_U (rad la) (rad dd) w = 0 /\ sun_U (rad la) (rad dd) (- w) = 0 /\
        (forall h, - PI <= h <= PI -> (0 < sun_U (rad la) (rad dd) h <-> Rabs h < w)).
    Proof.
      clear Hla Hd. intros Hn. assert (Cd := cos_lat_pos dd Bd). unfold wsr_value.
      assert (Hpole : la = 90 \/ la = -90 -> ~ has_horizon_crossing (rad la) (rad dd)).
      { intros Hp. apply pole_crossing.
        - destruct Hp as [-> | ->]; unfold rad; [replace (90 * (PI / 180)) with (PI / 2) by field|replace (-90 * (PI / 180)) with (- (PI / 2)) by field; rewrite cos_neg]; apply cos_PI2.
        - unfold rad. pose proof PI_RGT_0. assert (dd <> 0) by tauto. nra.
        - unfold rad. pose proof PI_RGT_0. nra. }
      destruct (Rlt_dec (-90) la) as [L1|L1]; [destruct (Rlt_dec la 90) as [L2|L2]|]; [|left; split; [reflexivity|apply Hpole; lra]..].
      assert (Cl := cos_lat_pos la (conj L1 L2)).
      destruct (Rle_dec (-1) (- tan (rad dd) * tan (rad la))) as [A|A]; [destruct (Rle_dec (- tan (rad dd) * tan (rad la)) 1) as [B|B]|].
      - right. eexists. split; [reflexivity|]. apply sunrise_horizon; lra.
      - left. split; [reflexivity|]. apply no_crossing; lra.
      - left. split; [reflexivity|]. apply no_crossing; lra.
    Qed.
  End Sunrise.

  (** ** True solar time and incidence *)
  Section Tst.
    Variable nf : ext.
    Variables (u : Z) (eot lo : R).
    Hypothesis Hu : nth_error (sp_times_utc sp) k = Some (Some u).
    Hypothesis Heot : reads (Sunpos.eot sp) k j i (Fin eot).
    Hypothesis Hlo : reads (longitude sp) k j i (Fin lo).
    (** The solar offset in nanoseconds. *)
    Definition offset_ns : R := (eot + 4 * lo) * 60000000000.

    Lemma solar_offset_at : reads (solar_offset (O := ExtOps E) sp) k j i (Fin (eot + 4 * lo)).
    Proof.
      assert (H1 := reads_map (mul (Ops := ExtOps E) (lit (Ops := ExtOps E) 4)) _ k j i _ Hlo).
      assert (H2 := reads_map2 (add (Ops := ExtOps E)) _ _ k j i _ _ Heot H1).
      replace (4 * lo) with (Q2R 4 * lo) by q2r. exact H2.
    Qed.
    Lemma tst_at : reads (true_solar_time (O := ExtOps E) nf sp) k j i (Some (Ztrunc (IZR u + offset_ns))).
    Proof.
      assert (H0 : reads (of_list DTime (sp_times_utc sp)) k j i (Some u)) by exact Hu.
      assert (H1 := reads_map (ns_float (O := ExtOps E) nf) _ k j i _ H0).
      assert (H2 := reads_map (fun x => mul (Ops := ExtOps E) (mul (Ops := ExtOps E) x (lit (Ops := ExtOps E) 60)) (lit (Ops := ExtOps E) 1e9)) _ k j i _ solar_offset_at).
      assert (H3 := reads_map2 (add (Ops := ExtOps E)) _ _ k j i _ _ H1 H2).
      assert (H4 := reads_map (toZ (Ops := ExtOps E)) _ k j i _ H3).
      unfold offset_ns. replace ((eot + 4 * lo) * 60000000000) with ((eot + 4 * lo) * Q2R 60 * Q2R 1e9) by q2r. exact H4.
    Qed.
    Lemma minutes_at : reads (da_map (minutes_to_ns (O := ExtOps E)) (solar_offset (O := ExtOps E) sp)) k j i (Some (Ztrunc offset_ns)).
    Proof.
      assert (H := reads_map (minutes_to_ns (O := ExtOps E)) _ k j i _ solar_offset_at).
      unfold offset_ns. replace ((eot + 4 * lo) * 60000000000) with ((eot + 4 * lo) * Q2R 60 * Q2R 1e9) by q2r. exact H.
    Qed.

    Variables (la dd : R).
    Hypothesis Hla : reads (latitude sp) k j i (Fin la).
    Hypothesis Hd : reads (declination (O := ExtOps E) sp) k j i (Fin dd).
    Lemma hour_at t : hour_of_day (O := ExtOps E) nf (Some t) = Fin (day_hours t).
    Proof.
      unfold hour_of_day, nat_sub, day_floor, ns_float, day_hours. cbn [option_map]. ext_ops. rewrite fin_mul, fin_div by q2r. f_equal.
      replace (t - t / NS_PER_DAY * NS_PER_DAY)%Z with (t mod 86400000000000)%Z by (change NS_PER_DAY with 86400000000000%Z; pose proof (Z.div_mod t 86400000000000); lia).
      q2. field.
    Qed.
    Lemma incidence_at slope az : let tst := Ztrunc (IZR u + offset_ns) in
      reads (incidence (O := ExtOps E) nf sp (Fin slope) (Fin az)) k j i
        (Fin (cos_incidence (rad la) (rad dd) (hour_angle tst) (rad slope) (rad az))).
    Proof.
      intros tst. assert (Ht := tst_at). fold tst in Ht.
      unfold incidence. cbv zeta.
      set (c := fun a : ext => fcos (Ops := ExtOps E) (radians (Ops := ExtOps E) a)).
      set (s := fun a : ext => fsin (Ops := ExtOps E) (radians (Ops := ExtOps E) a)).
      set (haf := fun t : option Z => mul (Ops := ExtOps E) _ _).
      assert (Hh := reads_map haf _ k j i _ Ht).
      assert (Ev : haf (Some tst) = Fin (- (15 * (day_hours tst - 12)))).
      { unfold haf. rewrite hour_at. ext_ops. rewrite fin_sub, fin_mul. f_equal. q2. field. }
      rewrite Ev in Hh. clear Ev.
      assert (C1 := reads_map c _ k j i _ Hla). assert (S1 := reads_map s _ k j i _ Hla).
      assert (C2 := reads_map c _ k j i _ Hd). assert (S2 := reads_map s _ k j i _ Hd).
      assert (C3 := reads_map c _ k j i _ Hh). assert (S3 := reads_map s _ k j i _ Hh).
      change (dec sp) with (declination (O := ExtOps E) sp).
      pose proof (fun x a y (H : reads a k j i y) => reads_map (fun y => mul (Ops := ExtOps E) y x) a k j i y H) as M.
      pose proof (fun a b x y (H : reads a k j i x) (H' : reads b k j i y) => reads_map2 (mul (Ops := ExtOps E)) a b k j i x y H H') as M2.
      pose proof (fun a b x y (H : reads a k j i x) (H' : reads b k j i y) => reads_map2 (add (Ops := ExtOps E)) a b k j i x y H H') as A2.
      pose proof (fun a b x y (H : reads a k j i x) (H' : reads b k j i y) => reads_map2 (sub (Ops := ExtOps E)) a b k j i x y H H') as B2.
      assert (R1 := A2 _ _ _ _ (A2 _ _ _ _ (M2 _ _ _ _ (B2 _ _ _ _ (M (c (Fin slope)) _ _ S1) (M (c (Fin az)) _ _ (M (s (Fin slope)) _ _ C1))) S2)
         (M2 _ _ _ _ (M2 _ _ _ _ (A2 _ _ _ _ (M (c (Fin slope)) _ _ C1) (M (c (Fin az)) _ _ (M (s (Fin slope)) _ _ S1))) C2) C3))
         (M (s (Fin az)) _ _ (M (s (Fin slope)) _ _ (M2 _ _ _ _ C2 S3)))).
      unfold reads in R1 |- *. etransitivity; [exact R1|]. f_equal. cbn [ExtOps add sub mul fcos fsin radians e_fun e_add e_sub e_mul c s].
      fold (rad la) (rad dd) (rad slope) (rad az). fold (rad (- (15 * (day_hours tst - 12)))).
      assert (Er : rad (- (15 * (day_hours tst - 12))) = - hour_angle tst) by (unfold hour_angle, rad; ring). rewrite Er.
      rewrite cos_neg, sin_neg. unfold cos_incidence, sun_S, sun_W, sun_U, normal_S, normal_W, normal_U. f_equal. ring.
    Qed.
  End Tst.

  (** ** Sunrise and sunset times *)
  Section Times.
    Variable nf : ext.
    Variables (u w0 : Z) (eot lo w : R).
    Hypothesis Hu : nth_error (sp_times_utc sp) k = Some (Some u).
    Hypothesis Hw : nth_error (sp_times sp) k = Some (Some w0).
    Hypothesis Heot : reads (Sunpos.eot sp) k j i (Fin eot).
    Hypothesis Hlo : reads (longitude sp) k j i (Fin lo).
    Let tst := Ztrunc (IZR u + offset_ns eot lo).
    (** degrees *)
    Hypothesis Hs : reads (sunrise_deg (O := ExtOps E) sp) k j i (Fin w).

    Lemma daylight_at : reads (daylight_length (O := ExtOps E) sp) k j i (Fin (2 / 15 * w)).
    Proof.
      assert (H := reads_map (mul (Ops := ExtOps E) (div (Ops := ExtOps E) (lit (Ops := ExtOps E) 2.0) (lit (Ops := ExtOps E) 15.0))) _ k j i _ Hs).
      ext_ops. rewrite fin_div, fin_mul in H by q2r. unfold daylight_length. ext_ops. rewrite fin_div by q2r.
      replace (2 / 15 * w) with (Q2R 2.0 / Q2R 15.0 * w) by (q2; field). exact H.
    Qed.
    Lemma length_ns_at : reads (da_map (hours_to_ns (O := ExtOps E)) (daylight_length (O := ExtOps E) sp)) k j i (Some (Ztrunc (2 / 15 * w * 3600000000000))).
    Proof.
      assert (H := reads_map (hours_to_ns (O := ExtOps E)) _ k j i _ daylight_at).
      replace (2 / 15 * w * 3600000000000) with (2 / 15 * w * Q2R 3600 * Q2R 1e9) by (q2; field). exact H.
    Qed.
    Lemma day_floor_eq t : day_floor (Some t) = Some (midnight_of t).
    Proof.
      unfold day_floor, midnight_of. cbn. f_equal. change NS_PER_DAY with 86400000000000%Z. pose proof (Z.div_mod t 86400000000000). lia.
    Qed.
    Lemma sunrise_tst_at : reads (sunrise_tst (O := ExtOps E) nf sp) k j i (Some (Ztrunc ((12 - w / 15) * 3600000000000) + midnight_of tst)%Z).
    Proof.
      assert (Hs' := Hs). apply reads_map_inv in Hs' as (wr & Hr & Ew).
      unfold sunrise_tst. set (g := fun w : ext => sub (Ops := ExtOps E) _ _).
      assert (H1 := reads_map g _ k j i _ Hr).
      assert (Ev : g wr = Fin (12 - w / 15)).
      { unfold g. rewrite <- Ew. ext_ops. rewrite fin_div, fin_sub by q2r. f_equal. q2. field. }
      rewrite Ev in H1. assert (H2 := reads_map (hours_to_ns (O := ExtOps E)) _ k j i _ H1).
      assert (H3 := reads_map day_floor _ k j i _ (tst_at nf u eot lo Hu Heot Hlo)). fold tst in H3. rewrite day_floor_eq in H3.
      assert (H4 := reads_map2 nat_add _ _ k j i _ _ H2 H3).
      replace ((12 - w / 15) * 3600000000000) with ((12 - w / 15) * Q2R 3600 * Q2R 1e9) by (q2; field). exact H4.
    Qed.
    Lemma sunrise_utc_at : reads (sunrise_utc (O := ExtOps E) nf sp) k j i
      (Some (Ztrunc ((12 - w / 15) * 3600000000000) + midnight_of tst - Ztrunc (offset_ns eot lo))%Z).
    Proof. exact (reads_map2 nat_sub _ _ k j i _ _ sunrise_tst_at (minutes_at eot lo Heot Hlo)). Qed.
    Lemma sunrise_local_at : reads (sunrise_local (O := ExtOps E) nf sp) k j i
      (Some (Ztrunc ((12 - w / 15) * 3600000000000) + midnight_of tst - Ztrunc (offset_ns eot lo) + (w0 - u))%Z).
    Proof.
      unfold sunrise_local.
      assert (H : reads (DA [DTime] (fun e => match nth_error (sp_times sp) (e DTime), nth_error (sp_times_utc sp) (e DTime) with
                                          | Some w, Some u => Some (nat_sub w u) | _, _ => None end)) k j i (Some (w0 - u)%Z)).
      { unfold reads. cbn [da_at at_cell]. now rewrite Hw, Hu. }
      exact (reads_map2 nat_add _ _ k j i _ _ sunrise_utc_at H).
    Qed.
  End Times.
  (** In polar day or night every sunrise time is NaT. *)
  Lemma sunrise_nat nf x : reads (sunrise_rad (O := ExtOps E) sp) k j i NaN -> reads (true_solar_time (O := ExtOps E) nf sp) k j i x ->
    reads (sunrise_tst (O := ExtOps E) nf sp) k j i None.
  Proof.
    intros Hr Ht. unfold sunrise_tst. set (g := fun w : ext => sub (Ops := ExtOps E) _ _).
    assert (H1 := reads_map (hours_to_ns (O := ExtOps E)) _ k j i _ (reads_map g _ k j i _ Hr)).
    assert (H2 := reads_map2 nat_add _ _ k j i _ _ H1 (reads_map day_floor _ k j i _ Ht)). exact H2.
  Qed.
End Cells.
