(** * PropCalendar: the calendar of the iqbal algorithm (C30) and its local apparent time (C31) *)

From Coq Require Import ZArith QArith Reals Bool List String Lra Lia.
From Flocq Require Import Core.Raux.
From Verif Require Import Num Arrays Libspa Time Core Usecases Spec GenericLemmas GenericLemmas2 TimeLemmas Ext ExtLemmas Witness
  AstroTac Sky AstroSpec Astro AstroCell AstroCall AstroRefute Float32 PropAstro Calendar Iqbal IqbalR CalendarSpec CalendarLemmas CalendarSweep.
Import ListNotations.
Open Scope R_scope.

(** ** C30 *)
Theorem C30_fields : forall c s y m d, calendar c -> civil_of_seconds s = (y, m, d) ->
  (valid_date y m d /\ (0 <= hour_of s < 24 /\ 0 <= minute_of s < 60 /\ 0 <= second_of s < 60) /\
  s = second_number c y m d (hour_of s) (minute_of s) (second_of s) /\
  day_of_year y m d = c y m d - c y 1 1 + 1)%Z.
Proof.
  intros c s y m d Hc H. rewrite civil_day in H. destruct (civil_spec _ _ _ _ H) as (Hv & Hg & Hd).
  assert (Hm := proj1 Hv). split; [exact Hv|]. rewrite !(calendar_unique c Hc) by lia. unfold second_number. rewrite (calendar_unique c Hc) by lia. rewrite Hg, Hd.
  unfold hour_of, minute_of, second_of. split; [Z.div_mod_to_equations; lia|]. split; [Z.div_mod_to_equations; lia|].
  unfold gregorian. cbn [before_month]. unfold before_month. cbn [Z.ltb Z.compare Pos.compare Pos.compare_cont]. rewrite andb_false_r. lia.
Qed.
(** ... so the location-independent outputs of iqbal are its published series at the angle
    2 pi (day of the year, with fraction) / 365, for every float32 arithmetic. *)
Theorem C30_iqbal_series : forall E uc times lat lon refr eng sp k t c, calendar c ->
  evaluated_time E uc times lat lon "iqbal" refr eng sp k t ->
  exists y, let s := (t / 1000000000)%Z in let a := 2 * PI * year_day c y s / 365 in
    (86400 * c y 1 1 <= s < 86400 * c (y + 1) 1 1)%Z /\
    value (sp_declination sp) [k] (iqbal_dec a) /\ value (sp_eot sp) [k] (iqbal_eot a) /\ value (sp_ecf sp) [k] (iqbal_ecf a).
Proof.
  intros E uc times lat lon refr eng sp k t c Hc (Hcall & Hk & Ht).
  destruct (call_supported _ _ _ _ _ _ _ _ _ Hcall) as (m & Hin).
  destruct (dispatch_lemma (O := ExtOps E) true uc times lat lon "iqbal" refr eng sp m k t NaN NaN Hcall Hin Hk) as (H1 & H2 & H3 & _).
  set (s := (t / 1000000000)%Z) in *.
  destruct (civil_of_seconds s) as [[y mo] d] eqn:Ec. exists y. cbv zeta.
  destruct (C30_fields c s y mo d Hc Ec) as (Hv & Hf & Es & Ed).
  assert (B : (c y 1 1 <= c y mo d < c (y + 1) 1 1)%Z).
  { destruct Hv as [V1 V2]. rewrite !(calendar_unique c Hc) by lia. unfold gregorian. rewrite jan1_next. unfold year_length.
    assert (mo = 1 \/ mo = 2 \/ mo = 3 \/ mo = 4 \/ mo = 5 \/ mo = 6 \/ mo = 7 \/ mo = 8 \/ mo = 9 \/ mo = 10 \/ mo = 11 \/ mo = 12)%Z as Hmo by lia.
    revert V2. unfold month_length, before_month. generalize (jan1 y). intros j.
    repeat destruct Hmo as [->|Hmo]; try subst mo; destruct (leap y), (leap (y + 1)); cbn; lia. }
  split; [unfold second_number in Es; lia|].
  assert (Ea : i_ang s = 2 * PI * year_day c y s / 365).
  { unfold i_ang, i_doy. rewrite Ec, i_std_eq, Ed. unfold year_day.
    replace (s - 86400 * c y 1%Z 1%Z)%Z with (86400 * (c y mo d - c y 1 1) + s mod 86400)%Z.
    2: { unfold second_number in Es. assert (s mod 86400 = 3600 * hour_of s + 60 * minute_of s + second_of s)%Z by (rewrite Es at 1; Z.div_mod_to_equations; lia). lia. }
    rewrite !plus_IZR, mult_IZR, !minus_IZR. q2. field. }
  assert (Edc : i_dec s = iqbal_dec (2 * PI * year_day c y s / 365)) by (rewrite <- Ea; unfold i_dec, i_dec0, iqbal_dec; rewrite Q2_, Q3_; q2; lra).
  assert (Eec : i_ecf s = iqbal_ecf (2 * PI * year_day c y s / 365)).
  { rewrite <- Ea. unfold i_ecf, i_ecf0, iqbal_ecf. rewrite Q2_, Q3_. q2. lra. }
  assert (Eeo : i_eoth s * Q2R 60 = iqbal_eot (2 * PI * year_day c y s / 365)).
  { rewrite <- Ea. unfold i_eoth, i_eot0, iqbal_eot. rewrite Q2_, Q3_, Q4_. q2. lra. }
  unfold value. rewrite H1, H2, H3, <- Edc, <- Eec, <- Eeo. clear - Hin.
  cbn [supported In] in Hin. destruct Hin as [H|[H|[H|[H|[H|[H|[H|[]]]]]]]]; try discriminate H; injection H as <- <-;
    cbn [py_iqbal ne_iqbal lib_dec lib_time lib_eot lib_ecf]; rewrite ?(proj1 (iq_time_R E s)), ?(proj2 (iq_time_R E s)); cbn [iq_dec iq_eot iq_ecf]; ext_ops; rewrite ?fin_mul; repeat split; reflexivity.
Qed.

(** Its hypotheses: a calendar exists, and (w_cell) evaluated times. *)
Example a_calendar : calendar gregorian /\ gregorian 2024 2 29 = 19782%Z /\ civil_of_seconds (-1) = (1969, 12, 31)%Z.
Proof. split; [exact gregorian_calendar|]. split; reflexivity. Qed.
Example iqbal_june : exists sp y,
  evaluated_time ideal_env Sites (at_times [Some w_t]) (Scalar (Fin 40)) (Scalar (Fin (-3))) "iqbal" RTrue "numpy" sp 0 w_t /\
  (86400 * gregorian y 1 1 <= w_t / 1000000000 < 86400 * gregorian (y + 1) 1 1)%Z.
Proof.
  assert (Hin : In ("iqbal"%string, "numpy"%string, py_iqbal (O := ExtOps ideal_env)) (supported (O := ExtOps ideal_env))) by (do 4 right; left; reflexivity).
  destruct (w_cell ideal_env Sites "iqbal" "numpy" _ RTrue Hin) as (sp & Hsp & _). exists sp.
  destruct (C30_iqbal_series _ _ _ _ _ _ _ _ _ _ _ gregorian_calendar Hsp) as (y & H & _). now exists y.
Qed.

(** ** C31: the local apparent time used for a cell is UTC + longitude/15 + equation of time, wrapped into [0, 24) *)
Theorem C31_local_apparent_time : forall E uc times lat lon refr eng sp k j i t la lo, ideal E -> is_True refr = false ->
  evaluated_cell E uc times lat lon "iqbal" refr eng sp k j i t la lo ->
  exists d eot z a lat_h, value (sp_declination sp) [k] d /\ value (sp_eot sp) [k] eot /\
    value (sp_zenith sp) (idx uc k j i) z /\ value (sp_azimuth sp) (idx uc k j i) a /\
    0 <= lat_h < 24 /\ (exists n, lat_h = utc_hours t + lo / 15 + eot / 60 + 24 * IZR n /\ (-1 <= n <= 1)%Z) /\
    let h := 15 * (lat_h - 12) * (PI / 180) in
    is_zenith z (la * (PI / 180)) d h /\ is_azimuth a (la * (PI / 180)) d h.
Proof.
  intros E uc times lat lon refr eng sp k j i t la lo HE Hr Hcell.
  assert (HX : exact_for E "iqbal" eng) by (unfold exact_for; tauto).
  destruct (call_bounds E true _ _ _ _ _ _ _ _ _ (proj1 (proj1 Hcell)) _ _ _ _ (proj2 Hcell)) as [Ba Bo].
  destruct (C26_eot_bound E _ _ _ _ _ _ _ _ _ _ (proj1 Hcell)) as (eot' & He' & Be).
  destruct (C21_position_geometric E _ _ _ _ _ _ _ _ _ _ _ _ _ _ HX Hr Hcell) as (d & eot & ecf & h & z & a & Hd & He & Hc & Hz & Ha & (n & Hh) & Hs).
  unfold value in *. rewrite He in He'. injection He' as <-.
  assert (Hu : forall x, used E "iqbal" x = x) by (intros x; apply HE). rewrite !Hu in *. clear Hu.
  change (hour_tol "iqbal") with 0 in Hh.
  assert (Eh : h = solar_hour_angle t lo eot + 2 * PI * IZR n).
  { assert (P := Rabs_pos (h - solar_hour_angle t lo eot - 2 * PI * IZR n)). assert (h - solar_hour_angle t lo eot - 2 * PI * IZR n = 0); [|lra].
    destruct (Req_dec (h - solar_hour_angle t lo eot - 2 * PI * IZR n) 0) as [|Hn]; [assumption|]. apply Rabs_no_R0 in Hn. lra. }
  clear Hh.
  assert (Bu : 0 <= utc_hours t < 24).
  { unfold utc_hours. assert (B := Z.mod_pos_bound (t / 1000000000) 86400 ltac:(lia)).
    assert (IZR 0 <= IZR ((t / 1000000000) mod 86400) < IZR 86400) by (split; [apply IZR_le|apply IZR_lt]; lia). lra. }
  set (l0 := utc_hours t + lo / 15 + eot / 60).
  assert (B0 : -12.4 <= l0 < 36.4) by (unfold l0; apply Rabs_le_inv in Be; lra).
  assert (exists q, (-1 <= q <= 1)%Z /\ 0 <= l0 + 24 * IZR q < 24) as (q & Bq & Hq).
  { destruct (Rlt_dec l0 0); [exists 1%Z; split; [lia|lra]|]. destruct (Rlt_dec l0 24); [exists 0%Z; split; [lia|lra]|exists (-1)%Z; split; [lia|lra]]. }
  exists d, eot, z, a, (l0 + 24 * IZR q). split; [exact Hd|]. split; [exact He|]. split; [exact Hz|]. split; [exact Ha|]. split; [exact Hq|].
  split; [exists q; split; [reflexivity|exact Bq]|]. cbv zeta.
  replace (15 * (l0 + 24 * IZR q - 12) * (PI / 180)) with (h - 2 * PI * IZR (n - q)).
  2: { rewrite Eh, minus_IZR. unfold solar_hour_angle, l0. field. }
  destruct Hs as (z0 & Bz & Hzc & Ez & Hza). change (parallax_coef "iqbal") with 0 in Ez. rewrite Rmult_0_l, Rplus_0_r in Ez. subst z0.
  assert (Ez0 : cos z = sun_U (la * (PI / 180)) d h).
  { unfold cos_tol in Hzc. cbn [String.eqb Ascii.eqb Bool.eqb andb] in Hzc. assert (P := Rabs_pos (cos z - sun_U (la * (PI / 180)) d h)).
    destruct (Req_dec (cos z - sun_U (la * (PI / 180)) d h) 0) as [|Hn]; [lra|]. apply Rabs_no_R0 in Hn. lra. }
  clear - Bz Ez0 Hza. split.
  - split; [exact Bz|]. rewrite Ez0. unfold sun_U. now rewrite cos_2kpi.
  - revert Hza. unfold is_azimuth, sun_S, sun_W. now rewrite cos_2kpi, sin_2kpi.
Qed.
