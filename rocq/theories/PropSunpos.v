(** * PropSunpos: properties of the Sunpos accessors (C32-C45)

    Conventions as in PropAstro; [reads a k j i x] is the element of a returned DataArray for time [k],
    location (or latitude) [j] and longitude [i]. *)

From Coq Require Import ZArith QArith Reals Bool List String Lra Lia.
From Flocq Require Import Core.Raux.
From Interval Require Import Tactic.
From Verif Require Import Num Arrays Libspa Time Core Usecases Spec GenericLemmas GenericLemmas2 TimeLemmas Ext ExtLemmas Witness
  AstroTac Sky AstroSpec Astro AstroCell AstroCall AstroRefute Float32 PropPipeline PropAstro Sunpos SunposSpec SunposLemmas SunposR SunposCells SkyClose.
Import ListNotations.
Open Scope R_scope.

Section Statements.
(** The accessors over the extended reals. *)
Variable E : Env.
Notation zenith := (zenith (O := ExtOps E)).
Notation azimuth := (azimuth (O := ExtOps E)).
Notation declination := (declination (O := ExtOps E)).
Notation elevation := (elevation (O := ExtOps E)).
Notation cosz := (cosz (O := ExtOps E)).
Notation sza := (sza (O := ExtOps E)).
Notation saa := (saa (O := ExtOps E)).
Notation dec := (dec (O := ExtOps E)).

(** ** C32 *)
Theorem C32_elevation_cosz : forall uc times lat lon alg refr eng sp k j i zd,
  call (O := ExtOps E) true uc times lat lon alg refr eng = Ok sp ->
  reads (zenith sp) k j i (Fin zd) ->
  reads (elevation sp) k j i (Fin (90 - zd)) /\ reads (cosz sp) k j i (Fin (cos (rad zd))) /\ reads (sza sp) k j i (Fin zd) /\
  (forall ad, reads (azimuth sp) k j i (Fin ad) -> reads (saa sp) k j i (Fin ad)) /\
  (forall dd, reads (declination sp) k j i (Fin dd) -> reads (dec sp) k j i (Fin dd)).
Proof.
  intros uc times lat lon alg refr eng sp k j i zd Hc Hz.
  split; [now apply elevation_at|]. split; [now apply cosz_at|]. auto.
Qed.
(** All accessors defined and in their documented ranges, without refraction. *)
Theorem C32_ranges_partial : forall uc times lat lon alg refr eng sp k j i t la lo,
  range_ok_for E alg eng -> is_True refr = false ->
  evaluated_cell E uc times lat lon alg refr eng sp k j i t la lo ->
  exists zd ad dd, reads (zenith sp) k j i (Fin zd) /\ reads (azimuth sp) k j i (Fin ad) /\ reads (declination sp) k j i (Fin dd) /\
    0 <= zd <= 180 /\ -180 <= ad <= 180 /\ -23.6 <= dd <= 23.6.
Proof.
  intros uc times lat lon alg refr eng sp k j i t la lo HE Hr Hcell.
  assert (Hcall : call (O := ExtOps E) true uc times lat lon alg refr eng = Ok sp) by apply Hcell.
  destruct (C18_zenith_range_partial E _ _ _ _ _ _ _ _ _ _ _ _ _ _ HE Hr Hcell) as (z & Hz & Bz).
  destruct (C20_azimuth_range_partial E _ _ _ _ _ _ _ _ _ _ _ _ _ _ HE Hcell) as (a & Ha & Ba1 & Ba2).
  destruct (C24_declination_bound E _ _ _ _ _ _ _ _ _ _ (proj1 Hcell)) as (d & Hd & Bd).
  exists (z * (180 / PI)), (a * (180 / PI)), (d * (180 / PI)).
  split; [apply (zenith_raw E uc times lat lon alg refr eng sp k j i Hcall); now rewrite deg_rad|].
  split; [apply (azimuth_raw E uc times lat lon alg refr eng sp k j i Hcall); now rewrite deg_rad|].
  split; [apply (declination_raw E sp k j i); now rewrite deg_rad|].
  assert (HP := PI_RGT_0).
  assert (Hs : forall x, - PI <= x <= PI -> -180 <= x * (180 / PI) <= 180).
  { intros x Hx. assert (E1 : PI * (180 / PI) = 180) by (field; lra).
    assert (0 < 180 / PI) by (apply Rdiv_lt_0_compat; lra). set (q := 180 / PI) in *. clearbody q. split; nra. }
  assert (0 < 180 / PI) by (apply Rdiv_lt_0_compat; lra).
  split; [split; [nra|apply Hs; lra]|]. split.
  - apply Hs. destruct (call_supported _ _ _ _ _ _ _ _ _ Hcall) as (m & Hin). cbn [supported In] in Hin.
    assert (alg = "psa"%string \/ alg = "iqbal"%string \/ alg = "soltrack"%string \/ alg = "nrel"%string) as [X | [X | [X | X ] ] ].
    { destruct Hin as [H1|[H1|[H1|[H1|[H1|[H1|[H1|[]]]]]]]]; injection H1 as <- <- _; auto. }
    + assert (B := Ba1 (or_introl X)). lra.
    + assert (B := Ba1 (or_intror X)). lra.
    + assert (B := Ba2 (or_introl X)). lra.
    + assert (B := Ba2 (or_intror X)). lra.
  - apply Rabs_le_inv in Bd. lra.
Qed.

(** ** C33: eth without correction *)
Theorem C33_eth : forall uc times lat lon alg refr eng sp k j i t la lo zd s,
  evaluated_cell E uc times lat lon alg refr eng sp k j i t la lo ->
  reads (zenith sp) k j i (Fin zd) ->
  exists e f x, Sunpos.eth (O := ExtOps E) sp (Fin s) "none" = Ok e /\ reads e k j i (Fin x) /\ reads (ecf sp) k j i (Fin f) /\ 0.96 <= f <= 1.04 /\
    x = s * (f * Rmax 0 (cos (rad zd))) /\
    (0 <= s -> 0 <= x <= s * f) /\ (0 < s -> 0 <= zd <= 180 -> (x = 0 <-> 90 <= zd)).
Proof.
  intros uc times lat lon alg refr eng sp k j i t la lo zd s Hcell Hz.
  destruct (C25_ecf_bound E _ _ _ _ _ _ _ _ _ _ (proj1 Hcell)) as (f & Hf & Bf).
  destruct (eth_none_at E sp k j i s f zd Hf Hz) as (e & He & Hx).
  exists e, f, (eth0 s f zd). split; [exact He|]. split; [exact Hx|]. split; [exact Hf|]. split; [exact Bf|].
  unfold eth0. split; [ring|].
  assert (Hm : 0 <= Rmax 0 (cos (rad zd)) <= 1).
  { split; [apply Rmax_l|apply Rmax_lub; [lra|apply COS_bound]]. }
  split; [intros Hs; assert (0 <= s * f) by nra; split; nra|].
  intros Hs Hzd. pose proof PI_RGT_0 as HP. split.
  - intros H0. apply Rnot_lt_le. intros Hlt.
    assert (0 < cos (rad zd)) by (apply cos_lat_pos; lra).
    assert (cos (rad zd) <= Rmax 0 (cos (rad zd))) by apply Rmax_r.
    assert (0 < s * f) by nra. nra.
  - intros H90. rewrite Rmax_left; [ring|]. apply cos_le_0; unfold rad; nra.
Qed.

(** ** C34: corrected irradiance, sun up *)
Theorem C34_corrected_eth : forall uc times lat lon alg refr eng sp k j i t la lo zd s corr lo_b hi_b,
  evaluated_cell E uc times lat lon alg refr eng sp k j i t la lo ->
  reads (zenith sp) k j i (Fin zd) -> 0 <= zd <= 90 ->
  In (corr, (lo_b, hi_b)) [("perez_1990", (0.4, 1.01)); ("skarveith_1998", (0.269, 0.83)); ("gonzalez_and_calbo_1999", (0.229, 1.01))]%string ->
  exists e0 e x0 x c, Sunpos.eth (O := ExtOps E) sp (Fin s) "none" = Ok e0 /\ Sunpos.eth (O := ExtOps E) sp (Fin s) corr = Ok e /\
    reads e0 k j i (Fin x0) /\ reads e k j i (Fin x) /\ x = x0 * c /\ lo_b <= c <= hi_b.
Proof.
  intros uc times lat lon alg refr eng sp k j i t la lo zd s corr lo_b hi_b Hcell Hz B Hin.
  destruct (C25_ecf_bound E _ _ _ _ _ _ _ _ _ _ (proj1 Hcell)) as (f & Hf & _).
  destruct (eth_none_at E sp k j i s f zd Hf Hz) as (e0 & He0 & Hx0).
  destruct Hin as [H|[H|[H|[]]]]; injection H as <- <- <-.
  - destruct (eth_perez_at E sp k j i s f zd Hf Hz) as (e & He & H1 & _). destruct (H1 B) as (m & Bm & Hx).
    exists e0, e, (eth0 s f zd), (eth0 s f zd * perez m), (perez m). repeat (split; [assumption || reflexivity|]). now apply perez_bounds.
  - destruct (eth_skartveit_at E sp k j i s f zd Hf Hz) as (e & He & Hx).
    exists e0, e, (eth0 s f zd), (eth0 s f zd * skartveit zd), (skartveit zd). repeat (split; [assumption || reflexivity|]). now apply skartveit_bounds.
  - destruct (eth_gonzalez_at E sp k j i s f zd Hf Hz) as (e & He & H1 & _). destruct (H1 B) as (m & Bm & Hx).
    exists e0, e, (eth0 s f zd), (eth0 s f zd * gonzalez_calbo m), (gonzalez_calbo m). repeat (split; [assumption || reflexivity|]). now apply gonzalez_bounds.
Qed.
(** ... at night: zero for skarveith_1998, but NaN (not zero) for the two others. *)
Theorem C34_night : forall uc times lat lon alg refr eng sp k j i t la lo zd s,
  evaluated_cell E uc times lat lon alg refr eng sp k j i t la lo ->
  reads (zenith sp) k j i (Fin zd) -> 90 < zd <= 180 ->
  exists e1 e2 e3,
    Sunpos.eth (O := ExtOps E) sp (Fin s) "skarveith_1998" = Ok e1 /\ reads e1 k j i (Fin 0) /\
    Sunpos.eth (O := ExtOps E) sp (Fin s) "perez_1990" = Ok e2 /\ reads e2 k j i NaN /\
    Sunpos.eth (O := ExtOps E) sp (Fin s) "gonzalez_and_calbo_1999" = Ok e3 /\ reads e3 k j i NaN.
Proof.
  intros uc times lat lon alg refr eng sp k j i t la lo zd s Hcell Hz B.
  destruct (C25_ecf_bound E _ _ _ _ _ _ _ _ _ _ (proj1 Hcell)) as (f & Hf & _).
  destruct (eth_skartveit_at E sp k j i s f zd Hf Hz) as (e1 & He1 & Hx1).
  destruct (eth_perez_at E sp k j i s f zd Hf Hz) as (e2 & He2 & _ & H2).
  destruct (eth_gonzalez_at E sp k j i s f zd Hf Hz) as (e3 & He3 & _ & H3).
  exists e1, e2, e3. split; [exact He1|]. split.
  - replace 0 with (eth0 s f zd * skartveit zd); [exact Hx1|]. unfold eth0. rewrite Rmax_left; [ring|].
    pose proof PI_RGT_0. apply cos_le_0; unfold rad; nra.
  - repeat split; auto; [apply H2|apply H3]; lra.
Qed.

(** ** C35: air mass *)
Theorem C35_airmass : forall uc times lat lon alg refr eng sp name c,
  call (O := ExtOps E) true uc times lat lon alg refr eng = Ok sp ->
  In (name, c) am_table ->
  exists a, Sunpos.airmass (O := ExtOps E) sp name = Ok a /\
    forall k j i zd, reads (zenith sp) k j i (Fin zd) -> 0 <= zd ->
      (90 < zd -> reads a k j i NaN) /\
      (zd <= 90 -> exists m, reads a k j i (Fin m) /\ m = Rmax 1 (1 / slant c zd) /\ 1 <= m <= 39).
Proof.
  intros uc times lat lon alg refr eng sp name c Hc Hin.
  destruct (airmass_at E sp 0 0 0 name c Hin) as (a & Ha & _). exists a. split; [exact Ha|].
  intros k j i zd Hz H0. destruct (airmass_at E sp k j i name c Hin) as (a' & Ha' & H). rewrite Ha in Ha'. injection Ha' as <-.
  destruct (H zd Hz) as (H1 & H2 & _). split; [exact H2|]. intros H90. exists (am_value c zd).
  split; [apply H1; lra|]. split; [apply Rmax_comm|]. apply (am_value_range name); [exact Hin|lra].
Qed.
(** A negative zenith (iqbal with refraction: C19_iqbal_refuted) has no Gueymard air mass although the sun is overhead. *)
Theorem C35_negative_zenith_refuted : forall uc eng m t, ideal E ->
  In ("iqbal"%string, eng, m) (supported (O := ExtOps E)) -> representable t ->
  exists la lo sp zd a, evaluated_cell E uc (at_times [Some t]) (Scalar (Fin la)) (Scalar (Fin lo)) "iqbal" RTrue eng sp 0 0 0 t la lo /\
    reads (zenith sp) 0 0 0 (Fin zd) /\ zd <= 90 /\ Sunpos.airmass (O := ExtOps E) sp "gueymard_2003" = Ok a /\ reads a 0 0 0 NaN.
Proof.
  intros uc eng m t HE Hin Ht. destruct (C19_iqbal_refuted E uc eng m t HE Hin Ht) as (la & lo & sp & z & Hcell & Hz & Bz).
  assert (Hcall := proj1 (proj1 Hcell)). set (zd := z * (180 / PI)).
  assert (Hr : reads (zenith sp) 0 0 0 (Fin zd)).
  { apply (zenith_raw E uc _ _ _ _ _ _ sp 0 0 0 Hcall). unfold zd. now rewrite deg_rad. }
  assert (Hneg : zd < 0). { unfold zd. pose proof PI_RGT_0. assert (0 < 180 / PI) by (apply Rdiv_lt_0_compat; lra). nra. }
  destruct (airmass_at E sp 0 0 0 "gueymard_2003" (0.48353, 0.095846, 96.741, 1.754)) as (a & Ha & H); [cbn; tauto|].
  exists la, lo, sp, zd, a. split; [exact Hcell|]. split; [exact Hr|]. split; [lra|]. split; [exact Ha|].
  apply (H zd Hr); [exact Hneg|cbn; tauto].
Qed.
End Statements.

(** ** C36: option strings (any arithmetic) *)
Definition is_ok {A} (r : res A) : Prop := exists a, r = Ok a.
Theorem C36_airmass_options : forall F (O : Ops F) (sp : Sunpos F) name,
  if in_dec string_dec name ["kasten_1965"; "kasten_and_young_1989"; "gueymard_2001"; "gueymard_2003"]%string
  then is_ok (Sunpos.airmass sp name) else Sunpos.airmass sp name = Raise ValueError.
Proof.
  intros F O sp name. destruct (in_dec _ _ _) as [Hin|Hn]; cbn [In] in *.
  - destruct Hin as [<-|[<-|[<-|[<-|[]]]]]; unfold is_ok; cbn; eauto.
  - unfold Sunpos.airmass, rec_airmass.
    repeat match goal with |- context [(name =? ?s)%string] => destruct (String.eqb_spec name s) as [->|]; [exfalso; tauto|] end. reflexivity.
Qed.
Theorem C36_eth_options : forall F (O : Ops F) (sp : Sunpos F) s name,
  if in_dec string_dec name ["none"; "perez_1990"; "skarveith_1998"; "gonzalez_and_calbo_1999"]%string
  then is_ok (Sunpos.eth sp s name) else Sunpos.eth sp s name = Raise ValueError.
Proof.
  intros F O sp s name. destruct (in_dec _ _ _) as [Hin|Hn]; cbn [In] in *.
  - destruct Hin as [<-|[<-|[<-|[<-|[]]]]]; unfold is_ok; cbn; eauto.
  - unfold Sunpos.eth.
    repeat match goal with |- context [(name =? ?s)%string] => destruct (String.eqb_spec name s) as [->|]; [exfalso; tauto|] end. reflexivity.
Qed.
(** sunrise and sunset raise AssertionError, not the documented ValueError. *)
Theorem C36_sunrise_options_refuted : forall F (O : Ops F) nf (sp : Sunpos F) units,
  if in_dec string_dec units ["rad"; "deg"; "tst"; "utc"; "local"]%string
  then is_ok (Sunpos.sunrise nf sp units)
  else Sunpos.sunrise nf sp units = Raise AssertionError /\ Sunpos.sunset nf sp units = Raise AssertionError.
Proof.
  intros F O nf sp units. destruct (in_dec _ _ _) as [Hin|Hn]; cbn [In] in *.
  - destruct Hin as [<-|[<-|[<-|[<-|[<-|[]]]]]]; unfold is_ok; cbn; eauto.
  - unfold Sunpos.sunrise, Sunpos.sunset.
    repeat match goal with |- context [(units =? ?s)%string] => destruct (String.eqb_spec units s) as [->|]; [exfalso; tauto|] end. now split.
Qed.

(** ** C41: the sunset angle (the default call!) is never returned *)
Theorem C41_sunset_angle_refuted : forall F (O : Ops F) nf (sp : Sunpos F),
  Sunpos.sunset nf sp "deg" = Raise UnboundLocalError /\ Sunpos.sunset nf sp "rad" = Raise UnboundLocalError.
Proof. intros. now split. Qed.

Section Day.
Variables (E : Env) (nf : ext).
Notation zenith := (zenith (O := ExtOps E)).
Notation azimuth := (azimuth (O := ExtOps E)).
Notation declination := (declination (O := ExtOps E)).
Notation sunrise := (Sunpos.sunrise (O := ExtOps E) nf).
Notation sunset := (Sunpos.sunset (O := ExtOps E) nf).
Notation daylight_length := (Sunpos.daylight_length (O := ExtOps E)).
Notation true_solar_time := (Sunpos.true_solar_time (O := ExtOps E) nf).
Notation incidence := (Sunpos.incidence (O := ExtOps E) nf).

Lemma cell_data uc times lat lon alg refr eng sp k j i t la lo :
  evaluated_cell E uc times lat lon alg refr eng sp k j i t la lo ->
  reads (latitude sp) k j i (Fin la) /\ reads (longitude sp) k j i (Fin lo) /\ -90 <= la <= 90 /\ -180 <= lo < 180 /\
  (exists dd, reads (declination sp) k j i (Fin dd) /\ -23.6 <= dd <= 23.6) /\
  (exists eot, reads (Sunpos.eot sp) k j i (Fin eot) /\ Rabs eot <= 20) /\
  (exists w, nth_error (sp_times sp) k = Some (Some w)) /\ (exists u, nth_error (sp_times_utc sp) k = Some (Some u)).
Proof.
  intros [(Hc & Hk & Ht) Hi].
  split; [exact (latitude_at (O := ExtOps E) _ _ _ _ _ _ _ _ _ Hc k j i _ _ Hi)|].
  split; [exact (longitude_at (O := ExtOps E) _ _ _ _ _ _ _ _ _ Hc k j i _ _ Hi)|].
  destruct (call_bounds E true uc times lat lon alg refr eng sp k Hc j i la lo Hi) as [Ba Bo].
  split; [exact Ba|]. split; [exact Bo|].
  split.
  { destruct (C24_declination_bound E uc times lat lon alg refr eng sp k t (conj Hc (conj Hk Ht))) as (d & Hd & Bd).
    exists (d * (180 / PI)). split; [apply (declination_raw E sp k j i); now rewrite deg_rad|]. apply Rabs_le_inv in Bd. lra. }
  split; [exact (C26_eot_bound E uc times lat lon alg refr eng sp k t (conj Hc (conj Hk Ht)))|].
  exact (call_valid_times (O := ExtOps E) _ _ _ _ _ _ _ _ _ k t Hc Hk).
Qed.
Lemma cell_dec uc times lat lon alg refr eng sp k j i t la lo dd :
  evaluated_cell E uc times lat lon alg refr eng sp k j i t la lo -> reads (declination sp) k j i (Fin dd) -> -23.6 <= dd <= 23.6.
Proof.
  intros Hcell Hd. destruct (cell_data _ _ _ _ _ _ _ _ _ _ _ _ _ _ Hcell) as (_ & _ & _ & _ & (dd' & Hd' & B) & _).
  assert (Ed := reads_fun _ _ _ _ _ _ Hd Hd'). injection Ed as ->. exact B.
Qed.
Lemma rad_range w : 0 <= w <= PI -> 0 <= w * (180 / PI) <= 180.
Proof.
  intros Hw. pose proof PI_RGT_0. assert (0 < 180 / PI) by (apply Rdiv_lt_0_compat; lra).
  assert (E1 : PI * (180 / PI) = 180) by (field; lra). set (q := 180 / PI) in *. clearbody q. split; nra.
Qed.

(** ** C37, C38: the sunrise angle.  (At a pole with the sun exactly on the equator, excluded here, the sun
    is on the horizon all day.) *)
Theorem C37_sunrise_exists : forall uc times lat lon alg refr eng sp k j i t la lo dd,
  evaluated_cell E uc times lat lon alg refr eng sp k j i t la lo ->
  reads (declination sp) k j i (Fin dd) -> (la <> 90 /\ la <> -90 \/ dd <> 0) ->
  exists a ar, sunrise sp "deg" = Ok (Angle a) /\ sunrise sp "rad" = Ok (Angle ar) /\
    (has_horizon_crossing (rad la) (rad dd) -> exists w, reads a k j i (Fin w) /\ reads ar k j i (Fin (rad w)) /\ 0 <= w <= 180) /\
    (~ has_horizon_crossing (rad la) (rad dd) -> reads a k j i NaN /\ reads ar k j i NaN).
Proof.
  intros uc times lat lon alg refr eng sp k j i t la lo dd Hcell Hd Hp.
  assert (Bd := cell_dec _ _ _ _ _ _ _ _ _ _ _ _ _ _ _ Hcell Hd).
  destruct (cell_data _ _ _ _ _ _ _ _ _ _ _ _ _ _ Hcell) as (Hla & _ & Bla & _).
  assert (Hr := sunrise_rad_at E sp k j i la dd Hla Hd Bla ltac:(lra)).
  do 2 eexists. split; [reflexivity|]. split; [reflexivity|].
  destruct (wsr_crossing la dd Bla ltac:(lra) Hp) as [[Ev Hn]|(w & Ev & Bw & U1 & U2 & _)]; rewrite Ev in Hr.
  - split; [intros; contradiction|]. intros _. split; [|exact Hr].
    exact (reads_map (degrees (Ops := ExtOps E)) _ k j i _ Hr).
  - split; [|intros Hn; exfalso; apply Hn; now exists w]. intros _. exists (w * (180 / PI)).
    split; [exact (reads_map (degrees (Ops := ExtOps E)) _ k j i _ Hr)|]. rewrite deg_rad. split; [exact Hr|]. now apply rad_range.
Qed.
Theorem C38_sunrise_horizon : forall uc times lat lon alg refr eng sp k j i t la lo dd a w,
  evaluated_cell E uc times lat lon alg refr eng sp k j i t la lo ->
  reads (declination sp) k j i (Fin dd) ->
  sunrise sp "deg" = Ok (Angle a) -> reads a k j i (Fin w) ->
  0 <= w <= 180 /\ sun_U (rad la) (rad dd) (rad w) = 0 /\ sun_U (rad la) (rad dd) (- rad w) = 0 /\
  (forall h, - PI <= h <= PI -> (0 < sun_U (rad la) (rad dd) h <-> Rabs h < rad w)).
Proof.
  intros uc times lat lon alg refr eng sp k j i t la lo dd a w Hcell Hd Ha Hw.
  assert (Bd := cell_dec _ _ _ _ _ _ _ _ _ _ _ _ _ _ _ Hcell Hd).
  destruct (cell_data _ _ _ _ _ _ _ _ _ _ _ _ _ _ Hcell) as (Hla & _ & Bla & _).
  assert (Hr := sunrise_rad_at E sp k j i la dd Hla Hd Bla ltac:(lra)).
  injection Ha as <-. assert (Hdg := reads_map (degrees (Ops := ExtOps E)) _ k j i _ Hr).
  assert (Ew := reads_fun _ _ _ _ _ _ Hw Hdg). clear Hw Hdg.
  assert (Hp : la <> 90 /\ la <> -90).
  { unfold wsr_value in Ew. split; intros ->; destruct (Rlt_dec (-90) _); try (discriminate Ew); destruct (Rlt_dec _ 90); try (discriminate Ew); lra. }
  destruct (wsr_crossing la dd Bla ltac:(lra) (or_introl Hp)) as [[Ev Hn]|(x & Ev & Bx & U1 & U2 & U3)]; rewrite Ev in Ew; [discriminate Ew|].
  cbn in Ew. injection Ew as ->. rewrite deg_rad. split; [now apply rad_range|]. auto.
Qed.

(** ** C39: daylight length *)
Lemma daylight_value uc times lat lon alg refr eng sp k j i t la lo dd dl :
  evaluated_cell E uc times lat lon alg refr eng sp k j i t la lo ->
  reads (declination sp) k j i (Fin dd) -> reads (daylight_length sp) k j i (Fin dl) ->
  -90 < la < 90 /\ -1 <= - tan (rad dd) * tan (rad la) <= 1 /\ dl = 2 / 15 * (acos (- tan (rad dd) * tan (rad la)) * (180 / PI)).
Proof.
  intros Hcell Hd Hdl.
  assert (Bd := cell_dec _ _ _ _ _ _ _ _ _ _ _ _ _ _ _ Hcell Hd).
  destruct (cell_data _ _ _ _ _ _ _ _ _ _ _ _ _ _ Hcell) as (Hla & _ & Bla & _).
  assert (Hr := sunrise_rad_at E sp k j i la dd Hla Hd Bla ltac:(lra)).
  assert (Hdg := reads_map (degrees (Ops := ExtOps E)) _ k j i _ Hr).
  unfold wsr_value in Hdg.
  assert (HN : reads (sunrise_deg (O := ExtOps E) sp) k j i NaN -> False).
  { intros H. assert (H1 := reads_map (mul (Ops := ExtOps E) (div (Ops := ExtOps E) (lit (Ops := ExtOps E) 2.0) (lit (Ops := ExtOps E) 15.0))) _ k j i _ H).
    assert (H2 := reads_fun _ _ _ _ _ _ Hdl H1). ext_ops. rewrite nan_mul_r in H2. discriminate H2. }
  destruct (Rlt_dec (-90) la) as [L1|L1]; [destruct (Rlt_dec la 90) as [L2|L2]|]; [|now elim (HN Hdg)..].
  destruct (Rle_dec (-1) (- tan (rad dd) * tan (rad la))) as [A|A]; [destruct (Rle_dec (- tan (rad dd) * tan (rad la)) 1) as [B|B]|]; [|now elim (HN Hdg)..].
  split; [lra|]. split; [lra|]. assert (H3 := reads_fun _ _ _ _ _ _ Hdl (daylight_at E sp k j i _ Hdg)). now injection H3 as ->.
Qed.
Theorem C39_daylight_range : forall uc times lat lon alg refr eng sp k j i t la lo dd dl,
  evaluated_cell E uc times lat lon alg refr eng sp k j i t la lo ->
  reads (declination sp) k j i (Fin dd) -> reads (daylight_length sp) k j i (Fin dl) ->
  0 <= dl <= 24 /\ (la = 0 \/ dd = 0 -> dl = 12).
Proof.
  intros uc times lat lon alg refr eng sp k j i t la lo dd dl Hcell Hd Hdl.
  destruct (daylight_value _ _ _ _ _ _ _ _ _ _ _ _ _ _ _ _ Hcell Hd Hdl) as (_ & _ & ->). split.
  - assert (H := rad_range _ (acos_bound (- tan (rad dd) * tan (rad la)))). lra.
  - intros H0. replace (- tan (rad dd) * tan (rad la)) with 0.
    + rewrite acos_0. field. apply PI_neq.
    + destruct H0 as [-> | ->]; unfold rad; rewrite Rmult_0_l, tan_0; ring.
Qed.
(** Opposite latitudes under the same declination share the 24 hours; longer days go with higher
    declination in the northern hemisphere (and shorter ones in the southern). *)
Theorem C39_daylight_opposite : forall uc times lat lon alg refr eng sp k j i t la lo dd dl
    uc' times' lat' lon' alg' refr' eng' sp' k' j' i' t' la' lo' dd' dl',
  evaluated_cell E uc times lat lon alg refr eng sp k j i t la lo ->
  reads (declination sp) k j i (Fin dd) -> reads (daylight_length sp) k j i (Fin dl) ->
  evaluated_cell E uc' times' lat' lon' alg' refr' eng' sp' k' j' i' t' la' lo' ->
  reads (declination sp') k' j' i' (Fin dd') -> reads (daylight_length sp') k' j' i' (Fin dl') ->
  (la' = - la -> dd' = dd -> dl + dl' = 24) /\ (la' = la -> 0 <= la -> dd <= dd' -> dl <= dl') /\ (la' = la -> la <= 0 -> dd <= dd' -> dl' <= dl).
Proof.
  intros uc times lat lon alg refr eng sp k j i t la lo dd dl uc' times' lat' lon' alg' refr' eng' sp' k' j' i' t' la' lo' dd' dl' Hcell Hd Hdl Hcell' Hd' Hdl'.
  destruct (daylight_value _ _ _ _ _ _ _ _ _ _ _ _ _ _ _ _ Hcell Hd Hdl) as (Bl & Bx & ->).
  destruct (daylight_value _ _ _ _ _ _ _ _ _ _ _ _ _ _ _ _ Hcell' Hd' Hdl') as (Bl' & Bx' & ->).
  assert (Bd := cell_dec _ _ _ _ _ _ _ _ _ _ _ _ _ _ _ Hcell Hd). assert (Bd' := cell_dec _ _ _ _ _ _ _ _ _ _ _ _ _ _ _ Hcell' Hd').
  assert (HP := PI_RGT_0). assert (Hq : 0 < 180 / PI) by (apply Rdiv_lt_0_compat; lra).
  assert (Hmono : forall x y, -1 <= x <= 1 -> -1 <= y <= 1 -> x <= y -> acos y <= acos x).
  { intros x y Hx Hy Hxy. apply Rnot_lt_le. intros Hlt. pose proof (acos_bound x). pose proof (acos_bound y).
    assert (cos (acos y) < cos (acos x)) by (apply cos_decreasing_1; lra). rewrite !cos_acos in H1 by lra. lra. }
  assert (Htan : forall x y, -90 < x < 90 -> -90 < y < 90 -> x <= y -> tan (rad x) <= tan (rad y)).
  { intros x y Hx Hy Hxy. destruct (Req_dec x y) as [->|]; [lra|]. left. apply tan_increasing; unfold rad; nra. }
  assert (Hle : dd <= dd' -> tan (rad dd) <= tan (rad dd')) by (intros; apply Htan; lra).
  repeat split.
  - intros -> ->. replace (rad (- la)) with (- rad la) by (unfold rad; ring). rewrite tan_neg.
    replace (- tan (rad dd) * - tan (rad la)) with (- (- tan (rad dd) * tan (rad la))) by ring. rewrite acos_opp. field. lra.
  - intros -> Hla Hdd. specialize (Hle Hdd). assert (0 <= tan (rad la)).
    { assert (H0 : tan (rad 0) = 0) by (unfold rad; rewrite Rmult_0_l; apply tan_0). rewrite <- H0. apply Htan; lra. }
    assert (Hm := Hmono _ _ Bx' Bx ltac:(nra)). nra.
  - intros -> Hla Hdd. specialize (Hle Hdd). assert (tan (rad la) <= 0).
    { assert (H0 : tan (rad 0) = 0) by (unfold rad; rewrite Rmult_0_l; apply tan_0). rewrite <- H0. apply Htan; lra. }
    assert (Hm := Hmono _ _ Bx Bx' ltac:(nra)). nra.
Qed.

(** ** C42: true solar time *)
Lemma Ztrunc_near x : Rabs (IZR (Ztrunc x) - x) < 1.
Proof.
  destruct (Rle_or_lt 0 x) as [H|H].
  - rewrite Ztrunc_floor by exact H. pose proof (Zfloor_lb x). pose proof (Zfloor_ub x). apply Rabs_def1; lra.
  - rewrite Ztrunc_ceil by lra. pose proof (Zceil_lb x). pose proof (Zceil_ub x). apply Rabs_def1; lra.
Qed.
Theorem C42_true_solar_time : forall uc times lat lon alg refr eng sp k j i t la lo eot,
  evaluated_cell E uc times lat lon alg refr eng sp k j i t la lo ->
  reads (Sunpos.eot sp) k j i (Fin eot) ->
  exists u tst, nth_error (sp_times_utc sp) k = Some (Some u) /\ reads (true_solar_time sp) k j i (Some tst) /\
    Rabs (IZR (tst - u) - (4 * lo + eot) * 60000000000) < 1.
Proof.
  intros uc times lat lon alg refr eng sp k j i t la lo eot Hcell He.
  destruct (cell_data _ _ _ _ _ _ _ _ _ _ _ _ _ _ Hcell) as (_ & Hlo & _ & _ & _ & _ & _ & (u & Hu)).
  exists u, (Ztrunc (IZR u + offset_ns eot lo)). split; [exact Hu|]. split; [exact (tst_at E sp k j i nf u eot lo Hu He Hlo)|].
  assert (H := Ztrunc_near (IZR u + offset_ns eot lo)). rewrite minus_IZR. unfold offset_ns in *.
  replace (IZR (Ztrunc (IZR u + (eot + 4 * lo) * 60000000000)) - IZR u - (4 * lo + eot) * 60000000000)
    with (IZR (Ztrunc (IZR u + (eot + 4 * lo) * 60000000000)) - (IZR u + (eot + 4 * lo) * 60000000000)) by ring. exact H.
Qed.

(** ** C40: sunrise and sunset times, to the nanosecond *)
Definition instant_of (r : res (angle_or_time ext)) (k j i : nat) (x : option Z) : Prop :=
  exists a, r = Ok (Instant a) /\ reads a k j i x.
Theorem C40_sunrise_sunset_times : forall uc times lat lon alg refr eng sp k j i t la lo dl,
  evaluated_cell E uc times lat lon alg refr eng sp k j i t la lo ->
  reads (daylight_length sp) k j i (Fin dl) ->
  exists u w tst rt ru rl st su sl,
    nth_error (sp_times_utc sp) k = Some (Some u) /\ nth_error (sp_times sp) k = Some (Some w) /\
    reads (true_solar_time sp) k j i (Some tst) /\
    instant_of (sunrise sp "tst") k j i (Some rt) /\ instant_of (sunset sp "tst") k j i (Some st) /\
    instant_of (sunrise sp "utc") k j i (Some ru) /\ instant_of (sunset sp "utc") k j i (Some su) /\
    instant_of (sunrise sp "local") k j i (Some rl) /\ instant_of (sunset sp "local") k j i (Some sl) /\
    Rabs (IZR (st - rt) - dl * 3600000000000) < 1 /\ (su - ru = st - rt)%Z /\ (sl - rl = st - rt)%Z /\
    Rabs (IZR (rt - ru) - IZR (tst - u)) < 2 /\ (rl - ru = w - u)%Z /\
    Rabs (IZR rt - (IZR (midnight_of tst) + (12 - dl / 2) * 3600000000000)) < 1 /\
    Rabs (IZR st - (IZR (midnight_of tst) + (12 + dl / 2) * 3600000000000)) < 2.
Proof.
  intros uc times lat lon alg refr eng sp k j i t la lo dl Hcell Hdl.
  destruct (cell_data _ _ _ _ _ _ _ _ _ _ _ _ _ _ Hcell) as (_ & Hlo & _ & _ & (dd & Hd & _) & (eot & He & _) & (w & Hw) & (u & Hu)).
  assert (Hs : reads (sunrise_deg (O := ExtOps E) sp) k j i (Fin (dl * (15 / 2)))).
  { assert (Hdl' := Hdl). apply reads_map_inv in Hdl' as (x & Hx & Ex). ext_ops. rewrite fin_div in Ex by q2r.
    destruct x as [| | |r]; try (cbn in Ex; destruct (Rlt_dec _ _) in Ex; [discriminate Ex|destruct (Rlt_dec _ _) in Ex; discriminate Ex]); try discriminate Ex.
    rewrite fin_mul in Ex. injection Ex as ->. replace (Q2R 2.0 / Q2R 15.0 * r * (15 / 2)) with r by (q2; field). exact Hx. }
  set (ww := dl * (15 / 2)) in *.
  assert (Dl : 2 / 15 * ww = dl) by (unfold ww; field).
  assert (Ht := tst_at E sp k j i nf u eot lo Hu He Hlo).
  assert (Rt := sunrise_tst_at E sp k j i nf u eot lo ww Hu He Hlo Hs).
  assert (Ru := sunrise_utc_at E sp k j i nf u eot lo ww Hu He Hlo Hs).
  assert (Rl := sunrise_local_at E sp k j i nf u w eot lo ww Hu Hw He Hlo Hs).
  assert (Ln := length_ns_at E sp k j i ww Hs). rewrite Dl in Ln.
  set (tst := Ztrunc (IZR u + offset_ns eot lo)) in *.
  set (o := Ztrunc (offset_ns eot lo)) in *. set (len := Ztrunc (dl * 3600000000000)) in *.
  set (rt := (Ztrunc ((12 - ww / 15) * 3600000000000) + midnight_of tst)%Z) in *.
  exists u, w, tst, rt, (rt - o)%Z, (rt - o + (w - u))%Z, (rt + len)%Z, (rt - o + len)%Z, (rt - o + (w - u) + len)%Z.
  assert (S1 := reads_map2 nat_add _ _ k j i _ _ Rt Ln). assert (S2 := reads_map2 nat_add _ _ k j i _ _ Ru Ln). assert (S3 := reads_map2 nat_add _ _ k j i _ _ Rl Ln).
  repeat (split; [first [assumption | eexists; split; [reflexivity|assumption]]|]).
  assert (N1 := Ztrunc_near (dl * 3600000000000)). fold len in N1.
  assert (N2 := Ztrunc_near (offset_ns eot lo)). fold o in N2.
  assert (N3 := Ztrunc_near (IZR u + offset_ns eot lo)). fold tst in N3.
  assert (N4 := Ztrunc_near ((12 - ww / 15) * 3600000000000)).
  replace ((12 - ww / 15) * 3600000000000) with ((12 - dl / 2) * 3600000000000) in * by (unfold ww; field).
  assert (Ert : IZR rt = IZR (Ztrunc ((12 - dl / 2) * 3600000000000)) + IZR (midnight_of tst)) by (unfold rt; rewrite plus_IZR; do 3 f_equal; unfold ww; field).
  apply Rabs_def2 in N1, N2, N3, N4.
  split; [replace (rt + len - rt)%Z with len by lia; apply Rabs_def1; lra|].
  split; [lia|]. split; [lia|].
  split; [replace (rt - (rt - o))%Z with o by lia; rewrite minus_IZR; apply Rabs_def1; lra|].
  split; [lia|]. split; [rewrite Ert; apply Rabs_def1; lra|].
  rewrite plus_IZR, Ert. apply Rabs_def1; lra.
Qed.
(** Polar day or night: no sunrise or sunset time. *)
Theorem C40_polar : forall uc times lat lon alg refr eng sp k j i t la lo units,
  evaluated_cell E uc times lat lon alg refr eng sp k j i t la lo ->
  reads (daylight_length sp) k j i NaN -> In units ["tst"; "utc"; "local"]%string ->
  instant_of (sunrise sp units) k j i None /\ instant_of (sunset sp units) k j i None.
Proof.
  intros uc times lat lon alg refr eng sp k j i t la lo units Hcell Hdl Hin.
  destruct (cell_data _ _ _ _ _ _ _ _ _ _ _ _ _ _ Hcell) as (Hla & Hlo & Bla & _ & (dd & Hd & Bd) & (eot & He & _) & (w & Hw) & (u & Hu)).
  assert (Hr : reads (sunrise_rad (O := ExtOps E) sp) k j i NaN).
  { assert (Hr := sunrise_rad_at E sp k j i la dd Hla Hd Bla ltac:(lra)). destruct (wsr_value la dd) as [| | |x] eqn:Ev; [exact Hr| | |]; exfalso.
    1, 2: unfold wsr_value in Ev; repeat (destruct (Rlt_dec _ _) in Ev; try discriminate Ev); repeat (destruct (Rle_dec _ _) in Ev; try discriminate Ev).
    assert (Hdg := reads_map (degrees (Ops := ExtOps E)) _ k j i _ Hr). assert (H := daylight_at E sp k j i _ Hdg).
    assert (C := reads_fun _ _ _ _ _ _ Hdl H). discriminate C. }
  assert (Ht := tst_at E sp k j i nf u eot lo Hu He Hlo).
  assert (R1 := sunrise_nat E sp k j i nf _ Hr Ht).
  assert (R2 := reads_map2 nat_sub _ _ k j i _ _ R1 (minutes_at E sp k j i eot lo He Hlo)).
  assert (R3 : reads (sunrise_local (O := ExtOps E) nf sp) k j i None).
  { unfold sunrise_local. assert (H : reads (DA [DTime] (fun e => match nth_error (sp_times sp) (e DTime), nth_error (sp_times_utc sp) (e DTime) with
                                          | Some w, Some u => Some (nat_sub w u) | _, _ => None end)) k j i (Some (w - u)%Z)).
    { unfold reads. cbn [da_at at_cell]. now rewrite Hw, Hu. }
    exact (reads_map2 nat_add _ _ k j i _ _ R2 H). }
  assert (L := reads_map (hours_to_ns (O := ExtOps E)) _ k j i _ Hdl).
  destruct Hin as [<-|[<-|[<-|[]]]]; (split; [eexists; split; [reflexivity|assumption]|]).
  - eexists. split; [reflexivity|]. exact (reads_map2 nat_add _ _ k j i _ _ R1 L).
  - eexists. split; [reflexivity|]. exact (reads_map2 nat_add _ _ k j i _ _ R2 L).
  - eexists. split; [reflexivity|]. exact (reads_map2 nat_add _ _ k j i _ _ R3 L).
Qed.

(** ** C43, C44: incidence *)
Theorem C43_incidence : forall uc times lat lon alg refr eng sp k j i t la lo dd,
  evaluated_cell E uc times lat lon alg refr eng sp k j i t la lo ->
  reads (declination sp) k j i (Fin dd) ->
  exists tst, reads (true_solar_time sp) k j i (Some tst) /\ forall slope az, exists c,
    reads (incidence sp (Fin slope) (Fin az)) k j i (Fin c) /\
    c = cos_incidence (rad la) (rad dd) (hour_angle tst) (rad slope) (rad az) /\ -1 <= c <= 1 /\
    (* one exactly for a surface whose normal is the sun vector *)
    (c = 1 <-> sun_S (rad la) (rad dd) (hour_angle tst) = normal_S (rad slope) (rad az) /\
               sun_W (rad la) (rad dd) (hour_angle tst) = normal_W (rad slope) (rad az) /\
               sun_U (rad la) (rad dd) (hour_angle tst) = normal_U (rad slope) (rad az)) /\
    (* periodic, and reversed when the surface is turned over *)
    (forall n m : Z, reads (incidence sp (Fin (slope + 360 * IZR n)) (Fin (az + 360 * IZR m))) k j i (Fin c)) /\
    reads (incidence sp (Fin (180 - slope)) (Fin (az + 180))) k j i (Fin (- c)).
Proof.
  intros uc times lat lon alg refr eng sp k j i t la lo dd Hcell Hd.
  destruct (cell_data _ _ _ _ _ _ _ _ _ _ _ _ _ _ Hcell) as (Hla & Hlo & Bla & _ & _ & (eot & He & _) & _ & (u & Hu)).
  exists (Ztrunc (IZR u + offset_ns eot lo)). split; [exact (tst_at E sp k j i nf u eot lo Hu He Hlo)|].
  assert (HI := incidence_at E sp k j i nf u eot lo Hu He Hlo la dd Hla Hd). cbv zeta in HI.
  set (h := hour_angle (Ztrunc (IZR u + offset_ns eot lo))) in *. clearbody h.
  intros slope az. exists (cos_incidence (rad la) (rad dd) h (rad slope) (rad az)).
  split; [apply HI|]. split; [reflexivity|]. split; [apply incidence_bound|]. split; [apply incidence_facing|].
  assert (Hn : forall x (n : Z), rad (x + 360 * IZR n) = rad x - 2 * PI * IZR (- n)) by (intros; unfold rad; rewrite opp_IZR; field).
  split.
  - intros n m. specialize (HI (slope + 360 * IZR n) (az + 360 * IZR m)).
    replace (cos_incidence (rad la) (rad dd) h (rad slope) (rad az))
      with (cos_incidence (rad la) (rad dd) h (rad (slope + 360 * IZR n)) (rad (az + 360 * IZR m))); [exact HI|].
    unfold cos_incidence, normal_S, normal_W, normal_U. now rewrite !Hn, !cos_2kpi, !sin_2kpi.
  - specialize (HI (180 - slope) (az + 180)).
    replace (- cos_incidence (rad la) (rad dd) h (rad slope) (rad az))
      with (cos_incidence (rad la) (rad dd) h (rad (180 - slope)) (rad (az + 180))); [exact HI|].
    unfold cos_incidence, normal_S, normal_W, normal_U.
    replace (rad (180 - slope)) with (PI - rad slope) by (unfold rad; field). replace (rad (az + 180)) with (rad az + PI) by (unfold rad; field).
    rewrite neg_cos, neg_sin, sin_PI_x, Rtrigo_facts.cos_pi_minus. ring.
Qed.
(** A surface whose slope is the sun's zenith and whose azimuth is opposite in sign to the sun's azimuth (surface
    azimuths are east positive, sun azimuths west positive) faces the sun. *)
Theorem C43_facing : forall uc times lat lon alg refr eng sp k j i t la lo dd,
  evaluated_cell E uc times lat lon alg refr eng sp k j i t la lo ->
  reads (declination sp) k j i (Fin dd) ->
  exists tst, reads (true_solar_time sp) k j i (Some tst) /\ forall zd ad,
    is_zenith (rad zd) (rad la) (rad dd) (hour_angle tst) -> is_azimuth (rad ad) (rad la) (rad dd) (hour_angle tst) ->
    reads (incidence sp (Fin zd) (Fin (- ad))) k j i (Fin 1).
Proof.
  intros uc times lat lon alg refr eng sp k j i t la lo dd Hcell Hd.
  destruct (cell_data _ _ _ _ _ _ _ _ _ _ _ _ _ _ Hcell) as (Hla & Hlo & Bla & _ & _ & (eot & He & _) & _ & (u & Hu)).
  exists (Ztrunc (IZR u + offset_ns eot lo)). split; [exact (tst_at E sp k j i nf u eot lo Hu He Hlo)|].
  intros zd ad Hz Ha. assert (HI := incidence_at E sp k j i nf u eot lo Hu He Hlo la dd Hla Hd zd (- ad)). cbv zeta in HI.
  replace (rad (- ad)) with (- rad ad) in HI by (unfold rad; ring). now rewrite (incidence_sun _ _ _ _ _ Hz Ha) in HI.
Qed.
Theorem C44_horizontal : forall uc times lat lon alg refr eng sp k j i t la lo dd,
  evaluated_cell E uc times lat lon alg refr eng sp k j i t la lo ->
  reads (declination sp) k j i (Fin dd) ->
  exists tst, reads (true_solar_time sp) k j i (Some tst) /\ forall az,
    reads (incidence sp (Fin 0) (Fin az)) k j i (Fin (sun_U (rad la) (rad dd) (hour_angle tst))).
Proof.
  intros uc times lat lon alg refr eng sp k j i t la lo dd Hcell Hd.
  destruct (C43_incidence _ _ _ _ _ _ _ _ _ _ _ _ _ _ _ Hcell Hd) as (tst & Ht & H). exists tst. split; [exact Ht|].
  intros az. destruct (H 0 az) as (c & Hc & Ec & _).
  replace (sun_U (rad la) (rad dd) (hour_angle tst)) with c; [exact Hc|]. rewrite Ec. unfold cos_incidence, normal_S, normal_W, normal_U.
  replace (rad 0) with 0 by (unfold rad; ring). rewrite sin_0, cos_0. ring.
Qed.

(** ... and it agrees with the cosine of the returned zenith (no refraction, true UTC times) within 5e-4. *)
Lemma tst_hour_angle t lo eot : near_turn (hour_angle (Ztrunc (IZR t + offset_ns eot lo))) (solar_hour_angle t lo eot) 0.000073.
Proof.
  set (tst := Ztrunc (IZR t + offset_ns eot lo)). assert (Hn := Ztrunc_near (IZR t + offset_ns eot lo)). fold tst in Hn.
  set (D := 86400000000000%Z).
  assert (E1 : IZR (tst mod D) = IZR tst - 86400000000000 * IZR (tst / D)).
  { replace (tst mod D)%Z with (tst - D * (tst / D))%Z by (pose proof (Z.div_mod tst D); lia). now rewrite minus_IZR, mult_IZR. }
  set (sec := (t / 1000000000)%Z).
  assert (E2 : IZR (sec mod 86400) = IZR sec - 86400 * IZR (sec / 86400)).
  { replace (sec mod 86400)%Z with (sec - 86400 * (sec / 86400))%Z by (pose proof (Z.div_mod sec 86400); lia). now rewrite minus_IZR, mult_IZR. }
  assert (E3 : 0 <= IZR t - 1000000000 * IZR sec < 1000000000).
  { assert (B := Z.mod_pos_bound t 1000000000 ltac:(lia)). assert (E0 := Z.div_mod t 1000000000 ltac:(lia)). fold sec in E0.
    replace (IZR t - 1000000000 * IZR sec) with (IZR (t mod 1000000000)) by (rewrite E0 at 2; rewrite plus_IZR, mult_IZR; ring).
    split; [apply IZR_le|apply IZR_lt]; lia. }
  exists (- (tst / D) + sec / 86400)%Z.
  unfold hour_angle, solar_hour_angle, day_hours, utc_hours, rad. fold D sec. rewrite E1, E2, plus_IZR, opp_IZR.
  set (A := IZR tst) in *. set (B := IZR (tst / D)) in *. set (C := IZR sec) in *. set (G := IZR (sec / 86400)) in *. set (T := IZR t) in *.
  replace (15 * ((A - 86400000000000 * B) / 3600000000000 - 12) * (PI / 180) -
    (15 * ((C - 86400 * G) / 3600 - 12) + lo + eot / 4) * (PI / 180) - 2 * PI * (- B + G))
    with ((A - (T + offset_ns eot lo) + (T - 1000000000 * C)) * (15 / 3600000000000) * (PI / 180)) by (unfold offset_ns; field).
  apply Rabs_def2 in Hn. set (x := A - (T + offset_ns eot lo) + (T - 1000000000 * C)) in *.
  assert (Bx : -1 <= x <= 1000000001) by (unfold x; lra). clearbody x. interval.
Qed.
Theorem C44_horizontal_is_cosz : forall uc times lat lon alg refr eng sp k j i t la lo az,
  ideal E \/ alg = "nrel"%string -> is_True refr = false -> faithful_times times ->
  evaluated_cell E uc times lat lon alg refr eng sp k j i t la lo ->
  exists c c', reads (incidence sp (Fin 0) (Fin az)) k j i (Fin c) /\ reads (Sunpos.cosz (O := ExtOps E) sp) k j i (Fin c') /\
    Rabs (c - c') <= 0.0006 /\ (alg <> "psa"%string -> Rabs (c - c') <= 0.00025).
Proof.
  intros uc times lat lon alg refr eng sp k j i t la lo az HE Hr Hf Hcell.
  assert (HX : exact_for E alg eng) by (unfold exact_for; tauto).
  destruct (C21_position_geometric E _ _ _ _ _ _ _ _ _ _ _ _ _ _ HX Hr Hcell) as (d & eot & ecf & h & z & a & Hd & He & Hc & Hz & Ha & Hh & Hs).
  assert (Hu : forall x, used E alg x = x).
  { intros x. unfold used. destruct (String.eqb_spec alg "nrel"); [reflexivity|]. destruct HE as [HE|]; [apply HE|contradiction]. }
  rewrite !Hu in *. clear Hu.
  destruct (C25_ecf_bound E _ _ _ _ _ _ _ _ _ _ (proj1 Hcell)) as (ecf' & Hc' & Bc). unfold value in *. rewrite Hc in Hc'. injection Hc' as <-.
  assert (Hcl := sky_close alg eng _ d h ecf z a Bc Hs).
  destruct (cell_data _ _ _ _ _ _ _ _ _ _ _ _ _ _ Hcell) as (Hla & Hlo & Bla & _ & _ & _ & _ & (u & Hut)).
  destruct Hcell as [(Hcall & Hk & Ht) Hi].
  assert (u = t).
  { rewrite (C14_times_utc_partial ext (ExtOps E) true uc times lat lon alg refr eng sp Hf Hcall) in Hut. rewrite Hk in Hut. now injection Hut. }
  subst u.
  assert (Hdd : reads (declination sp) k j i (Fin (d * (180 / PI)))) by (apply (declination_raw E sp k j i); unfold value; now rewrite deg_rad).
  assert (HI := incidence_at E sp k j i nf t eot lo Hut He Hlo la _ Hla Hdd 0 az). cbv zeta in HI. rewrite deg_rad in HI.
  assert (Hzz : reads (zenith sp) k j i (Fin (z * (180 / PI)))) by (apply (zenith_raw E uc _ _ _ _ _ _ sp k j i Hcall); unfold value; now rewrite deg_rad).
  assert (Hcz := cosz_at E sp k j i _ Hzz). rewrite deg_rad in Hcz.
  eexists. exists (cos z). split; [exact HI|]. split; [exact Hcz|].
  set (tst := Ztrunc _). assert (Hta := tst_hour_angle t lo eot). fold tst in Hta.
  assert (Ec : cos_incidence (rad la) d (hour_angle tst) (rad 0) (rad az) = sun_U (rad la) d (hour_angle tst)).
  { unfold cos_incidence, normal_S, normal_W, normal_U. replace (rad 0) with 0 by (unfold rad; ring). rewrite sin_0, cos_0. ring. }
  rewrite Ec. fold (rad la) in Hcl.
  assert (H1 := sun_U_turn (rad la) d _ _ _ Hta). assert (H2 := sun_U_turn (rad la) d _ _ _ Hh).
  assert (Htol : hour_tol alg <= 0.00037 /\ (alg <> "psa"%string -> hour_tol alg <= 0.00002)).
  { unfold hour_tol. destruct (String.eqb_spec alg "psa"); [split; [lra|contradiction]|]. destruct (String.eqb alg "iqbal"); lra. }
  destruct Htol as [T1 T2]. apply Rabs_le_inv in H1, H2, Hcl. split; [apply Rabs_le; lra|]. intros Hn. specialize (T2 Hn). apply Rabs_le. lra.
Qed.

(** ** Sunrise exists every day below 66.4 degrees of latitude; and examples. *)
Theorem C37_midlatitudes : forall uc times lat lon alg refr eng sp k j i t la lo,
  evaluated_cell E uc times lat lon alg refr eng sp k j i t la lo -> -66.4 <= la <= 66.4 ->
  exists a w dl, sunrise sp "deg" = Ok (Angle a) /\ reads a k j i (Fin w) /\ reads (daylight_length sp) k j i (Fin dl) /\ dl = 2 / 15 * w.
Proof.
  intros uc times lat lon alg refr eng sp k j i t la lo Hcell B.
  destruct (cell_data _ _ _ _ _ _ _ _ _ _ _ _ _ _ Hcell) as (Hla & Hlo & Bla & _ & (dd & Hd & Bd) & _).
  destruct (C37_sunrise_exists _ _ _ _ _ _ _ _ _ _ _ _ _ _ _ Hcell Hd ltac:(left; lra)) as (a & ar & Ha & _ & H & _).
  assert (Hx : has_horizon_crossing (rad la) (rad dd)).
  { assert (C1 := cos_lat_pos la ltac:(lra)). assert (C2 := cos_lat_pos dd ltac:(lra)).
    assert (Hm : forall x, -66.4 <= x <= 66.4 -> cos (rad 66.4) <= cos (rad x)).
    { intros x Hx. pose proof PI_RGT_0. destruct (Rle_or_lt 0 x).
      - apply cos_decr_1; unfold rad; nra.
      - rewrite <- (cos_neg (rad x)). apply cos_decr_1; unfold rad; nra. }
    assert (Hs : forall x y, -y <= x <= y -> 0 <= y <= 90 -> - sin (rad y) <= sin (rad x) <= sin (rad y)).
    { intros x y Hx Hy. pose proof PI_RGT_0. split; [rewrite <- sin_neg|]; apply sin_incr_1; unfold rad; nra. }
    assert (Hm' : cos (rad 23.6) <= cos (rad dd)).
    { pose proof PI_RGT_0. destruct (Rle_or_lt 0 dd).
      - apply cos_decr_1; unfold rad; nra.
      - rewrite <- (cos_neg (rad dd)). apply cos_decr_1; unfold rad; nra. }
    assert (S1 := Hs la 66.4 ltac:(lra) ltac:(lra)). assert (S2 := Hs dd 23.6 ltac:(lra) ltac:(lra)). specialize (Hm la B).
    assert (K1 : sin (rad 66.4) = cos (rad 23.6)) by (rewrite <- cos_shift; f_equal; unfold rad; lra).
    assert (K2 : sin (rad 23.6) = cos (rad 66.4)) by (rewrite <- cos_shift; f_equal; unfold rad; lra).
    rewrite K1 in S1. rewrite K2 in S2.
    assert (0 < cos (rad 66.4)) by (apply cos_lat_pos; lra). assert (0 < cos (rad 23.6)) by (apply cos_lat_pos; lra).
    assert (Hp : - (cos (rad la) * cos (rad dd)) <= sin (rad la) * sin (rad dd) <= cos (rad la) * cos (rad dd)).
    { assert (cos (rad 66.4) * cos (rad 23.6) <= cos (rad la) * cos (rad dd)) by (apply Rmult_le_compat; lra).
      assert (Q : Rabs (sin (rad la) * sin (rad dd)) <= cos (rad 23.6) * cos (rad 66.4)) by (apply Rabs_prod_le; apply Rabs_le; assumption).
      apply Rabs_le_inv in Q. lra. }
    exists (acos (- tan (rad dd) * tan (rad la))). rewrite sun_U_tan by lra. rewrite cos_acos; [ring|].
    assert (Et : tan (rad dd) * tan (rad la) = sin (rad la) * sin (rad dd) / (cos (rad la) * cos (rad dd))) by (unfold tan; field; lra).
    assert (Pc : 0 < cos (rad la) * cos (rad dd)) by nra.
    assert (-1 <= tan (rad dd) * tan (rad la) <= 1).
    { rewrite Et. split; apply Rmult_le_reg_r with (cos (rad la) * cos (rad dd)); try exact Pc; unfold Rdiv; rewrite ?Rmult_assoc, Rinv_l by lra; lra. }
    lra. }
  destruct (H Hx) as (w & Hw & _ & _). injection Ha as <-. exists (sunrise_deg (O := ExtOps E) sp), w, (2 / 15 * w).
  split; [reflexivity|]. split; [exact Hw|]. split; [exact (daylight_at E sp k j i w Hw)|reflexivity].
Qed.
End Day.

(** ** C45: dimensions (any arithmetic).  On a grid, quantities that do not depend on the latitude or on the
    longitude lack that dimension. *)
Section Dims.
Context {F : Type} {O : Ops F} (nf : F) (sp : Sunpos F).
Theorem C45_dims_partial : forall ISC am_correction parameterization e am,
  eth sp ISC am_correction = Ok e -> airmass sp parameterization = Ok am ->
  (forall a, In a [zenith sp; azimuth sp; elevation sp; cosz sp; sza sp; saa sp; e; am] -> da_dims a = doc_dims (sp_usecase sp)) /\
  (forall a, In a [ecf sp; eot sp; declination sp; dec sp] -> da_dims a = [DTime]) /\
  (forall a, In a [sunrise_tst nf sp; sunrise_utc nf sp; sunrise_local nf sp] -> da_dims a = doc_dims (sp_usecase sp)) /\
  (forall units a, sunset nf sp units = Ok (Instant a) -> da_dims a = doc_dims (sp_usecase sp)) /\
  (forall a, In a [sunrise_rad sp; sunrise_deg sp; daylight_length sp] ->
     da_dims a = match sp_usecase sp with Sites => [DTime; DLocation] | RegularGrid => [DTime; DLatitude] | Transect => [DTime] end) /\
  da_dims (true_solar_time nf sp) = match sp_usecase sp with Sites => [DTime; DLocation] | RegularGrid => [DTime; DLongitude] | Transect => [DTime] end.
Proof.
  intros ISC amc par e am He Ham.
  assert (Dz : da_dims (zenith sp) = doc_dims (sp_usecase sp)) by (unfold zenith, raw_zenith, dims_zenith; cbn; now destruct (sp_usecase sp)).
  assert (Dam : forall p x, airmass sp p = Ok x -> da_dims x = doc_dims (sp_usecase sp)).
  { intros p x. unfold airmass. destruct (rec_airmass p fnan fnan); [|discriminate]. intros [= <-]. cbn. unfold dims_zenith.
    destruct (sp_usecase sp); reflexivity. }
  assert (De : da_dims e = doc_dims (sp_usecase sp)).
  { unfold eth in He. revert He. destruct (amc =? "none")%string; [intros [= <-]; cbn; unfold dims_zenith; now destruct (sp_usecase sp)|].
    destruct (amc =? "perez_1990")%string.
    { destruct (airmass sp _) as [m|] eqn:Em; [|discriminate]. apply Dam in Em. cbn [rbind]. intros [= <-]. cbn. rewrite ?Em. unfold dims_zenith. now destruct (sp_usecase sp). }
    destruct (amc =? "skarveith_1998")%string; [intros [= <-]; cbn; unfold dims_zenith; now destruct (sp_usecase sp)|].
    destruct (amc =? "gonzalez_and_calbo_1999")%string; [|discriminate].
    destruct (airmass sp _) as [m|] eqn:Em; [|discriminate]. apply Dam in Em. cbn [rbind]. intros [= <-]. cbn. rewrite ?Em. unfold dims_zenith. now destruct (sp_usecase sp). }
  split; [|split; [|split; [|split; [|split]]]].
  - intros a Hin. cbn [In] in Hin.
    repeat destruct Hin as [<-|Hin]; try exact De; try exact (Dam _ _ Ham); try exact Dz; try contradiction; cbn; unfold dims_zenith; now destruct (sp_usecase sp).
  - intros a Hin. cbn [In] in Hin. repeat destruct Hin as [<-|Hin]; try contradiction; reflexivity.
  - intros a Hin. cbn [In] in Hin. repeat destruct Hin as [<-|Hin]; try contradiction; cbn; unfold dim_lat, dim_lon; now destruct (sp_usecase sp).
  - intros units a. unfold sunset.
    destruct (units =? "rad")%string; [discriminate|]. destruct (units =? "deg")%string; [discriminate|].
    destruct (units =? "tst")%string; [intros [= <-]; cbn; unfold dim_lat, dim_lon; now destruct (sp_usecase sp)|].
    destruct (units =? "utc")%string; [intros [= <-]; cbn; unfold dim_lat, dim_lon; now destruct (sp_usecase sp)|].
    destruct (units =? "local")%string; [intros [= <-]; cbn; unfold dim_lat, dim_lon; now destruct (sp_usecase sp)|discriminate].
  - intros a Hin. cbn [In] in Hin. repeat destruct Hin as [<-|Hin]; try contradiction; cbn; unfold dim_lat, dim_lon; now destruct (sp_usecase sp).
  - cbn. unfold dim_lon. now destruct (sp_usecase sp).
Qed.
(** incidence puts the location (latitude) before the time. *)
Theorem C45_incidence_refuted : forall slope az,
  da_dims (incidence nf sp slope az) = match sp_usecase sp with
    | Sites => [DLocation; DTime] | RegularGrid => [DLatitude; DTime; DLongitude] | Transect => [DTime] end.
Proof. intros. cbn. unfold dim_lat, dim_lon. now destruct (sp_usecase sp). Qed.
End Dims.

(** ** The hypotheses above are met: with exact float32 operations every supported algorithm and engine, in every
    use case, gives a day cell (0N 3W at 10:00 UTC), a night cell (0N 177E), a sunrise (40N) and a polar cell. *)
Lemma w_utc_hours : utc_hours w_t = 10.
Proof. unfold utc_hours. change ((w_t / 1000000000) mod 86400)%Z with 36000%Z. lra. Qed.
Lemma cell_cosz E uc times lat lon alg refr eng sp k j i t la lo : ideal E -> is_True refr = false ->
  evaluated_cell E uc times lat lon alg refr eng sp k j i t la lo ->
  exists zd d eot, reads (Sunpos.zenith (O := ExtOps E) sp) k j i (Fin zd) /\ 0 <= zd <= 180 /\ Rabs d <= 0.412 /\ Rabs eot <= 20 /\
    Rabs (cos (rad zd) - sun_U (rad la) d (solar_hour_angle t lo eot)) <= 0.00052.
Proof.
  intros HE Hr Hcell.
  assert (HX : exact_for E alg eng) by (unfold exact_for; tauto).
  destruct (C21_position_geometric E _ _ _ _ _ _ _ _ _ _ _ _ _ _ HX Hr Hcell) as (d & eot & ecf & h & z & a & Hd & He & Hc & Hz & Ha & Hh & Hs).
  assert (Hu : forall x, used E alg x = x).
  { intros x. unfold used. destruct (alg =? "nrel")%string; [reflexivity|]. apply HE. }
  rewrite !Hu in *. clear Hu.
  destruct (C25_ecf_bound E _ _ _ _ _ _ _ _ _ _ (proj1 Hcell)) as (ecf' & Hc' & Bc). unfold value in *. rewrite Hc in Hc'. injection Hc' as <-.
  destruct (C24_declination_bound E _ _ _ _ _ _ _ _ _ _ (proj1 Hcell)) as (d' & Hd' & Bd). unfold value in *. rewrite Hd in Hd'. injection Hd' as <-.
  destruct (C26_eot_bound E _ _ _ _ _ _ _ _ _ _ (proj1 Hcell)) as (e' & He' & Be). unfold value in *. rewrite He in He'. injection He' as <-.
  destruct (C32_ranges_partial E _ _ _ _ _ _ _ _ _ _ _ _ _ _ (or_introl (or_introl HE)) Hr Hcell) as (zd & ad & dd & Hzd & _ & _ & Bz & _).
  assert (Hz' := Hzd). apply (zenith_raw E uc _ _ _ _ _ _ sp k j i (proj1 (proj1 Hcell))) in Hz'. unfold value in Hz'. rewrite Hz in Hz'. injection Hz' as ->.
  exists zd, d, eot. split; [exact Hzd|]. split; [exact Bz|]. split; [|split; [exact Be|]].
  { apply Rabs_le_inv in Bd. apply Rabs_le. pose proof PI_RGT_0. assert (D0 : d = rad (d * (180 / PI))) by now rewrite deg_rad.
    set (x := d * (180 / PI)) in *. rewrite D0. unfold rad. clearbody x. clear - Bd. split; interval. }
  assert (Hcl := sky_close alg eng _ d h ecf _ a Bc Hs). fold (rad la) in Hcl.
  assert (H2 := sun_U_turn (rad la) d _ _ _ Hh).
  assert (T1 : hour_tol alg <= 0.00037).
  { unfold hour_tol. destruct (alg =? "psa")%string; [lra|]. destruct (String.eqb alg "iqbal"); lra. }
  apply Rabs_le_inv in H2, Hcl. apply Rabs_le; lra.
Qed.
Example day_night_cells : forall uc alg eng m, In (alg, eng, m) (supported (O := ExtOps ideal_env)) ->
  (exists sp zd, evaluated_cell ideal_env uc (at_times [Some w_t]) (Scalar (Fin 0)) (Scalar (Fin (-3))) alg RFalse eng sp 0 0 0 w_t 0 (-3) /\
     reads (Sunpos.zenith (O := ExtOps ideal_env) sp) 0 0 0 (Fin zd) /\ 0 <= zd <= 90) /\
  (exists sp zd, evaluated_cell ideal_env uc (at_times [Some w_t]) (Scalar (Fin 0)) (Scalar (Fin 177)) alg RFalse eng sp 0 0 0 w_t 0 177 /\
     reads (Sunpos.zenith (O := ExtOps ideal_env) sp) 0 0 0 (Fin zd) /\ 90 < zd <= 180).
Proof.
  intros uc alg eng m H.
  assert (K : forall lo, -180 <= lo < 180 -> exists sp zd d eot,
     evaluated_cell ideal_env uc (at_times [Some w_t]) (Scalar (Fin 0)) (Scalar (Fin lo)) alg RFalse eng sp 0 0 0 w_t 0 lo /\
     reads (Sunpos.zenith (O := ExtOps ideal_env) sp) 0 0 0 (Fin zd) /\ 0 <= zd <= 180 /\ Rabs d <= 0.412 /\ Rabs eot <= 20 /\
     Rabs (cos (rad zd) - cos d * cos ((-30 + lo + eot / 4) * (PI / 180))) <= 0.00052).
  { intros lo Hlo. destruct (one_cell ideal_env uc w_t 0 lo alg RFalse eng m H w_t_representable ltac:(lra) Hlo) as (sp & Hsp).
    destruct (cell_cosz ideal_env _ _ _ _ _ _ _ _ _ _ _ _ _ _ ideal_ideal (eq_refl : is_True RFalse = false) Hsp) as (zd & d & eot & Hz & Bz & Bd & Be & Hc).
    exists sp, zd, d, eot. split; [exact Hsp|]. split; [exact Hz|]. split; [exact Bz|]. split; [exact Bd|]. split; [exact Be|].
    unfold sun_U, solar_hour_angle in Hc. rewrite w_utc_hours in Hc. replace (rad 0) with 0 in Hc by (unfold rad; ring). rewrite sin_0, cos_0 in Hc.
    replace (0 * sin d + 1 * cos d * cos ((15 * (10 - 12) + lo + eot / 4) * (PI / 180))) with (cos d * cos ((-30 + lo + eot / 4) * (PI / 180))) in Hc; [exact Hc|].
    replace (15 * (10 - 12)) with (-30) by ring. ring. }
  split.
  - destruct (K (-3) ltac:(lra)) as (sp & zd & d & eot & Hsp & Hz & Bz & Bd & Be & Hc). exists sp, zd. split; [exact Hsp|]. split; [exact Hz|].
    split; [lra|]. apply Rnot_lt_le. intros C. apply Rabs_le_inv in Bd, Be, Hc.
    assert (0.5 <= cos d * cos ((-30 + -3 + eot / 4) * (PI / 180))) by (clear - Bd Be; interval).
    assert (cos (rad zd) <= 0); [|lra]. pose proof PI_RGT_0. apply cos_le_0; unfold rad; nra.
  - destruct (K 177 ltac:(lra)) as (sp & zd & d & eot & Hsp & Hz & Bz & Bd & Be & Hc). exists sp, zd. split; [exact Hsp|]. split; [exact Hz|].
    split; [|lra]. apply Rnot_le_lt. intros C. apply Rabs_le_inv in Bd, Be, Hc.
    assert (cos d * cos ((-30 + 177 + eot / 4) * (PI / 180)) <= -0.5) by (clear - Bd Be; interval).
    assert (0 <= cos (rad zd)); [|lra]. pose proof PI_RGT_0. apply cos_ge_0; unfold rad; nra.
Qed.
Example sunrise_cells : forall E nf uc alg eng m refr, In (alg, eng, m) (supported (O := ExtOps E)) ->
  exists sp dd a w dl, evaluated_cell E uc (at_times [Some w_t]) (Scalar (Fin 40)) (Scalar (Fin (-3))) alg refr eng sp 0 0 0 w_t 40 (-3) /\
    reads (Sunpos.declination (O := ExtOps E) sp) 0 0 0 (Fin dd) /\ Sunpos.sunrise (O := ExtOps E) nf sp "deg" = Ok (Angle a) /\
    reads a 0 0 0 (Fin w) /\ reads (Sunpos.daylight_length (O := ExtOps E) sp) 0 0 0 (Fin dl).
Proof.
  intros E nf uc alg eng m refr H. destruct (w_cell E uc alg eng m refr H) as (sp & Hsp).
  destruct (cell_data E _ _ _ _ _ _ _ _ _ _ _ _ _ _ Hsp) as (_ & _ & _ & _ & (dd & Hd & _) & _).
  destruct (C37_midlatitudes E nf _ _ _ _ _ _ _ _ _ _ _ _ _ _ Hsp ltac:(lra)) as (a & w & dl & Ha & Hw & Hdl & _). now exists sp, dd, a, w, dl.
Qed.
Example polar_cells : forall E uc alg eng m refr, In (alg, eng, m) (supported (O := ExtOps E)) ->
  exists sp, evaluated_cell E uc (at_times [Some w_t]) (Scalar (Fin 90)) (Scalar (Fin (-3))) alg refr eng sp 0 0 0 w_t 90 (-3) /\
    reads (Sunpos.daylight_length (O := ExtOps E) sp) 0 0 0 NaN.
Proof.
  intros E uc alg eng m refr H. destruct (one_cell E uc w_t 90 (-3) alg refr eng m H w_t_representable ltac:(lra) ltac:(lra)) as (sp & Hsp). exists sp. split; [exact Hsp|].
  destruct (cell_data E _ _ _ _ _ _ _ _ _ _ _ _ _ _ Hsp) as (Hla & _ & _ & _ & (dd & Hd & Bd) & _).
  assert (Hr := sunrise_rad_at E sp 0 0 0 90 dd Hla Hd ltac:(lra) ltac:(lra)).
  replace (wsr_value 90 dd) with NaN in Hr by (unfold wsr_value; destruct (Rlt_dec (-90) 90); [destruct (Rlt_dec 90 90); [lra|reflexivity]|reflexivity]).
  assert (H1 := reads_map (degrees (Ops := ExtOps E)) _ 0 0 0 _ Hr).
  assert (H2 := reads_map (mul (Ops := ExtOps E) (div (Ops := ExtOps E) (lit (Ops := ExtOps E) 2.0) (lit (Ops := ExtOps E) 15.0))) _ 0 0 0 _ H1).
  ext_ops. change (degrees NaN) with NaN in H2. rewrite nan_mul_r in H2. exact H2.
Qed.
