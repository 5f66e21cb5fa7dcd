(** * PropPlaces: which answers tell the latitude and longitude of their places (C103), for any arithmetic *)
From Coq Require Import ZArith QArith Reals List Bool Arith String Lia.
From Verif Require Import Num Arrays Libspa Time Core Usecases Spec Sunpos Labels Places ArraysLemmas UsecaseLemmas SunposLemmas Ext ExactLaws AstroSpec Witness PropLabels.
Import ListNotations.
Open Scope nat_scope.
Open Scope string_scope.
Open Scope list_scope.

(** ** Specification *)
(** The coordinates of what each accessor returns. *)
Definition places_of {F} (same : coordinate F -> coordinate F -> bool) (sp : Sunpos F) (q : quantity F) : res (places F) :=
  match q with
  | Latitude => Ok (p_latitude sp) | Longitude => Ok (p_longitude sp) | Ecf => Ok (p_ecf sp) | Eot => Ok (p_eot sp)
  | Declination => Ok (p_declination sp) | Zenith => Ok (p_zenith sp) | Azimuth => Ok (p_azimuth sp) | Elevation => Ok (p_elevation sp)
  | Cosz => Ok (p_cosz sp) | TrueSolarTime => Ok (p_true_solar_time same sp) | Airmass p => p_airmass same sp p | Eth _ c => p_eth same sp c
  | Sunrise u => p_sunrise same sp u | Sunset u => p_sunset same sp u | DaylightLength => Ok (p_daylight_length same sp)
  | Incidence _ _ => Ok (p_incidence same sp)
  end.
(** The coordinates latitude and longitude of [p] are those of the request, along dimension [d]. *)
Definition tells {F} (d : dim) (lat lon : arg F) (p : places F) : Prop :=
  place_latitude p = Some (d, elems lat) /\ place_longitude p = Some (d, elems lon).
(** Accessor [q] returns (instead of raising [e]) an array whose coordinates satisfy [P]. *)
Definition coordinates_of {F} {O : Ops F} nf same (sp : Sunpos F) (q : quantity F) (P : places F -> Prop) : Prop :=
  match ask nf sp q with Ok _ => exists p, places_of same sp q = Ok p /\ P p | Raise e => places_of same sp q = Raise e end.
(** The accessors that tell the places in a result of sites. *)
Definition from_the_sky {F} (q : quantity F) : Prop :=
  match q with Zenith | Azimuth | Elevation | Cosz | Airmass _ | Eth _ _ => True | _ => False end.

(** ** Proofs *)
Lemma merge_self {F} (same : coordinate F -> coordinate F -> bool) (R : forall x, same x x = true) p : merge same p p = p.
Proof. destruct p as [[x|] [y|]]; unfold merge; cbn; rewrite ?R; reflexivity. Qed.
Lemma merge_nl {F} (same : coordinate F -> coordinate F -> bool) p : merge same none p = p.
Proof. now destruct p as [[x|] [y|]]. Qed.
Lemma merge_nr {F} (same : coordinate F -> coordinate F -> bool) p : merge same p none = p.
Proof. now destruct p as [[x|] [y|]]. Qed.
Section Proofs.
  Context {F : Type} {O : Ops F}.
  Variables (nf : F) (same : coordinate F -> coordinate F -> bool) (sp : Sunpos F).
  Hypothesis R : forall x, same x x = true.
  Local Ltac strs := repeat match goal with |- context[if String.eqb ?a ?b then _ else _] => destruct (String.eqb a b) end.
  Local Ltac mrg := repeat (rewrite (merge_self same R) || rewrite merge_nl || rewrite merge_nr).
  Lemma air p (Q : places F -> Prop) : Q (site_places sp) -> coordinates_of nf same sp (Airmass p) Q.
  Proof.
    intros HQ. unfold coordinates_of, ask, places_of, airmass, rec_airmass, p_airmass, p_rec_airmass, plain, p_cosz, p_zenith, p_raw_zenith. strs;
    cbn; mrg; try (eexists; split; [reflexivity|exact HQ]); reflexivity.
  Qed.
  Lemma air_places p : (exists a, airmass sp p = Ok a) -> p_airmass same sp p = Ok (site_places sp).
  Proof. intros [a H]. assert (K := air p (eq (site_places sp)) eq_refl). unfold coordinates_of in K. cbn [ask plain places_of] in K. rewrite H in K. destruct K as (x & E & <-). exact E. Qed.
  Lemma irr s c (Q : places F -> Prop) : Q (site_places sp) -> merge same (p_ecf sp) (site_places sp) = site_places sp -> coordinates_of nf same sp (Eth s c) Q.
  Proof.
    intros HQ E. unfold coordinates_of, ask, places_of, eth, p_eth, plain, p_cosz, p_zenith, p_raw_zenith. rewrite E.
    rewrite !air_places by (eexists; reflexivity). cbn [rbind].
    strs; cbn; mrg; try (eexists; split; [reflexivity|exact HQ]); reflexivity.
  Qed.
  Lemma rise p (Q : places F -> Prop) u : small sp = p -> Q p -> coordinates_of nf same sp (Sunrise u) Q.
  Proof.
    intros Ep HQ. unfold coordinates_of, ask, places_of, sunrise, p_sunrise, p_sunrise_local, p_sunrise_utc, p_sunrise_tst, p_sunrise_rad, p_true_solar_time, p_solar_offset, p_declination, p_raw_declination, p_latitude, p_longitude, p_eot.
    rewrite Ep. mrg. strs; try (eexists; split; [reflexivity|exact HQ]); reflexivity.
  Qed.
  Lemma set_ p (Q : places F -> Prop) u : small sp = p -> Q p -> coordinates_of nf same sp (Sunset u) Q.
  Proof.
    intros Ep HQ. unfold coordinates_of, ask, places_of, sunset, p_sunset, p_daylight_length, p_sunrise_local, p_sunrise_utc, p_sunrise_tst, p_sunrise_rad, p_true_solar_time, p_solar_offset, p_declination, p_raw_declination, p_latitude, p_longitude, p_eot.
    rewrite Ep. mrg. strs; try (eexists; split; [reflexivity|exact HQ]); reflexivity.
  Qed.
  Lemma sky_of q (Q : places F -> Prop) : from_the_sky q -> Q (site_places sp) -> merge same (p_ecf sp) (site_places sp) = site_places sp -> coordinates_of nf same sp q Q.
  Proof.
    intros S HQ E. destruct q; try (exfalso; exact S); try (eexists; split; [reflexivity|exact HQ]).
    - now apply air.
    - now apply irr.
  Qed.
  Lemma rest_of q (Q : places F -> Prop) : ~ from_the_sky q -> Q (small sp) -> coordinates_of nf same sp q Q.
  Proof.
    intros S HQ. destruct q; try (exfalso; exact (S Logic.I)); try (eexists; split; [reflexivity|exact HQ]).
    - eexists; split; [reflexivity|]. unfold p_true_solar_time, p_solar_offset, p_eot, p_longitude. mrg. exact HQ.
    - now apply (rise (small sp)).
    - now apply (set_ (small sp)).
    - eexists; split; [reflexivity|]. unfold p_daylight_length, p_sunrise_rad, p_declination, p_raw_declination, p_latitude. mrg. exact HQ.
    - eexists; split; [reflexivity|]. unfold p_incidence, p_declination, p_raw_declination, p_latitude, p_true_solar_time, p_solar_offset, p_eot, p_longitude. mrg. exact HQ.
  Qed.
End Proofs.

(** ** C103: in a result of transect every answer bears the latitudes and longitudes of the request along time. *)
Theorem C103_transect {F} {O : Ops F} nf ne times lat lon alg refr eng (sp : Sunpos F) same q :
  call ne Transect times lat lon alg refr eng = Ok sp -> (forall x, same x x = true) ->
  coordinates_of nf same sp q (tells DTime lat lon).
Proof.
  intros H R. destruct (call_fields ne Transect _ _ _ _ _ _ _ H) as (U & A & B & _).
  assert (T : tells DTime lat lon (site_places sp)) by (unfold site_places; rewrite U, A, B; now split).
  assert (S : small sp = site_places sp) by (unfold small; now rewrite U).
  assert (D : from_the_sky q \/ ~ from_the_sky q) by (destruct q; cbn; tauto). destruct D as [D|D].
  - apply sky_of; auto. unfold p_ecf. rewrite S. now apply merge_self.
  - apply rest_of; auto. now rewrite S.
Qed.
(** In a result of sites: zenith, azimuth, elevation, cosine, air mass and irradiance bear them along location.  Missing for the full
    property (every answer with a location dimension does): the others, for which it is false (C103_sites_refuted). *)
Theorem C103_sites_partial {F} {O : Ops F} nf ne times lat lon alg refr eng (sp : Sunpos F) same q :
  call ne Sites times lat lon alg refr eng = Ok sp -> (forall x, same x x = true) -> from_the_sky q ->
  coordinates_of nf same sp q (tells DLocation lat lon).
Proof.
  intros H R D. destruct (call_fields ne Sites _ _ _ _ _ _ _ H) as (U & A & B & _).
  assert (T : tells DLocation lat lon (site_places sp)) by (unfold site_places; rewrite U, A, B; now split).
  apply sky_of; auto. unfold p_ecf, small. rewrite U. apply merge_nl.
Qed.
(** True solar time, sunrise, sunset, day length and incidence have a location dimension but neither coordinate. *)
Theorem C103_sites_refuted {F} {O : Ops F} nf ne times lat lon alg refr eng (sp : Sunpos F) same q :
  call ne Sites times lat lon alg refr eng = Ok sp -> (forall x, same x x = true) -> ~ from_the_sky q ->
  coordinates_of nf same sp q (fun p => place_latitude p = None /\ place_longitude p = None) /\
  (match ask nf sp q with Ok (Angle a) => In DLocation (da_dims a) | Ok (Instant a) => In DLocation (da_dims a) | Raise _ => False end ->
   ~ coordinates_of nf same sp q (tells DLocation lat lon)).
Proof.
  intros H R D. destruct (call_fields ne Sites _ _ _ _ _ _ _ H) as (U & A & B & _).
  assert (K : coordinates_of nf same sp q (fun p => place_latitude p = None /\ place_longitude p = None)) by (apply rest_of; auto; unfold small; rewrite U; now split).
  split; [exact K|]. intros L N. unfold coordinates_of in *. destruct (ask nf sp q); [|exact L]. destruct K as (p & E & E1 & _), N as (p' & E' & E2 & _). congruence.
Qed.
(** The hypotheses are met; incidence, day length and sunrise at the sites of Witness.v have a location dimension. *)
Example C103_example : forall uc alg eng m refr, In (alg, eng, m) (supported (F := ext) (O := ExtOps ideal_env)) ->
  exists sp, call (O := ExtOps ideal_env) true uc (at_times w_times) w_lat w_lon alg refr eng = Ok sp /\ (forall x : coordinate ext, (fun _ _ => true) x x = true) /\
  (uc = Sites -> forall q : quantity ext, In q [TrueSolarTime; DaylightLength; Sunrise "utc"; Sunset "tst"; Incidence (Fin 30%R) NaN] ->
     ~ from_the_sky q /\ match ask (O := ExtOps ideal_env) PInf sp q with Ok (Angle a) => In DLocation (da_dims a) | Ok (Instant a) => In DLocation (da_dims a) | Raise _ => False end).
Proof.
  intros uc alg eng m refr H. destruct (w_call uc alg eng m refr H) as [sp Hsp]. exists sp. split; [exact Hsp|]. split; [reflexivity|]. intros ->.
  destruct (call_fields true Sites _ _ _ _ _ _ _ Hsp) as (U & _).
  assert (E1 : dim_lat sp = DLocation) by (unfold dim_lat; now rewrite U). assert (E2 : dim_lon sp = DLocation) by (unfold dim_lon; now rewrite U).
  intros q [<-|[<-|[<-|[<-|[<-|[]]]]]]; (split; [exact (fun x => x)|]); cbn; rewrite ?E1, ?E2; cbn; tauto.
Qed.
