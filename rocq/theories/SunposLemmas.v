(** * SunposLemmas: the cells of the accessors *)

From Coq Require Import ZArith QArith Reals Bool List String Lra Lia.
From Flocq Require Import Core.Raux.
From Interval Require Import Tactic.
From Verif Require Import Num Arrays Libspa Time Core Usecases Spec UsecaseLemmas GenericLemmas GenericLemmas2 Ext ExtLemmas
  Sky AstroSpec Astro AstroCell AstroCall Sunpos SunposSpec.
Import ListNotations.
Open Scope R_scope.

Lemma ctor_times_length' t tz ws us :
  ctor_times t = Ok (tz, ws, us) -> List.length ws = List.length (instants t).
Proof.
  unfold ctor_times. destruct t as [s l|s tzi l|n]; cbn [walls rbind instants]; [| |discriminate].
  - rewrite tz_localize_utc. now intros [= <- <- <-].
  - rewrite map_length. destruct tzi as [nm z|o|z]; [|discriminate|].
    + destruct (tz_localize z _); cbn; [|discriminate]. intros [= <- <- <-]. apply map_length.
    + rewrite tz_localize_utc. intros [= <- <- <-]. apply map_length.
Qed.

Lemma call_fields {F} {O : Ops F} ne uc times lat lon alg refr eng (sp : Sunpos F) :
  call ne uc times lat lon alg refr eng = Ok sp ->
  sp_usecase sp = uc /\ sp_latitude sp = elems lat /\ sp_longitude sp = elems lon /\
  List.length (sp_times_utc sp) = List.length (instants times) /\ List.length (sp_times sp) = List.length (instants times).
Proof.
  intros H. destruct (call_Ok_inv ne _ _ _ _ _ _ _ _ H) as (m & tz & ws & us & Ha & ->).
  destruct Ha. cbn [mk_sp sp_times_utc sp_times sp_usecase sp_latitude sp_longitude].
  repeat split; [eapply ctor_times_length|eapply ctor_times_length']; eassumption.
Qed.

(** ** Generic cells *)
Section Generic.
  Context {F : Type} {O : Ops F}.
  Variables (ne : bool) (uc : usecase) (times : times_arg) (lat lon : arg F) (alg : string) (refr : refr_flag) (eng : string) (sp : Sunpos F).
  Hypothesis Hcall : call ne uc times lat lon alg refr eng = Ok sp.
  Variables (k j i : nat) (la lo : F).
  Hypothesis Hi : at_idx uc (elems lat) (elems lon) k j i la lo.

  Lemma uc_eq : sp_usecase sp = uc. Proof. apply (call_fields _ _ _ _ _ _ _ _ _ Hcall). Qed.
  Lemma latitude_at : reads (latitude sp) k j i la.
  Proof.
    unfold reads, latitude, of_list, dim_lat. destruct (call_fields _ _ _ _ _ _ _ _ _ Hcall) as (-> & -> & _).
    destruct uc; cbn in *; apply Hi.
  Qed.
  Lemma longitude_at : reads (longitude sp) k j i lo.
  Proof.
    unfold reads, longitude, of_list, dim_lon. destruct (call_fields _ _ _ _ _ _ _ _ _ Hcall) as (-> & _ & -> & _).
    destruct uc; cbn in *; apply Hi.
  Qed.
  Lemma raw_zenith_at : da_at (raw_zenith sp) (at_cell k j i) = get (sp_zenith sp) (idx uc k j i).
  Proof. clear Hi la lo. unfold raw_zenith, of_nd, dims_zenith. rewrite uc_eq. now destruct uc. Qed.
  Lemma raw_azimuth_at : da_at (raw_azimuth sp) (at_cell k j i) = get (sp_azimuth sp) (idx uc k j i).
  Proof. clear Hi la lo. unfold raw_azimuth, of_nd, dims_zenith. rewrite uc_eq. now destruct uc. Qed.
  Lemma raw_declination_at : da_at (raw_declination sp) (at_cell k j i) = get (sp_declination sp) [k].
  Proof. reflexivity. Qed.
  Lemma ecf_at : da_at (ecf sp) (at_cell k j i) = get (sp_ecf sp) [k].
  Proof. reflexivity. Qed.
  Lemma eot_at : da_at (eot sp) (at_cell k j i) = get (sp_eot sp) [k].
  Proof. reflexivity. Qed.
End Generic.

Lemma reads_map {A B} (f : A -> B) a k j i x : reads a k j i x -> reads (da_map f a) k j i (f x).
Proof. unfold reads, da_map. cbn. now intros ->. Qed.
Lemma reads_map2 {A B C} (f : A -> B -> C) a b k j i x y :
  reads a k j i x -> reads b k j i y -> reads (da_map2 f a b) k j i (f x y).
Proof. unfold reads, da_map2. cbn. now intros -> ->. Qed.
Lemma reads_map_inv {A B} (f : A -> B) a k j i y : reads (da_map f a) k j i y -> exists x, reads a k j i x /\ y = f x.
Proof. unfold reads, da_map. cbn. destruct (da_at a (at_cell k j i)); cbn; [|discriminate]. intros [= <-]. eauto. Qed.
Lemma reads_fun {A} (a : darray A) k j i x y : reads a k j i x -> reads a k j i y -> x = y.
Proof. unfold reads. congruence. Qed.

(** ** Degrees and radians *)
Lemma deg_rad x : rad (x * (180 / PI)) = x.
Proof. unfold rad. field. apply PI_neq. Qed.
Lemma rad_deg x : rad x * (180 / PI) = x.
Proof. unfold rad. field. apply PI_neq. Qed.
Lemma deg_inj x y : x * (180 / PI) = y -> x = rad y.
Proof. intros <-. symmetry. apply deg_rad. Qed.

(** Values of the raw arrays from those of the accessors. *)
Section Raw.
  Variable E : Env.
  Variables (uc : usecase) (times : times_arg) (lat lon : arg ext) (alg : string) (refr : refr_flag) (eng : string) (sp : Sunpos ext) (k j i : nat).
  Hypothesis Hcall : call (O := ExtOps E) true uc times lat lon alg refr eng = Ok sp.

  Lemma degrees_inv (a : darray ext) x : reads (da_map (degrees (Ops := ExtOps E)) a) k j i (Fin x) -> reads a k j i (Fin (rad x)).
  Proof.
    intros H. apply reads_map_inv in H as (y & Hy & Hx). destruct y as [| | |r]; try discriminate Hx.
    injection Hx as Hx. symmetry in Hx. apply deg_inj in Hx. now rewrite <- Hx.
  Qed.
  Lemma zenith_raw zd : reads (zenith (O := ExtOps E) sp) k j i (Fin zd) <-> value (sp_zenith sp) (idx uc k j i) (rad zd).
  Proof.
    unfold value. rewrite <- (raw_zenith_at (O := ExtOps E) _ _ _ _ _ _ _ _ _ Hcall k j i). split; intros H.
    - apply degrees_inv in H. exact H.
    - apply (reads_map (degrees (Ops := ExtOps E))) in H. cbn in H. now rewrite rad_deg in H.
  Qed.
  Lemma azimuth_raw ad : reads (azimuth (O := ExtOps E) sp) k j i (Fin ad) <-> value (sp_azimuth sp) (idx uc k j i) (rad ad).
  Proof.
    unfold value. rewrite <- (raw_azimuth_at (O := ExtOps E) _ _ _ _ _ _ _ _ _ Hcall k j i). split; intros H.
    - apply degrees_inv in H. exact H.
    - apply (reads_map (degrees (Ops := ExtOps E))) in H. cbn in H. now rewrite rad_deg in H.
  Qed.
  Lemma declination_raw dd : reads (declination (O := ExtOps E) sp) k j i (Fin dd) <-> value (sp_declination sp) [k] (rad dd).
  Proof.
    unfold value. rewrite <- (raw_declination_at sp k j i). split; intros H.
    - apply degrees_inv in H. exact H.
    - apply (reads_map (degrees (Ops := ExtOps E))) in H. cbn in H. now rewrite rad_deg in H.
  Qed.
  Lemma cosz_at zd : reads (zenith (O := ExtOps E) sp) k j i (Fin zd) -> reads (cosz (O := ExtOps E) sp) k j i (Fin (cos (rad zd))).
  Proof. intros H. apply degrees_inv in H. now apply (reads_map (fcos (Ops := ExtOps E))) in H. Qed.
  Lemma elevation_at zd : reads (zenith (O := ExtOps E) sp) k j i (Fin zd) -> reads (elevation (O := ExtOps E) sp) k j i (Fin (90 - zd)).
  Proof.
    intros H. apply (reads_map (sub (Ops := ExtOps E) (lit (Ops := ExtOps E) 90.0))) in H.
    replace (90 - zd) with (Q2R 90.0 - zd) by q2r. exact H.
  Qed.
End Raw.

(** ** A valid time has a stored UTC time (not necessarily the same instant, see C14) *)
Definition kind (c : loc_class) (r : option Z) : Prop := c = LNat <-> r = None.
Lemma take_run_kind l : forall r rest us, take_run l = (r, rest) -> List.length us = List.length r ->
  exists l1, l = (l1 ++ rest)%list /\ Forall2 kind l1 (map Some us).
Proof.
  induction l as [|c l IH]; cbn; intros r rest us.
  - intros [= <- <-] H. destruct us; [|discriminate]. exists []. now split; [|constructor].
  - destruct c; try (intros [= <- <-] H; destruct us; [|discriminate]; exists []; split; [reflexivity|constructor]).
    destruct (take_run l) as [r0 rest0] eqn:E0. intros [= <- <-] H. destruct us as [|x us]; [discriminate|].
    destruct (IH r0 rest0 us eq_refl ltac:(now injection H)) as (l1 & -> & H1).
    exists (LTwo a b :: l1). split; [reflexivity|]. cbn. constructor; [split; discriminate|exact H1].
Qed.
Lemma localize_kind fuel : forall l r, (List.length l <= fuel)%nat -> localize_classes fuel l = Ok r -> Forall2 kind l r.
Proof.
  induction fuel as [|fuel IH]; intros l r Hf.
  - destruct l; [|cbn in Hf; lia]. cbn. intros [= <-]. constructor.
  - destruct l as [|c l]; cbn [localize_classes]; [intros [= <-]; constructor|]. cbn [List.length] in Hf.
    destruct c as [| |u|a b].
    + destruct (localize_classes fuel l) eqn:E0; cbn; [|discriminate]. intros [= <-]. constructor; [now split|]. apply IH; [lia|exact E0].
    + discriminate.
    + destruct (localize_classes fuel l) eqn:E0; cbn; [|discriminate]. intros [= <-]. constructor; [split; discriminate|]. apply IH; [lia|exact E0].
    + destruct (take_run (LTwo a b :: l)) as [run rest] eqn:E0.
      assert (Hl := take_run_length _ _ _ E0). cbn [List.length] in Hl.
      assert (Hr : (1 <= List.length run)%nat).
      { cbn in E0. destruct (take_run l). injection E0 as <- <-. cbn. lia. }
      destruct (resolve_run run) as [us|] eqn:E2; cbn; [|discriminate].
      destruct (localize_classes fuel rest) eqn:E3; cbn; [|discriminate]. intros [= <-].
      destruct (take_run_kind _ _ _ us E0 (resolve_run_length _ _ E2)) as (l1 & -> & H1).
      apply Forall2_app; [exact H1|]. apply IH; [lia|exact E3].
Qed.
Lemma Forall2_nth {A B} (P : A -> B -> Prop) l l' k x : Forall2 P l l' -> nth_error l k = Some x -> exists y, nth_error l' k = Some y /\ P x y.
Proof. intros H; revert k; induction H; intros [|k]; cbn; try discriminate; [intros [= <-]; eauto|apply IHForall2]. Qed.
Lemma ctor_times_valid t tz ws us k x : ctor_times t = Ok (tz, ws, us) -> nth_error (instants t) k = Some (Some x) ->
  (exists w, nth_error ws k = Some (Some w)) /\ (exists u, nth_error us k = Some (Some u)).
Proof.
  intros H Hk.
  assert (Hw : exists w, nth_error ws k = Some (Some w)).
  { unfold ctor_times in H. destruct t as [s l|s tzi l|n]; cbn [walls rbind instants] in *; [| |discriminate].
    - rewrite tz_localize_utc in H. injection H as <- <- <-. eauto.
    - rewrite nth_error_map in Hk. destruct (nth_error l k) as [[[w o]|]|] eqn:El; try discriminate.
      destruct tzi as [nm z|o'|z]; [|discriminate|].
      + destruct (tz_localize z _); cbn in H; [|discriminate]. injection H as <- <- <-. exists w. now rewrite nth_error_map, El.
      + rewrite tz_localize_utc in H. injection H as <- <- <-. exists w. now rewrite nth_error_map, El. }
  split; [exact Hw|]. destruct Hw as [w Hw].
  assert (Hz : exists z, tz_localize z ws = Ok us).
  { unfold ctor_times in H. destruct t as [s l|s tzi l|n]; cbn [walls rbind] in *; [| |discriminate].
    - exists utc_zone. rewrite tz_localize_utc in *. now injection H as <- <- <-.
    - destruct tzi as [nm z|o'|z]; [|discriminate|].
      + exists z. destruct (tz_localize z _) eqn:Ez; cbn in H; [|discriminate]. injection H as <- <- <-. exact Ez.
      + exists utc_zone. rewrite tz_localize_utc in *. now injection H as <- <- <-. }
  destruct Hz as [z Hz]. unfold tz_localize in Hz. apply localize_kind in Hz; [|lia].
  assert (Hc : nth_error (map (classify z) ws) k = Some (classify z (Some w))) by (now rewrite nth_error_map, Hw).
  destruct (Forall2_nth _ _ _ _ _ Hz Hc) as (y & Hy & Hkd). destruct y as [u|]; [eauto|].
  exfalso. destruct Hkd as [_ Hkd]. specialize (Hkd eq_refl). cbn in Hkd. destruct (candidates z w) as [|? [|]]; discriminate.
Qed.
Lemma call_valid_times {F} {O : Ops F} ne uc times lat lon alg refr eng (sp : Sunpos F) k t :
  call ne uc times lat lon alg refr eng = Ok sp -> nth_error (instants times) k = Some (Some t) ->
  (exists w, nth_error (sp_times sp) k = Some (Some w)) /\ (exists u, nth_error (sp_times_utc sp) k = Some (Some u)).
Proof.
  intros H Hk. destruct (call_Ok_inv ne _ _ _ _ _ _ _ _ H) as (m & tz & ws & us & Ha & ->). destruct Ha.
  exact (ctor_times_valid _ _ _ _ _ _ acc_ctor Hk).
Qed.
