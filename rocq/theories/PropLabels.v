(** * PropLabels: every accessor's array bears the labels of the request (C99), and what is found under labels is what was asked (C100), for any arithmetic *)
From Coq Require Import ZArith QArith List Bool Arith String Lia.
From Verif Require Import Num Arrays Libspa Time Core Usecases Spec Sunpos SunposSpec Labels ArraysLemmas PipelineLemmas UsecaseLemmas GenericLemmas GenericLemmas2 TimeLemmas TimeFold SunposLemmas Ext ExactLaws AstroSpec Witness PropPipeline PropEngines.
Import ListNotations.
Open Scope string_scope.
Open Scope list_scope.

(** ** Specification *)
(** The clock readings of an argument [times], as given. *)
Definition readings (t : times_arg) : list (option Z) :=
  match t with TNaive _ l => l | TAware _ _ l => map (option_map fst) l | TMulti _ => [] end.
(** The labels of a dimension, from the arguments of the call. *)
Definition request_labels {F} (times : times_arg) (lat lon : arg F) (d : dim) : labels F :=
  match d with
  | DTime => Readings (readings times)
  | DLocation => Numbered (List.length (elems lat))
  | DLatitude => Coordinates (elems lat)
  | DLongitude => Coordinates (elems lon)
  end.
(** Array [x] has the dimensions and elements of [a], and the labels [lab] along each of its dimensions (and no others). *)
Definition bears {F A} (lab : dim -> labels F) (x : labelled F A) (a : darray A) : Prop :=
  da_dims (la_array x) = da_dims a /\ (forall e, da_at (la_array x) e = da_at a e) /\
  forall d, la_index x d = if existsb (dim_eqb d) (da_dims a) then Some (lab d) else None.
(** The labelled result [m] of an accessor is its unlabelled result [r] with labels [lab]; errors are the same. *)
Definition labels_only {F A} (lab : dim -> labels F) (m : res (labelled F A)) (r : res (darray A)) : Prop :=
  match r with Ok a => exists x, m = Ok x /\ bears lab x a | Raise e => m = Raise e end.
Definition labels_only2 {F} (lab : dim -> labels F) (m : res (labelled_result F)) (r : res (angle_or_time F)) : Prop :=
  match r with
  | Ok (Angle a) => exists x, m = Ok (LAngle x) /\ bears lab x a
  | Ok (Instant a) => exists x, m = Ok (LInstant x) /\ bears lab x a
  | Raise e => m = Raise e
  end.

(** The accessors of a result, by name (Latitude ... Cosz are properties, the others methods with their arguments). *)
Inductive quantity (F : Type) :=
| Latitude | Longitude | Ecf | Eot | Declination | Zenith | Azimuth | Elevation | Cosz | TrueSolarTime
| Airmass (parameterization : string) | Eth (ISC : F) (am_correction : string)
| Sunrise (units : string) | Sunset (units : string) | DaylightLength | Incidence (sfc_slope sfc_azimuth : F).
Arguments Latitude {F}. Arguments Longitude {F}. Arguments Ecf {F}. Arguments Eot {F}. Arguments Declination {F}. Arguments Zenith {F}.
Arguments Azimuth {F}. Arguments Elevation {F}. Arguments Cosz {F}. Arguments TrueSolarTime {F}. Arguments Airmass {F} parameterization.
Arguments Eth {F} ISC am_correction. Arguments Sunrise {F} units. Arguments Sunset {F} units. Arguments DaylightLength {F}.
Arguments Incidence {F} sfc_slope sfc_azimuth.
Definition plain {F} (r : res (darray F)) : res (angle_or_time F) := do a <- r; Ok (Angle a).
Definition with_labels {F} (r : res (labelled F F)) : res (labelled_result F) := do a <- r; Ok (LAngle a).
(** What the accessor returns: the array alone, and the array with its labels. *)
Definition ask {F} {O : Ops F} (nf : F) (sp : Sunpos F) (q : quantity F) : res (angle_or_time F) :=
  match q with
  | Latitude => Ok (Angle (latitude sp)) | Longitude => Ok (Angle (longitude sp)) | Ecf => Ok (Angle (ecf sp)) | Eot => Ok (Angle (eot sp))
  | Declination => Ok (Angle (declination sp)) | Zenith => Ok (Angle (zenith sp)) | Azimuth => Ok (Angle (azimuth sp))
  | Elevation => Ok (Angle (elevation sp)) | Cosz => Ok (Angle (cosz sp)) | TrueSolarTime => Ok (Instant (true_solar_time nf sp))
  | Airmass p => plain (airmass sp p) | Eth s c => plain (eth sp s c) | Sunrise u => sunrise nf sp u | Sunset u => sunset nf sp u
  | DaylightLength => Ok (Angle (daylight_length sp)) | Incidence s a => Ok (Angle (incidence nf sp s a))
  end.
Definition ask_labelled {F} {O : Ops F} (nf : F) (same : labels F -> labels F -> bool)
  (realigned : forall A B C : Type, (A -> B -> C) -> labelled F A -> labelled F B -> res (labelled F C)) (sp : Sunpos F) (q : quantity F) : res (labelled_result F) :=
  match q with
  | Latitude => Ok (LAngle (l_latitude sp)) | Longitude => Ok (LAngle (l_longitude sp)) | Ecf => Ok (LAngle (l_ecf sp)) | Eot => Ok (LAngle (l_eot sp))
  | Declination => Ok (LAngle (l_declination sp)) | Zenith => Ok (LAngle (l_zenith sp)) | Azimuth => Ok (LAngle (l_azimuth sp))
  | Elevation => Ok (LAngle (l_elevation sp)) | Cosz => Ok (LAngle (l_cosz sp))
  | TrueSolarTime => do a <- l_true_solar_time nf same realigned sp; Ok (LInstant a)
  | Airmass p => with_labels (l_airmass same realigned sp p) | Eth s c => with_labels (l_eth same realigned sp s c)
  | Sunrise u => l_sunrise nf same realigned sp u | Sunset u => l_sunset nf same realigned sp u
  | DaylightLength => with_labels (l_daylight_length same realigned sp) | Incidence s a => with_labels (l_incidence nf same realigned sp s a)
  end.
(** Cell (k, j, i) of one result is cell (k', j', i') of another; errors are the same. *)
Definition same_answer {F} (r r' : res (angle_or_time F)) (k j i k' j' i' : nat) : Prop :=
  match r, r' with
  | Ok (Angle a), Ok (Angle a') => da_at a (at_cell k j i) = da_at a' (at_cell k' j' i')
  | Ok (Instant a), Ok (Instant a') => da_at a (at_cell k j i) = da_at a' (at_cell k' j' i')
  | Raise e, Raise e' => e = e'
  | _, _ => False
  end.
(** A label found in an array. *)
Definition time_label {F A} (x : labelled F A) (k : nat) (w : Z) : Prop := exists l, la_index x DTime = Some (Readings l) /\ nth_error l k = Some (Some w).
Definition coordinate_label {F A} (x : labelled F A) (d : dim) (k : nat) (c : F) : Prop := exists l, la_index x d = Some (Coordinates l) /\ nth_error l k = Some c.

(** ** Alignment is the identity *)
Lemma dim_eqb_refl d : dim_eqb d d = true. Proof. now destruct d. Qed.
Lemma in_union d a b : existsb (dim_eqb d) (union_dims a b) = existsb (dim_eqb d) a || existsb (dim_eqb d) b.
Proof.
  unfold union_dims. rewrite existsb_app. destruct (existsb (dim_eqb d) a) eqn:E; [reflexivity|]. cbn [orb].
  induction b as [|x b IH]; [reflexivity|]. cbn [filter existsb]. destruct (dim_eqb d x) eqn:D.
  - assert (d = x) as <- by (destruct d, x; (reflexivity || discriminate)). rewrite E. cbn. now rewrite dim_eqb_refl.
  - destruct (negb (existsb (dim_eqb x) a)); cbn [existsb]; rewrite ?D; exact IH.
Qed.
Section Align.
  Context {F : Type} {O : Ops F}.
  Variable same : labels F -> labels F -> bool.
  Variable realigned : forall A B C : Type, (A -> B -> C) -> labelled F A -> labelled F B -> res (labelled F C).
  Hypothesis same_refl : forall l, same l l = true.
  Variable lab : dim -> labels F.

  Lemma bears_map {A B} (f : A -> B) x a : bears lab x a -> bears lab (lmap f x) (da_map f a).
  Proof. intros (H1 & H2 & H3). repeat split; [exact H1|intros e; cbn; now rewrite H2|exact H3]. Qed.
  Lemma bears_map2 {A B C} (f : A -> B -> C) x y a b : bears lab x a -> bears lab y b ->
    exists z, lmap2 same realigned f x y = Ok z /\ bears lab z (da_map2 f a b).
  Proof.
    intros (H1 & H2 & H3) (K1 & K2 & K3). unfold lmap2.
    assert (Al : aligned same x y = true).
    { unfold aligned. apply forallb_forall. intros d _. rewrite H3, K3. now destruct (existsb (dim_eqb d) (da_dims a)), (existsb (dim_eqb d) (da_dims b)). }
    rewrite Al. eexists. split; [reflexivity|]. repeat split; cbn.
    - now rewrite H1, K1.
    - intros e. now rewrite H2, K2.
    - intros d. rewrite in_union, H3, K3. now destruct (existsb (dim_eqb d) (da_dims a)).
  Qed.
  Lemma bears_as {A} x (a b : darray A) : bears lab x a -> da_dims a = da_dims b -> (forall e, da_at a e = da_at b e) -> bears lab x b.
  Proof. intros (H1 & H2 & H3) D E. repeat split; [congruence|intros e; now rewrite H2|now rewrite <- D]. Qed.
End Align.

Section Accessors.
  Context {F : Type} {O : Ops F}.
  Variable nf : F.
  Variable same : labels F -> labels F -> bool.
  Variable realigned : forall A B C : Type, (A -> B -> C) -> labelled F A -> labelled F B -> res (labelled F C).
  Hypothesis same_refl : forall l, same l l = true.
  Variable sp : Sunpos F.
  Notation lab := (coords sp).

  Lemma b_given {A} (a : darray A) : bears lab (data_array sp a (da_dims a)) a.
  Proof. repeat split. Qed.
  Lemma b_lat : bears lab (l_latitude sp) (latitude sp). Proof. apply b_given. Qed.
  Lemma b_lon : bears lab (l_longitude sp) (longitude sp). Proof. apply b_given. Qed.
  Lemma b_ecf : bears lab (l_ecf sp) (ecf sp). Proof. apply b_given. Qed.
  Lemma b_eot : bears lab (l_eot sp) (eot sp). Proof. apply b_given. Qed.
  Lemma b_zenith : bears lab (l_zenith sp) (zenith sp). Proof. unfold l_zenith, zenith. apply bears_map, b_given. Qed.
  Lemma b_azimuth : bears lab (l_azimuth sp) (azimuth sp). Proof. unfold l_azimuth, azimuth. apply bears_map, b_given. Qed.
  Lemma b_cosz : bears lab (l_cosz sp) (cosz sp). Proof. unfold l_cosz, cosz. apply bears_map, b_given. Qed.
  Lemma b_elevation : bears lab (l_elevation sp) (elevation sp). Proof. apply bears_map, b_zenith. Qed.
  Lemma b_dec : bears lab (l_declination sp) (declination sp). Proof. unfold l_declination, declination. apply bears_map, b_given. Qed.

  Local Ltac step f x y a b H K := destruct (bears_map2 same realigned same_refl lab f x y a b H K) as (? & -> & ?); cbn [rbind].
  (** Run the next binary operation, whose operands are known to bear the labels. *)
  Local Ltac known := first [eassumption | apply b_lat | apply b_lon | apply b_ecf | apply b_eot | apply b_zenith | apply b_cosz | apply b_dec | (apply bears_map; known)].
  Local Ltac run := match goal with |- context [lmap2 same realigned ?f ?x ?y] =>
    let R := fresh "R" in let z := fresh "z" in let E := fresh "E" in
    edestruct (bears_map2 same realigned same_refl lab f x y) as (z & E & R); [known|known|]; rewrite E; clear E; cbn [rbind] end.

  Lemma b_offset : exists x, l_solar_offset same realigned sp = Ok x /\ bears lab x (solar_offset sp).
  Proof. unfold l_solar_offset, solar_offset. run. eexists. split; [reflexivity|exact R]. Qed.
  Lemma b_utc : bears lab (LA (da_map (ns_float nf) (of_list DTime (sp_times_utc sp))) (fun d => if dim_eqb d DTime then Some (Readings (sp_times sp)) else None))
    (da_map (ns_float nf) (of_list DTime (sp_times_utc sp))).
  Proof. repeat split. intros []; reflexivity. Qed.
  Lemma b_tst : exists x, l_true_solar_time nf same realigned sp = Ok x /\ bears lab x (true_solar_time nf sp).
  Proof.
    unfold l_true_solar_time, true_solar_time. destruct b_offset as (off & -> & Ho). cbn [rbind]. assert (Hu := b_utc). run.
    eexists. split; [reflexivity|]. apply bears_map. exact R.
  Qed.

  Local Ltac dims := cbn; unfold dims_zenith, dim_lat, dim_lon; now destruct (sp_usecase sp).
  Lemma b_rec p : match rec_airmass p fnan fnan with
    | None => l_rec_airmass same realigned sp p = Raise ValueError
    | Some _ => exists x, l_rec_airmass same realigned sp p = Ok x /\
        bears lab x (da_map2 (fun cz z => match rec_airmass p cz z with Some r => r | None => fnan end) (cosz sp) (zenith sp))
    end.
  Proof.
    unfold rec_airmass, l_rec_airmass.
    repeat match goal with |- context [(p =? ?s)%string] => destruct (p =? s)%string end; [| | | |reflexivity];
      repeat run; eexists; (split; [reflexivity|]); (eapply bears_as; [eassumption|dims|]);
      intros e; cbn -[zenith cosz]; destruct (da_at (cosz sp) e), (da_at (zenith sp) e); reflexivity.
  Qed.
  Lemma l_airmass_ok p : labels_only lab (l_airmass same realigned sp p) (airmass sp p).
  Proof.
    unfold labels_only, airmass, l_airmass. assert (H := b_rec p). destruct (rec_airmass p fnan fnan) as [f|] eqn:E0.
    - destruct H as (x & -> & Hx). cbn [rbind]. run. eexists. split; [reflexivity|]. eapply bears_as; [apply bears_map; eassumption|dims|].
      intros e. cbn -[zenith cosz]. unfold sza. destruct (da_at (cosz sp) e) as [cz|]; [|reflexivity]. destruct (da_at (zenith sp) e) as [v|]; [|reflexivity]. cbn.
      assert (Hs : forall q a b a' b', @rec_airmass F O q a b = None -> @rec_airmass F O q a' b' = None).
      { intros q a b a' b'. unfold rec_airmass. repeat match goal with |- context [(q =? ?s)%string] => destruct (q =? s)%string end; congruence. }
      destruct (rec_airmass p cz v) eqn:E; [reflexivity|]. apply (Hs p cz v fnan fnan) in E. congruence.
    - rewrite H. reflexivity.
  Qed.
  Lemma l_eth_ok I c : labels_only lab (l_eth same realigned sp I c) (eth sp I c).
  Proof.
    unfold labels_only, eth, l_eth. run.
    destruct (c =? "none")%string; [eexists; split; [reflexivity|]; apply bears_map; eassumption|].
    destruct (c =? "perez_1990")%string.
    { assert (H := l_airmass_ok "kasten_and_young_1989"). unfold labels_only in H. destruct (airmass sp _); cbn [rbind]; [|now rewrite H].
      destruct H as (x & -> & Hx). cbn [rbind]. run. eexists. split; [reflexivity|]. assumption. }
    destruct (c =? "skarveith_1998")%string; [run; eexists; split; [reflexivity|]; assumption|].
    destruct (c =? "gonzalez_and_calbo_1999")%string; [|reflexivity].
    assert (H := l_airmass_ok "gueymard_2003"). unfold labels_only in H. destruct (airmass sp _) as [m|] eqn:Em; cbn [rbind]; [|now rewrite H].
    destruct H as (x & -> & Hx). cbn [rbind]. run. run. eexists. split; [reflexivity|]. eapply bears_as; [eassumption| |].
    - assert (Dm : da_dims m = dims_zenith sp).
      { revert Em. unfold airmass. destruct (rec_airmass _ fnan fnan); [|discriminate]. intros [= <-]. dims. }
      cbn. rewrite Dm. dims.
    - intros e. cbn -[cosz]. destruct (da_at m e); [|now destruct (option_map _ _)]. reflexivity.
  Qed.
  Lemma b_rad : exists x, l_sunrise_rad same realigned sp = Ok x /\ bears lab x (sunrise_rad sp).
  Proof.
    unfold l_sunrise_rad, sunrise_rad. run. run. run. eexists. split; [reflexivity|]. eapply bears_as; [apply bears_map; eassumption|dims|].
    intros e. cbn -[latitude declination]. destruct (da_at (declination sp) e), (da_at (latitude sp) e); reflexivity.
  Qed.
  Lemma b_deg : exists x, l_sunrise_deg same realigned sp = Ok x /\ bears lab x (sunrise_deg sp).
  Proof. unfold l_sunrise_deg, sunrise_deg. destruct b_rad as (x & -> & H). cbn [rbind]. eexists. split; [reflexivity|]. now apply bears_map. Qed.
  Lemma b_daylight : exists x, l_daylight_length same realigned sp = Ok x /\ bears lab x (daylight_length sp).
  Proof. unfold l_daylight_length, daylight_length. destruct b_deg as (x & -> & H). cbn [rbind]. eexists. split; [reflexivity|]. now apply bears_map. Qed.
  Lemma b_rise_tst : exists x, l_sunrise_tst nf same realigned sp = Ok x /\ bears lab x (sunrise_tst nf sp).
  Proof.
    unfold l_sunrise_tst, sunrise_tst. destruct b_rad as (x & -> & H). destruct b_tst as (y & -> & K). cbn [rbind]. run.
    eexists. split; [reflexivity|]. eapply bears_as; [eassumption|dims|]. intros e. cbn -[sunrise_rad true_solar_time]. destruct (da_at (sunrise_rad sp) e); reflexivity.
  Qed.
  Lemma b_rise_utc : exists x, l_sunrise_utc nf same realigned sp = Ok x /\ bears lab x (sunrise_utc nf sp).
  Proof. unfold l_sunrise_utc, sunrise_utc. destruct b_rise_tst as (x & -> & H). destruct b_offset as (y & -> & K). cbn [rbind]. run. eexists. split; [reflexivity|]. assumption. Qed.
  Lemma b_rise_local : exists x, l_sunrise_local nf same realigned sp = Ok x /\ bears lab x (sunrise_local nf sp).
  Proof.
    unfold l_sunrise_local, sunrise_local. destruct b_rise_utc as (x & -> & H). cbn [rbind].
    destruct H as (H1 & H2 & H3). apply bears_map2; [exact same_refl|now split|]. repeat split.
    intros d. cbn [la_index da_dims existsb]. rewrite orb_false_r. destruct d; try reflexivity. cbn [dim_eqb]. rewrite H3.
    assert (E : existsb (dim_eqb DTime) (da_dims (sunrise_utc nf sp)) = true) by dims. now rewrite E.
  Qed.
  Lemma l_sunrise_ok u : labels_only2 lab (l_sunrise nf same realigned sp u) (sunrise nf sp u).
  Proof.
    unfold labels_only2, l_sunrise, sunrise.
    destruct (u =? "rad")%string; [destruct b_rad as (x & -> & H); now exists x|]. destruct (u =? "deg")%string; [destruct b_deg as (x & -> & H); now exists x|].
    destruct (u =? "tst")%string; [destruct b_rise_tst as (x & -> & H); now exists x|]. destruct (u =? "utc")%string; [destruct b_rise_utc as (x & -> & H); now exists x|].
    destruct (u =? "local")%string; [destruct b_rise_local as (x & -> & H); now exists x|]. reflexivity.
  Qed.
  Lemma l_sunset_ok u : labels_only2 lab (l_sunset nf same realigned sp u) (sunset nf sp u).
  Proof.
    unfold labels_only2, l_sunset, sunset.
    destruct (u =? "rad")%string; [reflexivity|]. destruct (u =? "deg")%string; [reflexivity|]. destruct b_daylight as (y & -> & K).
    destruct (u =? "tst")%string; [destruct b_rise_tst as (x & -> & H); cbn [rbind]; run; now exists z|].
    destruct (u =? "utc")%string; [destruct b_rise_utc as (x & -> & H); cbn [rbind]; run; now exists z|].
    destruct (u =? "local")%string; [destruct b_rise_local as (x & -> & H); cbn [rbind]; run; now exists z|]. reflexivity.
  Qed.
  Lemma l_incidence_ok s a : labels_only lab (l_incidence nf same realigned sp s a) (Ok (incidence nf sp s a)).
  Proof.
    unfold labels_only, l_incidence, incidence. destruct b_tst as (x & -> & H). cbn [rbind]. repeat run. eexists. split; [reflexivity|]. exact R6.
  Qed.
End Accessors.

(** ** C99 *)
Lemma ctor_readings t tz ws us : ctor_times t = Ok (tz, ws, us) -> ws = readings t.
Proof.
  unfold ctor_times. destruct t as [s l|s tzi l|n]; cbn [walls rbind readings]; [| |discriminate].
  - destruct (tz_localize _ _); cbn; [|discriminate]. now intros [= <- <- <-].
  - destruct tzi as [nm z|o|z]; [|discriminate|]; (destruct (tz_localize _ _); cbn; [|discriminate]); now intros [= <- <- <-].
Qed.
Lemma call_labels {F} {O : Ops F} ne uc times lat lon alg refr eng (sp : Sunpos F) : call ne uc times lat lon alg refr eng = Ok sp ->
  sp_times sp = readings times /\ forall d, coords sp d = request_labels times lat lon d.
Proof.
  intros H. assert (T : sp_times sp = readings times).
  { destruct (call_Ok_inv ne _ _ _ _ _ _ _ _ H) as (m & tz & ws & us & Ha & ->). destruct Ha. cbn [mk_sp sp_times]. eapply ctor_readings. eassumption. }
  split; [exact T|]. destruct (call_fields _ _ _ _ _ _ _ _ _ H) as (_ & A & B & _). intros []; cbn; now rewrite ?T, ?A, ?B.
Qed.
Lemma bears_lab {F A} (lab lab' : dim -> labels F) (x : labelled F A) a : (forall d, lab d = lab' d) -> bears lab x a -> bears lab' x a.
Proof. intros E (H1 & H2 & H3). repeat split; trivial. intros d. rewrite H3. now rewrite E. Qed.
(** Every accessor of every result returns an array with the labels of the request along each of its dimensions, and as elements what
    it returns when labels are ignored: alignment never drops, moves or rejects anything, whatever it would do to differing labels. *)
Theorem C99_labels : forall F (O : Ops F) ne uc times lat lon alg refr eng (sp : Sunpos F) nf same realigned q,
  call ne uc times lat lon alg refr eng = Ok sp -> (forall l, same l l = true) ->
  labels_only2 (request_labels times lat lon) (ask_labelled nf same realigned sp q) (ask nf sp q).
Proof.
  intros F O ne uc times lat lon alg refr eng sp nf same realigned q Hc Hs. destruct (call_labels _ _ _ _ _ _ _ _ _ Hc) as [_ E].
  assert (G : labels_only2 (coords sp) (ask_labelled nf same realigned sp q) (ask nf sp q)).
  { assert (W : forall m r, labels_only (coords sp) m r -> labels_only2 (coords sp) (with_labels m) (plain r)).
    { intros m [a|e]; cbn; [intros (x & -> & H); now exists x|now intros ->]. }
    destruct q; cbn [ask ask_labelled]; try (eexists; split; [reflexivity|]).
    - apply b_lat. - apply b_lon. - apply b_ecf. - apply b_eot. - apply b_dec. - apply b_zenith. - apply b_azimuth. - apply b_elevation. - apply b_cosz.
    - destruct (b_tst nf same realigned Hs sp) as (x & -> & H). now exists x.
    - apply W, l_airmass_ok, Hs.
    - apply W, l_eth_ok, Hs.
    - now apply l_sunrise_ok.
    - now apply l_sunset_ok.
    - destruct (b_daylight same realigned Hs sp) as (x & -> & H). now exists x.
    - apply (W _ (Ok (incidence nf sp sfc_slope sfc_azimuth))), l_incidence_ok, Hs. }
  revert G. unfold labels_only2. destruct (ask nf sp q) as [[a|a]|e]; [| |trivial]; intros (x & Hx & B); exists x; (split; [exact Hx|]); eapply bears_lab; eauto.
Qed.

(** ** C100: the answers of a cell are those of its own instant and place *)
Section Own.
  Context {F : Type} {O : Ops F}.
  Variables (nf : F) (sp sp' : Sunpos F) (k j i k' j' i' : nat).
  Notation agree a b := (da_at a (at_cell k j i) = da_at b (at_cell k' j' i')).
  Hypothesis Hla : agree (latitude sp) (latitude sp').
  Hypothesis Hlo : agree (longitude sp) (longitude sp').
  Hypothesis Hecf : agree (ecf sp) (ecf sp').
  Hypothesis Heot : agree (eot sp) (eot sp').
  Hypothesis Hdec : agree (raw_declination sp) (raw_declination sp').
  Hypothesis Hzen : agree (raw_zenith sp) (raw_zenith sp').
  Hypothesis Haz : agree (raw_azimuth sp) (raw_azimuth sp').
  Hypothesis Hutc : nth_error (sp_times_utc sp) k = nth_error (sp_times_utc sp') k'.

  Lemma ag_map {A B} (f : A -> B) a b : agree a b -> agree (da_map f a) (da_map f b).
  Proof. cbn. now intros ->. Qed.
  Lemma ag_map2 {A B C} (f : A -> B -> C) a b a' b' : agree a b -> agree a' b' -> agree (da_map2 f a a') (da_map2 f b b').
  Proof. cbn. now intros -> ->. Qed.
  Local Ltac ag := repeat first [assumption | apply ag_map2 | apply ag_map].
  Lemma ag_tst : agree (true_solar_time nf sp) (true_solar_time nf sp').
  Proof. unfold true_solar_time, solar_offset. ag. Qed.
  Lemma ag_rad : agree (sunrise_rad sp) (sunrise_rad sp').
  Proof. unfold sunrise_rad, declination. ag. Qed.
  Lemma ag_deg : agree (sunrise_deg sp) (sunrise_deg sp'). Proof. apply ag_map, ag_rad. Qed.
  Lemma ag_rise : agree (sunrise_tst nf sp) (sunrise_tst nf sp').
  Proof. unfold sunrise_tst. assert (A := ag_rad). assert (B := ag_tst). ag. Qed.
  Lemma ag_rise_utc : agree (sunrise_utc nf sp) (sunrise_utc nf sp').
  Proof. unfold sunrise_utc, solar_offset. assert (A := ag_rise). ag. Qed.
  Lemma ag_rise_local : nth_error (sp_times sp) k = nth_error (sp_times sp') k' -> agree (sunrise_local nf sp) (sunrise_local nf sp').
  Proof. intros Hw. unfold sunrise_local. apply ag_map2; [exact ag_rise_utc|]. cbn. now rewrite Hw, Hutc. Qed.
  Lemma own_cell q : nth_error (sp_times sp) k = nth_error (sp_times sp') k' \/ (q <> Sunrise "local" /\ q <> Sunset "local") -> same_answer (ask nf sp q) (ask nf sp' q) k j i k' j' i'.
  Proof.
    intros Hw. assert (L : q = Sunrise "local" \/ q = Sunset "local" -> agree (sunrise_local nf sp) (sunrise_local nf sp')).
    { intros Hq. destruct Hw as [Hw|[N1 N2]]; [now apply ag_rise_local|]. now destruct Hq. }
    assert (Am : forall p, same_answer (plain (airmass sp p)) (plain (airmass sp' p)) k j i k' j' i').
    { intros p. unfold airmass. destruct (rec_airmass p fnan fnan); [|reflexivity]. cbn [plain rbind same_answer]. unfold cosz, sza, zenith. ag. }
    destruct q; cbn [ask same_answer]; try assumption; try exact ag_tst.
    - unfold declination. ag. - unfold zenith. ag. - unfold azimuth. ag. - unfold elevation, zenith. ag. - unfold cosz. ag.
    - apply Am.
    - unfold eth. assert (E : agree (da_map2 mul (da_map (mul ISC) (ecf sp)) (da_map (fmaximum (lit 0.0)) (cosz sp))) (da_map2 mul (da_map (mul ISC) (ecf sp')) (da_map (fmaximum (lit 0.0)) (cosz sp')))) by (unfold cosz; ag).
      destruct (am_correction =? "none")%string; [cbn [plain rbind same_answer]; now apply ag_map|].
      destruct (am_correction =? "perez_1990")%string.
      { assert (H := Am "kasten_and_young_1989"). destruct (airmass sp _), (airmass sp' _); cbn in H |- *; try contradiction; [|assumption]. cbn in E. now rewrite E, H. }
      destruct (am_correction =? "skarveith_1998")%string; [cbn [plain rbind same_answer]; apply ag_map2; [exact E|unfold sza, zenith; ag]|].
      destruct (am_correction =? "gonzalez_and_calbo_1999")%string; [|reflexivity].
      assert (H := Am "gueymard_2003"). destruct (airmass sp _), (airmass sp' _); cbn in H |- *; try contradiction; [|assumption]. cbn in E. now rewrite E, H.
    - unfold sunrise. destruct (units =? "rad")%string; [exact ag_rad|]. destruct (units =? "deg")%string; [exact ag_deg|]. destruct (units =? "tst")%string; [exact ag_rise|].
      destruct (units =? "utc")%string; [exact ag_rise_utc|]. destruct (String.eqb_spec units "local") as [->|]; [|reflexivity]. apply L. now left.
    - unfold sunset, daylight_length. assert (D := ag_deg). destruct (units =? "rad")%string; [reflexivity|]. destruct (units =? "deg")%string; [reflexivity|].
      destruct (units =? "tst")%string; [cbn [same_answer]; assert (A := ag_rise); ag|]. destruct (units =? "utc")%string; [cbn [same_answer]; assert (A := ag_rise_utc); ag|].
      destruct (String.eqb_spec units "local") as [->|]; [|reflexivity]. cbn [same_answer]. assert (A := L (or_intror eq_refl)). ag.
    - unfold daylight_length. assert (D := ag_deg). ag.
    - unfold incidence, dec, declination. assert (T := ag_tst). ag.
  Qed.
End Own.
(** Cells of two results with the same stored numbers, place and instant give the same answers to every accessor (for 'local': if the clock reading is the same). *)
Theorem C100_answers : forall F (O : Ops F) ne uc uc' times times' lat lat' lon lon' alg alg' refr refr' eng eng' (sp sp' : Sunpos F) nf k j i k' j' i' la lo q,
  call ne uc times lat lon alg refr eng = Ok sp -> call ne uc' times' lat' lon' alg' refr' eng' = Ok sp' ->
  at_idx uc (elems lat) (elems lon) k j i la lo -> at_idx uc' (elems lat') (elems lon') k' j' i' la lo ->
  same_position sp sp' (idx uc k j i) (idx uc' k' j' i') -> same_time_outputs sp sp' k k' ->
  nth_error (sp_times_utc sp) k = nth_error (sp_times_utc sp') k' ->
  nth_error (readings times) k = nth_error (readings times') k' \/ (q <> Sunrise "local" /\ q <> Sunset "local") ->
  same_answer (ask nf sp q) (ask nf sp' q) k j i k' j' i'.
Proof.
  intros F O ne uc uc' times times' lat lat' lon lon' alg alg' refr refr' eng eng' sp sp' nf k j i k' j' i' la lo q H H' I I' [(z & Z1 & Z2) (a & A1 & A2)] ((c & C1 & C2) & (e & E1 & E2) & (d & D1 & D2)) U W.
  apply own_cell.
  - unfold Sunpos.latitude. fold (latitude sp). rewrite (latitude_at _ _ _ _ _ _ _ _ _ H _ _ _ _ _ I). symmetry. exact (latitude_at _ _ _ _ _ _ _ _ _ H' _ _ _ _ _ I').
  - rewrite (longitude_at _ _ _ _ _ _ _ _ _ H _ _ _ _ _ I). symmetry. exact (longitude_at _ _ _ _ _ _ _ _ _ H' _ _ _ _ _ I').
  - rewrite !ecf_at. congruence.
  - rewrite !eot_at. congruence.
  - rewrite !raw_declination_at. congruence.
  - rewrite (raw_zenith_at _ _ _ _ _ _ _ _ _ H), (raw_zenith_at _ _ _ _ _ _ _ _ _ H'). congruence.
  - rewrite (raw_azimuth_at _ _ _ _ _ _ _ _ _ H), (raw_azimuth_at _ _ _ _ _ _ _ _ _ H'). congruence.
  - exact U.
  - rewrite (proj1 (call_labels _ _ _ _ _ _ _ _ _ H)), (proj1 (call_labels _ _ _ _ _ _ _ _ _ H')). exact W.
Qed.
(** Hence in two calls of one use case, algorithm, engine and flag, cells of one instant and place give the same answers whatever else was asked for. *)
Theorem C100_own_cell : forall F (O : Ops F) ne uc times times' lat lat' lon lon' alg refr eng (sp sp' : Sunpos F) nf k j i k' j' i' t la lo q,
  call ne uc times lat lon alg refr eng = Ok sp -> call ne uc times' lat' lon' alg refr eng = Ok sp' -> faithful_times times -> faithful_times times' ->
  nth_error (instants times) k = Some t -> nth_error (instants times') k' = Some t ->
  at_idx uc (elems lat) (elems lon) k j i la lo -> at_idx uc (elems lat') (elems lon') k' j' i' la lo ->
  nth_error (readings times) k = nth_error (readings times') k' \/ (q <> Sunrise "local" /\ q <> Sunset "local") ->
  same_answer (ask nf sp q) (ask nf sp' q) k j i k' j' i'.
Proof.
  intros F O ne uc times times' lat lat' lon lon' alg refr eng sp sp' nf k j i k' j' i' t la lo q H H' G G' T T' I I' W.
  destruct (C02_independence _ _ _ _ _ _ _ _ _ _ _ _ _ _ _ _ _ _ _ _ _ _ _ _ H H' T T' I I') as [P Q].
  refine (C100_answers _ _ _ _ _ _ _ _ _ _ _ _ _ _ _ _ _ _ _ nf _ _ _ _ _ _ _ _ q H H' I I' P Q _ W).
  rewrite (C14_times_utc_partial _ _ _ _ _ _ _ _ _ _ _ G H), (C14_times_utc_partial _ _ _ _ _ _ _ _ _ _ _ G' H'). congruence.
Qed.
(** And a cell of a grid gives the answers of its site alone (exact reals, any float32 rounding). *)
Theorem C100_grid_is_sites : forall E times lat lon alg refr eng g nf k j i t la lo q,
  regular_grid (O := ExtOps E) true times lat lon alg refr eng = Ok g -> faithful_times times ->
  nth_error (instants times) k = Some t -> ok_time t -> nth_error (elems lat) j = Some la -> nth_error (elems lon) i = Some lo ->
  q <> Sunrise "local" -> q <> Sunset "local" ->
  exists s, sites (O := ExtOps E) true (at_time t) (Scalar la) (Scalar lo) alg refr eng = Ok s /\
    same_answer (ask (O := ExtOps E) nf g q) (ask (O := ExtOps E) nf s q) k j i 0 0 0.
Proof.
  intros E times lat lon alg refr eng g nf k j i t la lo q H G T Ht Hj Hi N1 N2.
  destruct (PropEngines.C03_grid_is_sites E times lat lon alg refr eng g k j i t la lo H T Ht Hj Hi) as (s & H' & Q & P). exists s. split; [exact H'|].
  refine (C100_answers _ (ExtOps E) true RegularGrid Sites _ (at_time t) _ (Scalar la) _ (Scalar lo) _ _ _ _ _ _ g s nf k j i 0%nat 0%nat 0%nat la lo q H H' (conj Hj Hi) (conj eq_refl eq_refl) P Q _ (or_intror (conj N1 N2))).
  rewrite (C14_times_utc_partial _ (ExtOps E) true RegularGrid _ _ _ _ _ _ _ G H), (C14_times_utc_partial _ (ExtOps E) true Sites (at_time t) _ _ _ _ _ s I H'). exact T.
Qed.

(** ** C101: selection by labels *)
(** In a grid of naive times, whatever is found under the labels (w, la, lo) - every one of them, when labels repeat - is the answer for instant w at la, lo. *)
Theorem C101_selection : forall F (O : Ops F) ne single ws lat lon alg refr eng (sp : Sunpos F) nf k j i w la lo,
  regular_grid ne (TNaive single ws) lat lon alg refr eng = Ok sp ->
  time_label (l_zenith sp) k w -> coordinate_label (l_zenith sp) DLatitude j la -> coordinate_label (l_zenith sp) DLongitude i lo ->
  exists sp1, regular_grid ne (at_time (Some w)) (Scalar la) (Scalar lo) alg refr eng = Ok sp1 /\
    forall q, same_answer (ask nf sp q) (ask nf sp1 q) k j i 0 0 0.
Proof.
  intros F O ne single ws lat lon alg refr eng sp nf k j i w la lo H (l & L1 & L2) (l' & M1 & M2) (l'' & N1 & N2).
  destruct (call_fields ne RegularGrid _ _ _ _ _ _ _ H) as (Uc & Ela & Elo & _). assert (Et := proj1 (call_labels ne RegularGrid _ _ _ _ _ _ _ H)).
  unfold l_zenith, l_raw_zenith, dims_zenith in *. rewrite Uc in *. cbn in L1, M1, N1.
  injection L1 as <-. injection M1 as <-. injection N1 as <-. rewrite Et in L2. rewrite Ela in M2. rewrite Elo in N2.
  destruct (C02_single_call F O ne RegularGrid _ _ _ _ _ _ sp k j i (Some w) la lo H L2 (conj M2 N2)) as (sp1 & H1 & _). exists sp1. split; [exact H1|]. intros q.
  exact (C100_own_cell F O ne RegularGrid _ (at_time (Some w)) _ (Scalar la) _ (Scalar lo) _ _ _ sp sp1 nf k j i 0%nat 0%nat 0%nat (Some w) la lo q H H1 I I L2 eq_refl (conj M2 N2) (conj eq_refl eq_refl) (or_introl L2)).
Qed.
(** With times in a zone the label is the clock reading of the request, and what is found there belongs to an instant with that reading. *)
Theorem C101_selection_zone : forall F (O : Ops F) ne single tz l lat lon alg refr eng (sp : Sunpos F) nf k j i w la lo,
  regular_grid ne (TAware single tz l) lat lon alg refr eng = Ok sp -> faithful_times (TAware single tz l) ->
  time_label (l_zenith sp) k w -> coordinate_label (l_zenith sp) DLatitude j la -> coordinate_label (l_zenith sp) DLongitude i lo ->
  exists o sp1, nth_error l k = Some (Some (w, o)) /\ regular_grid ne (at_time (Some (w - o)%Z)) (Scalar la) (Scalar lo) alg refr eng = Ok sp1 /\
    forall q, q <> Sunrise "local" -> q <> Sunset "local" -> same_answer (ask nf sp q) (ask nf sp1 q) k j i 0 0 0.
Proof.
  intros F O ne single tz ll lat lon alg refr eng sp nf k j i w la lo H Fa (l & L1 & L2) (l' & M1 & M2) (l'' & N1 & N2).
  destruct (call_fields ne RegularGrid _ _ _ _ _ _ _ H) as (Uc & Ela & Elo & _). assert (Et := proj1 (call_labels ne RegularGrid _ _ _ _ _ _ _ H)).
  unfold l_zenith, l_raw_zenith, dims_zenith in *. rewrite Uc in *. cbn in L1, M1, N1.
  injection L1 as <-. injection M1 as <-. injection N1 as <-. rewrite Et in L2. rewrite Ela in M2. rewrite Elo in N2.
  cbn [readings] in L2. rewrite nth_error_map in L2. destruct (nth_error ll k) as [[[w' o]|]|] eqn:En; try discriminate L2. cbn in L2. injection L2 as ->.
  assert (T : nth_error (instants (TAware single tz ll)) k = Some (Some (w - o)%Z)) by (cbn [instants]; rewrite nth_error_map, En; reflexivity).
  destruct (C02_single_call F O ne RegularGrid _ _ _ _ _ _ sp k j i _ la lo H T (conj M2 N2)) as (sp1 & H1 & _). exists o, sp1. split; [reflexivity|]. split; [exact H1|]. intros q Q1 Q2.
  exact (C100_own_cell F O ne RegularGrid _ (at_time (Some (w - o)%Z)) _ (Scalar la) _ (Scalar lo) _ _ _ sp sp1 nf k j i 0%nat 0%nat 0%nat _ la lo q H H1 Fa I T eq_refl (conj M2 N2) (conj eq_refl eq_refl) (or_intror (conj Q1 Q2))).
Qed.
(** Such a label need not be one instant: over the end of summer time in Berlin, rows 1 and 3 of this series bear the label 02:00 and are an hour apart. *)
Theorem C101_repeated_hour : forall F (O : Ops F) uc lat lon alg refr eng (sp : Sunpos F),
  let M := (1729990800 * NS_PER_S)%Z in let m := (30 * 60 * NS_PER_S)%Z in
  let t := TAware false (PytzNamed "Europe/Berlin" berlin2024) ([Some (M + m, 2 * H1)] ++ read_with (2 * H1) [M + H1; M + H1 + m] ++ read_with H1 [M + H1; M + H1 + m] ++ [Some (M + 2 * H1, H1)])%Z in
  call true uc t lat lon alg refr eng = Ok sp ->
  time_label (l_zenith sp) 1 (M + H1) /\ time_label (l_zenith sp) 3 (M + H1) /\
  nth_error (sp_times_utc sp) 1 = Some (Some (M - H1)%Z) /\ nth_error (sp_times_utc sp) 3 = Some (Some M).
Proof.
  intros F O uc lat lon alg refr eng sp M m t H. assert (Et := proj1 (call_labels _ _ _ _ _ _ _ _ _ H)).
  assert (L : forall k w, nth_error (readings t) k = Some (Some w) -> time_label (l_zenith sp) k w).
  { intros k w Hk. exists (sp_times sp). rewrite Et. split; [|exact Hk]. unfold l_zenith, l_raw_zenith, dims_zenith. cbn. rewrite Et. now destruct (sp_usecase sp). }
  split; [apply L; reflexivity|]. split; [apply L; reflexivity|].
  destruct (call_Ok_inv _ _ _ _ _ _ _ _ _ H) as (mm & tz & ws & us & Ha & ->). destruct Ha. cbn [mk_sp sp_times_utc].
  assert (E := C15_example_series). cbv zeta in E. fold M m in E.
  match goal with K : ctor_times t = Ok _ |- _ => unfold t in K; rewrite E in K; injection K as <- <- <- end. split; reflexivity.
Qed.
(** The hypotheses are met: the grid of Witness.v (with a NaT and a NaN), and the half-hourly series of Berlin. *)
Example C99_example : forall uc alg eng m refr, In (alg, eng, m) (supported (F := ext) (O := ExtOps ideal_env)) ->
  exists sp, call (O := ExtOps ideal_env) true uc (at_times w_times) w_lat w_lon alg refr eng = Ok sp /\ faithful_times (at_times w_times) /\
    (forall l : labels ext, (fun _ _ => true) l l = true) /\ nth_error (instants (at_times w_times)) 0 = Some (Some 1718964000123456789%Z) /\
    at_idx uc (elems w_lat) (elems w_lon) 0 0 0 (Fin (Rdefinitions.IZR 40)) (Fin (Rdefinitions.IZR (-3))) /\
    (uc = RegularGrid -> time_label (l_zenith (O := ExtOps ideal_env) sp) 0 1718964000123456789 /\ coordinate_label (l_zenith (O := ExtOps ideal_env) sp) DLatitude 0 (Fin (Rdefinitions.IZR 40)) /\
       coordinate_label (l_zenith (O := ExtOps ideal_env) sp) DLongitude 0 (Fin (Rdefinitions.IZR (-3)))).
Proof.
  intros uc alg eng m refr H. destruct (w_call uc alg eng m refr H) as [sp Hsp]. exists sp. split; [exact Hsp|]. split; [exact I|]. split; [reflexivity|]. split; [reflexivity|].
  split; [destruct uc; split; reflexivity|]. intros ->.
  destruct (call_fields true RegularGrid _ _ _ _ _ _ _ Hsp) as (Uc & Ela & Elo & _). assert (Et := proj1 (call_labels true RegularGrid _ _ _ _ _ _ _ Hsp)).
  unfold time_label, coordinate_label, l_zenith, l_raw_zenith, dims_zenith. rewrite Uc. cbn. rewrite Et, Ela, Elo. repeat split; eexists; split; reflexivity.
Qed.
Example C101_example : forall alg eng m refr, In (alg, eng, m) (supported (F := ext) (O := ExtOps ideal_env)) ->
  let M := (1729990800 * NS_PER_S)%Z in let m := (30 * 60 * NS_PER_S)%Z in
  exists sp, call (O := ExtOps ideal_env) true RegularGrid
    (TAware false (PytzNamed "Europe/Berlin" berlin2024) ([Some (M + m, 2 * H1)] ++ read_with (2 * H1) [M + H1; M + H1 + m] ++ read_with H1 [M + H1; M + H1 + m] ++ [Some (M + 2 * H1, H1)])%Z)
    w_lat w_lon alg refr eng = Ok sp.
Proof.
  intros alg eng m refr H M mm.
  set (t := TAware false (PytzNamed "Europe/Berlin" berlin2024) ([Some (M + mm, 2 * H1)] ++ read_with (2 * H1) [M + H1; M + H1 + mm] ++ read_with H1 [M + H1; M + H1 + mm] ++ [Some (M + 2 * H1, H1)])%Z).
  destruct (accept_lemma (O := ExtOps ideal_env) true RegularGrid (instants t) w_lat w_lon alg refr eng m eq_refl H (or_introl eq_refl) (or_introl eq_refl) I (w_coords ideal_env)) as (sp0 & H0).
  destruct (call_aware_ctor (O := ExtOps ideal_env) true RegularGrid t w_lat w_lon alg refr eng sp0 H0 ltac:(discriminate)) as [_ K].
  destruct (K _ _ _ C15_example_series) as (sp & Hc & _). now exists sp.
Qed.
