(** * PropPipeline: properties of the whole call pipeline, for every arithmetic

    Every theorem of this file quantifies over the carrier [F] and the elementary operations [O]
    (see Num.v): it holds whatever sin, cos, rounding, ... return. *)

From Coq Require Import ZArith QArith List Bool Arith String Reals Sorting.Sorted.
From Verif Require Import Num Arrays Libspa Time Core Usecases Spec GenericLemmas GenericLemmas2 TimeLemmas TimeFold Ext Witness.
Import ListNotations.
Open Scope nat_scope.
Open Scope list_scope.

(** ** C01 *)
Theorem C01_shapes : forall F (O : Ops F) ne uc times lat lon alg refr eng (sp : Sunpos F),
  call ne uc times lat lon alg refr eng = Ok sp ->
  let K := List.length (instants times) in
  let J := List.length (elems lat) in
  let I := List.length (elems lon) in
  shape (sp_zenith sp) = doc_shape uc K J I /\ wf_array (sp_zenith sp) /\
  shape (sp_azimuth sp) = doc_shape uc K J I /\ wf_array (sp_azimuth sp) /\
  shape (sp_ecf sp) = [K] /\ wf_array (sp_ecf sp) /\
  shape (sp_eot sp) = [K] /\ wf_array (sp_eot sp) /\
  shape (sp_declination sp) = [K] /\ wf_array (sp_declination sp).
Proof. intros F O. exact shapes_lemma. Qed.
Print Assumptions C01_shapes.

Theorem C01_no_assertion : forall F (O : Ops F) ne uc times lat lon alg refr eng,
  call (F := F) ne uc times lat lon alg refr eng <> Raise AssertionError.
Proof. intros F O. exact no_assertion. Qed.
Print Assumptions C01_no_assertion.

(** The calls below succeed, for every use case, algorithm, engine and refraction flag: they meet the
    hypotheses of this file's theorems. *)
Example C01_example : forall uc alg eng m refr,
  In (alg, eng, m) (supported (F := ext) (O := ExtOps ideal_env)) ->
  exists sp, call (O := ExtOps ideal_env) true uc (at_times w_times) w_lat w_lon alg refr eng = Ok sp /\
    shape (sp_zenith sp) = doc_shape uc 3 3 3.
Proof.
  intros uc alg eng m refr H. destruct (w_call uc alg eng m refr H) as [sp Hsp]. exists sp.
  split; [exact Hsp|]. apply C01_shapes in Hsp. exact (proj1 Hsp).
Qed.

(** ** C02: a result depends on its own time and place only *)
Theorem C02_independence : forall F (O : Ops F) ne uc times lat lon times' lat' lon' alg refr eng (sp sp' : Sunpos F)
    k j i k' j' i' t la lo,
  call ne uc times lat lon alg refr eng = Ok sp ->
  call ne uc times' lat' lon' alg refr eng = Ok sp' ->
  nth_error (instants times) k = Some t -> nth_error (instants times') k' = Some t ->
  at_idx uc (elems lat) (elems lon) k j i la lo ->
  at_idx uc (elems lat') (elems lon') k' j' i' la lo ->
  same_position sp sp' (idx uc k j i) (idx uc k' j' i') /\ same_time_outputs sp sp' k k'.
Proof. intros F O. exact independence. Qed.
Print Assumptions C02_independence.

Theorem C02_single_call : forall F (O : Ops F) ne uc times lat lon alg refr eng (sp : Sunpos F) k j i t la lo,
  call ne uc times lat lon alg refr eng = Ok sp ->
  nth_error (instants times) k = Some t -> at_idx uc (elems lat) (elems lon) k j i la lo ->
  exists sp1, call ne uc (at_time t) (Scalar la) (Scalar lo) alg refr eng = Ok sp1 /\
    same_position sp sp1 (idx uc k j i) (idx uc 0 0 0) /\ same_time_outputs sp sp1 k 0.
Proof.
  intros F O ne uc times lat lon alg refr eng sp k j i t la lo H Hk Hi.
  destruct (single_call ne uc uc times lat lon alg refr eng sp t k j i la lo H Hi) as [sp1 H1].
  exists sp1. split; [exact H1|].
  exact (independence ne uc times lat lon (at_time t) (Scalar la) (Scalar lo) alg refr eng sp sp1 k j i 0 0 0 t la lo
           H H1 Hk eq_refl Hi (at_idx_single uc la lo)).
Qed.
Print Assumptions C02_single_call.

(** ** C03, C04: the three use cases agree (unconditionally for exact arithmetic: PropExact.v) *)
Theorem C03_grid_eq_sites : forall F (O : Ops F) ne times lat lon alg refr eng (g : Sunpos F) k j i t la lo,
  regular_grid ne times lat lon alg refr eng = Ok g ->
  nth_error (instants times) k = Some t ->
  nth_error (elems lat) j = Some la -> nth_error (elems lon) i = Some lo ->
  exists s, sites ne (at_time t) (Scalar la) (Scalar lo) alg refr eng = Ok s /\
    same_time_outputs g s k 0 /\
    same_at (sp_zenith g) (sp_zenith s) [k; j; i] [0; 0] /\
    ((alg = "soltrack"%string -> eng = "numexpr"%string ->
        forall d, get (sp_declination g) [k] = Some d -> ftan d = div (fsin d) (fcos d)) ->
     same_at (sp_azimuth g) (sp_azimuth s) [k; j; i] [0; 0]).
Proof. intros F O. exact grid_eq_sites. Qed.
Print Assumptions C03_grid_eq_sites.

Theorem C04_transect_eq_sites : forall F (O : Ops F) ne times lat lon alg refr eng (g : Sunpos F) k t la lo,
  transect ne times lat lon alg refr eng = Ok g ->
  nth_error (instants times) k = Some t ->
  nth_error (elems lat) k = Some la -> nth_error (elems lon) k = Some lo ->
  (alg = "iqbal"%string -> eng = "numexpr"%string -> div32 (cast32 lo) (lit 15.0) = div (cast32 lo) (lit 15.0)) ->
  exists s, sites ne (at_time t) (Scalar la) (Scalar lo) alg refr eng = Ok s /\
    same_time_outputs g s k 0 /\
    same_at (sp_zenith g) (sp_zenith s) [k] [0; 0] /\
    ((alg = "soltrack"%string -> eng = "numexpr"%string ->
        forall d, get (sp_declination g) [k] = Some d -> ftan d = div (fsin d) (fcos d)) ->
     same_at (sp_azimuth g) (sp_azimuth s) [k] [0; 0]).
Proof. intros F O. exact transect_eq_sites. Qed.
Print Assumptions C04_transect_eq_sites.

(** ** C05: re-ordering, repeating, selecting and concatenating times *)
Theorem C05_pick : forall F (O : Ops F) ne uc times lat lon alg refr eng (sp : Sunpos F) p,
  call ne uc times lat lon alg refr eng = Ok sp ->
  let us := instants times in
  (forall i, In i p -> i < List.length us) ->
  exists sp', call ne uc (at_times (pick p us)) (pick_coord uc p lat) (pick_coord uc p lon) alg refr eng = Ok sp' /\
    forall r k, nth_error p r = Some k ->
      same_time_outputs sp sp' k r /\
      forall j i la lo, at_idx uc (elems lat) (elems lon) k j i la lo ->
        same_position sp sp' (idx uc k j i) (idx uc r j i).
Proof. intros F O. exact pick_lemma. Qed.
Print Assumptions C05_pick.

Theorem C05_concat : forall F (O : Ops F) ne uc l1 l2 lat lon alg refr eng (ab : Sunpos F),
  uc <> Transect ->
  call ne uc (at_times (l1 ++ l2)) lat lon alg refr eng = Ok ab ->
  exists a b, call ne uc (at_times l1) lat lon alg refr eng = Ok a /\
              call ne uc (at_times l2) lat lon alg refr eng = Ok b /\
    app_rows (sp_zenith a) (sp_zenith b) (sp_zenith ab) /\
    app_rows (sp_azimuth a) (sp_azimuth b) (sp_azimuth ab) /\
    app_rows (sp_ecf a) (sp_ecf b) (sp_ecf ab) /\
    app_rows (sp_eot a) (sp_eot b) (sp_eot ab) /\
    app_rows (sp_declination a) (sp_declination b) (sp_declination ab).
Proof. intros F O. exact concat_lemma. Qed.
Print Assumptions C05_concat.

(** Reversing the three witness times and repeating the first. *)
Example C05_example :
  pick [2; 1; 0; 0] w_times = [Some (-1)%Z; None; Some 1718964000123456789%Z; Some 1718964000123456789%Z].
Proof. reflexivity. Qed.

(** ** C06: NaT *)
Theorem C06_nat_rows : forall F (O : Ops F) ne uc times lat lon alg refr eng (sp : Sunpos F) k,
  call ne uc times lat lon alg refr eng = Ok sp ->
  nth_error (instants times) k = Some None ->
  get (sp_ecf sp) [k] = Some fnan /\ get (sp_eot sp) [k] = Some fnan /\
  get (sp_declination sp) [k] = Some fnan /\
  forall j i la lo, at_idx uc (elems lat) (elems lon) k j i la lo ->
    get (sp_zenith sp) (idx uc k j i) = Some fnan /\ get (sp_azimuth sp) (idx uc k j i) = Some fnan.
Proof. intros F O. exact nat_rows. Qed.
Print Assumptions C06_nat_rows.

Theorem C06_nat_others : forall F (O : Ops F) ne uc times lat lon alg refr eng (sp : Sunpos F),
  call ne uc times lat lon alg refr eng = Ok sp ->
  let us := instants times in
  exists sp', call ne uc (at_times (filter isSome us)) (drop_nat_coord uc us lat) (drop_nat_coord uc us lon)
                alg refr eng = Ok sp' /\
    forall k z, nth_error us k = Some (Some z) ->
      same_time_outputs sp sp' k (valid_before us k) /\
      forall j i la lo, at_idx uc (elems lat) (elems lon) k j i la lo ->
        same_position sp sp' (idx uc k j i) (idx uc (valid_before us k) j i).
Proof. intros F O. exact nat_others. Qed.
Print Assumptions C06_nat_others.

Example C06_example : nth_error (instants (at_times w_times)) 1 = Some None /\ valid_before w_times 2 = 1.
Proof. split; reflexivity. Qed.

(** ** C08: coordinate validation, in terms of the comparisons of the arithmetic (real form: PropExact.v) *)
Theorem C08_accept : forall F (O : Ops F) uc l lat lon alg refr eng m,
  In (alg, eng, m) (supported (F := F)) ->
  one_dim lat (elems lat) -> one_dim lon (elems lon) ->
  shape_cond uc (List.length l) (List.length (elems lat)) (List.length (elems lon)) ->
  coords_ok (elems lat) (elems lon) ->
  exists sp, call true uc (at_times l) lat lon alg refr eng = Ok sp.
Proof. intros F O uc l lat lon alg refr eng m. exact (accept_lemma true uc l lat lon alg refr eng m eq_refl). Qed.
Print Assumptions C08_accept.

Theorem C08_reject : forall F (O : Ops F) ne uc times lat lon alg refr eng m,
  (forall n, times <> TMulti n) ->
  In (alg, eng, m) (supported (F := F)) ->
  one_dim lat (elems lat) -> one_dim lon (elems lon) ->
  ~ coords_ok (elems lat) (elems lon) ->
  call ne uc times lat lon alg refr eng = Raise ValueError.
Proof. intros F O. exact coords_reject_lemma. Qed.
Print Assumptions C08_reject.

Theorem C08_never_evaluated : forall F (O : Ops F) ne uc times lat lon alg refr eng (sp : Sunpos F),
  call ne uc times lat lon alg refr eng = Ok sp -> coords_ok (elems lat) (elems lon).
Proof. intros F O. exact ok_coords. Qed.
Print Assumptions C08_never_evaluated.

(** ** C10: shape mismatches *)
Theorem C10_mismatch : forall F (O : Ops F) ne uc times (lat lon : arg F) alg refr eng,
  (forall n, times <> TMulti n) ->
  ~ shape_cond uc (List.length (instants times)) (List.length (elems lat)) (List.length (elems lon)) ->
  call ne uc times lat lon alg refr eng = Raise ValueError.
Proof. intros F O. exact mismatch_lemma. Qed.
Print Assumptions C10_mismatch.

Theorem C10_multi : forall F (O : Ops F) ne uc times (lat lon : arg F) alg refr eng n,
  n >= 2 -> lat = Multi n \/ lon = Multi n -> (forall n, times <> TMulti n) ->
  call ne uc times lat lon alg refr eng = Raise ValueError.
Proof. intros F O. exact multi_lemma. Qed.
Print Assumptions C10_multi.

Theorem C10_multi_times : forall F (O : Ops F) ne uc (lat lon : arg F) alg refr eng n,
  call ne uc (TMulti n) lat lon alg refr eng = Raise TypeError.
Proof. intros F O. exact multi_times_lemma. Qed.
Print Assumptions C10_multi_times.

(** Equal shapes with good coordinates are accepted (C08_accept); whatever error a well-shaped call
    raises is then independent of the lengths. *)
Theorem C10_good_shapes_accepted : forall F (O : Ops F) uc l (lats lons : list F) alg refr eng m,
  In (alg, eng, m) supported ->
  shape_cond uc (List.length l) (List.length lats) (List.length lons) -> coords_ok lats lons ->
  exists sp, call true uc (at_times l) (Vec lats) (Vec lons) alg refr eng = Ok sp.
Proof.
  intros F O uc l lats lons alg refr eng m H Hs Hc.
  exact (accept_lemma true uc l (Vec lats) (Vec lons) alg refr eng m eq_refl H (or_introl eq_refl) (or_introl eq_refl) Hs Hc).
Qed.
Print Assumptions C10_good_shapes_accepted.

(** The same checks on [evaluate] itself: coordinates of two or more dimensions, numbers of times and coordinates that do
    not fit [ndim], and values of [ndim] other than 0, 1 and 2. *)
Theorem C10_evaluate : forall F (O : Ops F) ne times (lat lon : arg F) alg refr eng nd,
  (forall n, times <> TMulti n) ->
  (exists n, n >= 2 /\ (lat = Multi n \/ lon = Multi n))
  \/ (nd = 0 /\ ~ (List.length (instants times) = List.length (elems lat) /\ List.length (elems lat) = List.length (elems lon)))
  \/ (nd = 1 /\ List.length (elems lat) <> List.length (elems lon))
  \/ (nd <> 0 /\ nd <> 1 /\ nd <> 2) ->
  evaluate ne times lat lon alg nd refr eng = Raise ValueError.
Proof. intros F O. exact evaluate_shapes. Qed.
Print Assumptions C10_evaluate.

Example C10_example :
  call (O := ExtOps ideal_env) true Sites (at_times w_times) (Vec [Fin 1%R; Fin 2%R]) (Vec [Fin 1%R]) "psa" RTrue "numexpr"
    = Raise ValueError /\
  call (O := ExtOps ideal_env) true Transect (at_times w_times) (Vec [Fin 1%R; Fin 2%R]) (Vec [Fin 1%R; Fin 2%R]) "psa" RTrue "numexpr"
    = Raise ValueError.
Proof.
  split; (apply C10_mismatch; [discriminate|]); cbn; [discriminate|intros [H _]; discriminate].
Qed.

(** ** C11: dispatch *)
Theorem C11_unsupported_evaluate : forall F (O : Ops F) ne alg eng times lat lon nd refr,
  (forall m, ~ In (alg, eng, m) (supported (F := F))) ->
  evaluate (F := F) ne times lat lon alg nd refr eng = Raise ValueError.
Proof. intros F O. exact unsupported_evaluate. Qed.
Print Assumptions C11_unsupported_evaluate.

Theorem C11_unsupported_call : forall F (O : Ops F) ne uc alg eng times lat lon refr,
  (forall m, ~ In (alg, eng, m) (supported (F := F))) -> (forall n, times <> TMulti n) ->
  call (F := F) ne uc times lat lon alg refr eng = Raise ValueError.
Proof. intros F O. exact unsupported_call. Qed.
Print Assumptions C11_unsupported_call.

Theorem C11_dispatch : forall F (O : Ops F) ne uc times lat lon alg refr eng (sp : Sunpos F) m k t la lo,
  call ne uc times lat lon alg refr eng = Ok sp -> In (alg, eng, m) supported ->
  nth_error (instants times) k = Some (Some t) ->
  let s := (t / 1000000000)%Z in
  get (sp_ecf sp) [k] = Some (lib_ecf m (lib_time m s)) /\
  get (sp_eot sp) [k] = Some (lib_eot m (lib_time m s)) /\
  get (sp_declination sp) [k] = Some (lib_dec m (lib_time m s)) /\
  forall j i, at_idx uc (elems lat) (elems lon) k j i la lo ->
    get (sp_zenith sp) (idx uc k j i) =
      Some (fst (lib_cell m uc (is_True refr) (lib_time m s) (lib_cast m lo) (lib_cast m la))) /\
    get (sp_azimuth sp) (idx uc k j i) =
      Some (snd (lib_cell m uc (is_True refr) (lib_time m s) (lib_cast m lo) (lib_cast m la))).
Proof. intros F O. exact dispatch_lemma. Qed.
Print Assumptions C11_dispatch.

Theorem C11_unique : forall F (O : Ops F) alg eng (m m' : spalib F),
  In (alg, eng, m) supported -> In (alg, eng, m') supported -> m = m'.
Proof. intros F O. exact supported_unique. Qed.
Print Assumptions C11_unique.

Example C11_example : forall m, ~ In ("nrel"%string, "numpy"%string, m) (supported (F := ext) (O := ExtOps ideal_env)).
Proof. intros m H. cbn [supported In] in H. repeat (destruct H as [H|H]; [discriminate H|]). exact H. Qed.

(** ** C12, C13: only the whole seconds of the UTC instant matter *)
Theorem C12_seconds : forall F (O : Ops F) ne uc t1 t2 lat lon alg refr eng (a b : Sunpos F),
  map (option_map (fun z => z / 1000000000)%Z) (instants t1) =
  map (option_map (fun z => z / 1000000000)%Z) (instants t2) ->
  call ne uc t1 lat lon alg refr eng = Ok a ->
  call ne uc t2 lat lon alg refr eng = Ok b -> same_outputs a b.
Proof. intros F O. exact seconds_lemma. Qed.
Print Assumptions C12_seconds.

Example C12_example : (* -1 ns belongs to second -1, not to second 0 *)
  map (option_map (fun z => z / 1000000000)%Z) (instants (at_times [Some (-1)%Z])) =
  map (option_map (fun z => z / 1000000000)%Z) (instants (at_times [Some (-1000000000)%Z])).
Proof. reflexivity. Qed.

Theorem C13_same_instants : forall F (O : Ops F) ne uc t1 t2 lat lon alg refr eng (a b : Sunpos F),
  instants t1 = instants t2 ->
  call ne uc t1 lat lon alg refr eng = Ok a ->
  call ne uc t2 lat lon alg refr eng = Ok b -> same_outputs a b.
Proof.
  intros F O ne uc t1 t2 lat lon alg refr eng a b H.
  exact (seconds_lemma ne uc t1 t2 lat lon alg refr eng a b (f_equal _ H)).
Qed.
Print Assumptions C13_same_instants.

(** A noon reading in Berlin summer time and the same instant in UTC. *)
Definition w_berlin (single : bool) : times_arg :=
  TAware single (PytzNamed "Europe/Berlin" berlin2024) [Some (1718964000 * NS_PER_S, 2 * H1)%Z].
Example C13_example : instants (w_berlin true) = instants (at_time (Some (1718956800 * NS_PER_S)%Z)).
Proof. reflexivity. Qed.

(** ** C14: times_utc is the evaluated instant - for naive times, for named pytz zones away from
    repeated readings, and for zones without [zone] attribute only at offset zero *)
Theorem C14_times_utc_partial : forall F (O : Ops F) ne uc t lat lon alg refr eng (sp : Sunpos F),
  faithful_times t -> call ne uc t lat lon alg refr eng = Ok sp -> sp_times_utc sp = instants t.
Proof. intros F O. exact times_utc_faithful. Qed.
Print Assumptions C14_times_utc_partial.

(** The full claim is false: with a zoneinfo/datetime.timezone zone (the default of the required
    pandas) every non-zero offset is silently dropped. *)
Theorem C14_times_utc_refuted : forall F (O : Ops F) ne uc s z l lat lon alg refr eng (sp : Sunpos F) w o k,
  call ne uc (TAware s (NoZoneAttr z) l) lat lon alg refr eng = Ok sp ->
  nth_error l k = Some (Some (w, o)) -> o <> 0%Z ->
  nth_error (instants (TAware s (NoZoneAttr z) l)) k = Some (Some (w - o)%Z) /\
  nth_error (sp_times_utc sp) k = Some (Some w) /\ w <> (w - o)%Z.
Proof. intros F O. exact no_zone_attr_wrong. Qed.
Print Assumptions C14_times_utc_refuted.

(** ... and pytz.FixedOffset times are not accepted at all. *)
Theorem C14_fixed_offset_refuted : forall F (O : Ops F) ne uc s o l lat lon alg refr eng (sp : Sunpos F),
  call ne uc (at_times (instants (TAware s (PytzFixed o) l))) lat lon alg refr eng = Ok sp ->
  call ne uc (TAware s (PytzFixed o) l) lat lon alg refr eng = Raise TypeError.
Proof. intros F O. exact pytz_fixed_fails. Qed.
Print Assumptions C14_fixed_offset_refuted.

(** Nor are named zones always right: two times given in decreasing order inside the second pass of a repeated hour are
    taken for its two passes, and the first one is silently moved. *)
Theorem C14_decreasing_refuted : forall F (O : Ops F) ne z W0 W1 o1 o2 uc s nm w w' lat lon alg refr eng (sp : Sunpos F),
  let t := TAware s (PytzNamed nm z) [Some (w, o2); Some (w', o2)] in
  zone_wf z -> repeated_hour z W0 W1 o1 o2 -> (W0 <= w < W1)%Z -> (W0 <= w' < W1)%Z -> (w' < w)%Z ->
  call ne uc (at_times (instants t)) lat lon alg refr eng = Ok sp ->
  exists sp', call ne uc t lat lon alg refr eng = Ok sp' /\ same_outputs sp sp' /\
    instants t = [Some (w - o2); Some (w' - o2)]%Z /\ sp_times_utc sp' = [Some (w - o1); Some (w' - o2)]%Z /\ (w - o1 <> w - o2)%Z.
Proof. intros F O ne z W0 W1 o1 o2 uc s nm w w' lat lon alg refr eng sp t Hwf Hf. exact (fold_descending ne z W0 W1 o1 o2 Hwf Hf uc s nm w w' lat lon alg refr eng sp). Qed.
Print Assumptions C14_decreasing_refuted.

Example C14_example_faithful : faithful_times (w_berlin true).
Proof.
  split; [exact berlin_wf|]. intros w o [H|[]]. injection H as <- <-. split; [reflexivity|exact berlin_unambiguous].
Qed.
Example C14_example_wrong : exists sp w,
  sites (O := ExtOps ideal_env) true (TAware true (NoZoneAttr berlin2024) [Some (1718964000 * NS_PER_S, 2 * H1)%Z])
    (Scalar (Fin 40%R)) (Scalar (Fin (-3)%R)) "psa" RTrue "numexpr" = Ok sp /\
  nth_error (sp_times_utc sp) 0 = Some (Some w) /\
  instants (TAware true (NoZoneAttr berlin2024) [Some (1718964000 * NS_PER_S, 2 * H1)%Z]) = [Some (w - 2 * H1)%Z].
Proof.
  destruct (w_call Sites "psa" "numexpr" (ne_psa (O := ExtOps ideal_env)) RTrue) as [sp0 Hsp0]; [cbn; tauto|].
  destruct (single_call (O := ExtOps ideal_env) true Sites Sites (at_times w_times) w_lat w_lon "psa" RTrue "numexpr" sp0
    (Some ((1718964000 * NS_PER_S - 2 * H1)%Z)) 0 0 0 (Fin 40%R) (Fin (-3)%R) Hsp0) as [sp1 Hsp1]; [split; reflexivity|].
  destruct (call_aware_ctor (O := ExtOps ideal_env) true Sites
     (TAware true (NoZoneAttr berlin2024) [Some (1718964000 * NS_PER_S, 2 * H1)%Z])
     (Scalar (Fin 40%R)) (Scalar (Fin (-3)%R)) "psa" RTrue "numexpr" sp1) as [_ H].
  - cbn [instants map]. unfold at_time in Hsp1. rewrite UsecaseLemmas.call_eq in Hsp1 |- *. exact Hsp1.
  - discriminate.
  - destruct (H "UTC"%string [Some (1718964000 * NS_PER_S)%Z] [Some (1718964000 * NS_PER_S)%Z]) as (sp' & H1' & _ & H2 & _).
    + vm_compute. reflexivity.
    + exists sp', (1718964000 * NS_PER_S)%Z. split; [exact H1'|]. rewrite H2. split; reflexivity.
Qed.

(** ** C15: a single instant inside a repeated hour raises AmbiguousTimeError *)
Theorem C15_fold_refuted : forall F (O : Ops F) ne uc s nm z w o lat lon alg refr eng (sp : Sunpos F),
  zone_wf z -> ambiguous z w ->
  call ne uc (at_time (Some (w - o)%Z)) lat lon alg refr eng = Ok sp ->
  call ne uc (TAware s (PytzNamed nm z) [Some (w, o)]) lat lon alg refr eng = Raise AmbiguousTimeError.
Proof. intros F O. exact single_ambiguous_fails. Qed.
Print Assumptions C15_fold_refuted.

(** More generally every increasing series whose readings inside the repeated hour increase throughout - from one
    pass only, or from both with a step longer than the overlap. *)
Theorem C15_increasing_refuted : forall F (O : Ops F) ne z W0 W1 o1 o2 uc s nm pre ws1 ws2 post lat lon alg refr eng (sp : Sunpos F),
  let t := TAware s (PytzNamed nm z) (pre ++ read_with o1 ws1 ++ read_with o2 ws2 ++ post) in
  zone_wf z -> repeated_hour z W0 W1 o1 o2 ->
  outside_folds z pre -> outside_folds z post -> (forall w, In w (ws1 ++ ws2) -> W0 <= w < W1)%Z ->
  ws1 ++ ws2 <> [] -> Sorted Z.lt (ws1 ++ ws2) ->
  call ne uc (at_times (instants t)) lat lon alg refr eng = Ok sp ->
  call ne uc t lat lon alg refr eng = Raise AmbiguousTimeError.
Proof. intros F O ne z W0 W1 o1 o2 uc s nm pre ws1 ws2 post lat lon alg refr eng sp t Hwf Hf. exact (fold_increasing ne z W0 W1 o1 o2 Hwf Hf uc s nm pre ws1 ws2 post lat lon alg refr eng sp). Qed.
Print Assumptions C15_increasing_refuted.

(** What does hold: an increasing series with readings from both passes of a repeated hour, the second pass starting at
    or before the last reading of the first, is accepted and every instant is kept. *)
Theorem C15_fold_partial : forall F (O : Ops F) ne z W0 W1 o1 o2 uc s nm pre ws1 w2 ws2 post d lat lon alg refr eng (sp : Sunpos F),
  let t := TAware s (PytzNamed nm z) (pre ++ read_with o1 ws1 ++ read_with o2 (w2 :: ws2) ++ post) in
  zone_wf z -> repeated_hour z W0 W1 o1 o2 ->
  outside_folds z pre -> outside_folds z post -> (forall w, In w (ws1 ++ w2 :: ws2) -> W0 <= w < W1)%Z ->
  ws1 <> [] -> Sorted Z.lt ws1 -> Sorted Z.lt (w2 :: ws2) -> (w2 <= last ws1 d)%Z ->
  call ne uc (at_times (instants t)) lat lon alg refr eng = Ok sp ->
  exists sp', call ne uc t lat lon alg refr eng = Ok sp' /\ same_outputs sp sp' /\ sp_times_utc sp' = instants t.
Proof. intros F O ne z W0 W1 o1 o2 uc s nm pre ws1 w2 ws2 post d lat lon alg refr eng sp t Hwf Hf. exact (fold_series ne z W0 W1 o1 o2 Hwf Hf uc s nm pre ws1 w2 ws2 post d lat lon alg refr eng sp). Qed.
Print Assumptions C15_fold_partial.

(** Berlin, 2024-10-27: 02:00-03:00 is shown twice, with UTC+2 and then with UTC+1. *)
Example C15_example_fold : zone_wf berlin2024 /\
  repeated_hour berlin2024 (1729990800 * NS_PER_S + H1)%Z (1729990800 * NS_PER_S + 2 * H1)%Z (2 * H1)%Z H1.
Proof. split; [exact berlin_wf|exact berlin_repeated]. Qed.
(** A half-hourly series over it, from 01:30 to 03:00 local: 01:30+2, 02:00+2, 02:30+2, 02:00+1, 02:30+1, 03:00+1. *)
Example C15_example_series : let M := (1729990800 * NS_PER_S)%Z in let m := (30 * 60 * NS_PER_S)%Z in
  ctor_times (TAware false (PytzNamed "Europe/Berlin" berlin2024)
    ([Some (M + m, 2 * H1)] ++ read_with (2 * H1) [M + H1; M + H1 + m] ++ read_with H1 [M + H1; M + H1 + m] ++ [Some (M + 2 * H1, H1)]))%Z
  = Ok ("Europe/Berlin"%string, map Some [M + m; M + H1; M + H1 + m; M + H1; M + H1 + m; M + 2 * H1]%Z,
        map Some [M - 3 * m; M - 2 * m; M - m; M; M + m; M + 2 * m]%Z).
Proof. vm_compute. reflexivity. Qed.

Example C15_example : zone_wf berlin2024 /\ ambiguous berlin2024 ((1729990800 - 1800) * NS_PER_S + 2 * H1)%Z.
Proof. split; [exact berlin_wf|exact berlin_ambiguous]. Qed.

(** ** C16: refraction only changes the zenith *)
Theorem C16_refraction_only_zenith : forall F (O : Ops F) ne uc times lat lon alg eng r r' (a : Sunpos F),
  call ne uc times lat lon alg r eng = Ok a ->
  exists b, call ne uc times lat lon alg r' eng = Ok b /\
    sp_azimuth b = sp_azimuth a /\ sp_declination b = sp_declination a /\
    sp_ecf b = sp_ecf a /\ sp_eot b = sp_eot a /\
    sp_times_utc b = sp_times_utc a /\ sp_latitude b = sp_latitude a /\ sp_longitude b = sp_longitude a.
Proof. intros F O. exact refraction_lemma. Qed.
Print Assumptions C16_refraction_only_zenith.

(** ** C17: has_refraction returns the flag itself; the zenith is refracted iff the flag [is True].
    Hence for booleans it tells the truth, and for any other truthy flag (np.True_, 1) it does not. *)
Theorem C17_has_refraction_partial : forall F (O : Ops F) ne uc times lat lon alg eng r (a : Sunpos F),
  call ne uc times lat lon alg r eng = Ok a ->
  sp_refraction a = r /\
  exists b, call ne uc times lat lon alg (if is_True r then RTrue else RFalse) eng = Ok b /\ sp_zenith b = sp_zenith a.
Proof. intros F O. exact has_refraction_lemma. Qed.
Print Assumptions C17_has_refraction_partial.

Theorem C17_has_refraction_refuted : forall F (O : Ops F) ne uc times lat lon alg eng (a : Sunpos F),
  call ne uc times lat lon alg (ROther true) eng = Ok a ->
  truthy (sp_refraction a) = true /\
  exists b, call ne uc times lat lon alg RFalse eng = Ok b /\ sp_zenith b = sp_zenith a.
Proof.
  intros F O ne uc times lat lon alg eng a H.
  destruct (has_refraction_lemma ne uc times lat lon alg eng (ROther true) a H) as [-> Hb]. split; [reflexivity|exact Hb].
Qed.
Print Assumptions C17_has_refraction_refuted.

Example C17_example : exists a,
  call (O := ExtOps ideal_env) true Sites (at_times w_times) w_lat w_lon "psa" (ROther true) "numexpr" = Ok a.
Proof. apply (w_call Sites "psa" "numexpr" (ne_psa (O := ExtOps ideal_env)) (ROther true)). cbn; tauto. Qed.
