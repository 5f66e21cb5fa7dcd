(** * ChartLemmas: what the curves of the solar chart show *)

From Coq Require Import ZArith QArith List Bool Arith String Lia.
From Verif Require Import Num Arrays Libspa Time Core Usecases Spec UsecaseLemmas GenericLemmas GenericLemmas2 TimeLemmas PropPipeline
  Sunpos SunposSpec SunposLemmas Calendar CalendarSpec CalendarLemmas CalendarSweep Cli Tools PropTools Chart.
Import ListNotations.
Open Scope list_scope.
Open Scope Z_scope.

(** ** Specification *)

(** The readings [start], [start + step], ... *)
Definition every (start : Z) (n : nat) (step : Z) : list Z := map (fun i => start + Z.of_nat i * step) (seq 0 n).
(** A clock that shows the reading [w] exactly once, at the instant [u]. *)
Definition shown_once (z : zone) (w u : Z) : Prop := reading z u = w /\ unambiguous z w.
(** [us] are the instants at which the clock shows the readings [ws], except those it never or repeatedly shows. *)
Inductive clock_instants (z : zone) : list Z -> list Z -> Prop :=
| ci_nil : clock_instants z [] []
| ci_once w u ws us : shown_once z w u -> clock_instants z ws us -> clock_instants z (w :: ws) (u :: us)
| ci_skip w ws us : (forall u, ~ shown_once z w u) -> clock_instants z ws us -> clock_instants z (w :: ws) us.

(** The sun's azimuth and elevation at an instant and place, as [sites] gives them. *)
Definition position_at {F} {O : Ops F} (lat lon : F) (u : Z) (az al : F) : Prop :=
  exists sp, sites true (at_time (Some u)) (Scalar lat) (Scalar lon) "psa" RTrue "numexpr" = Ok sp /\
    reads (saa sp) 0 0 0 az /\ reads (elevation sp) 0 0 0 al.
(** A curve made of the sun's positions at the instants [us]. *)
Definition shows {F} {O : Ops F} (lat lon : F) (us : list Z) (c : curve F) : Prop :=
  Forall2 (fun u p => position_at lat lon u (fst p) (snd p)) us (combine (cv_azimuth c) (cv_altitude c)) /\
  List.length (cv_azimuth c) = List.length us /\ List.length (cv_altitude c) = List.length us.

(** ** The time ranges *)
Lemma once_candidates z w u : zone_wf z -> (shown_once z w u <-> candidates z w = [u]).
Proof.
  intros Hz. split.
  - intros [Hr Hu]. now apply candidates_one.
  - intros E. split.
    + apply (In_candidates z w u Hz). rewrite E. now left.
    + intros u1 u2 H1 H2. apply (In_candidates z w _ Hz) in H1, H2. rewrite E in H1, H2. cbn in *. intuition congruence.
Qed.
Lemma local_range_spec z start n step : zone_wf z ->
  exists us, clock_instants z (every start n step) us /\
    local_range z start n step = map (fun u => (reading z u, z_offset z u)) us.
Proof.
  intros Hz. unfold local_range, every. generalize (seq 0 n). induction l as [|i l (us & H1 & H2)]; cbn [map flat_map].
  - exists []. split; [constructor|reflexivity].
  - cbv zeta. set (w := start + Z.of_nat i * step). destruct (candidates z w) as [|u [|u' r]] eqn:E.
    + exists us. split; [|now rewrite H2]. apply ci_skip; [|exact H1]. intros v Hv. apply (once_candidates z w v Hz) in Hv. congruence.
    + exists (u :: us). assert (Hu := proj2 (once_candidates z w u Hz) E). split; [now constructor|]. rewrite H2. cbn [map app]. f_equal.
      destruct Hu as [Hu _]. rewrite Hu. f_equal. unfold reading in Hu. lia.
    + exists us. split; [|now rewrite H2]. apply ci_skip; [|exact H1]. intros v Hv. apply (once_candidates z w v Hz) in Hv. congruence.
Qed.
Lemma instants_local z l : instants (as_local z l) = map (fun '(w, o) => Some (w - o)) l.
Proof. unfold as_local. cbn [instants]. rewrite map_map. apply map_ext. now intros [w o]. Qed.
Lemma instants_utc l : instants (as_utc l) = map (fun '(w, o) => Some (w - o)) l.
Proof. unfold as_utc. cbn [instants]. rewrite map_map. apply map_ext. intros [w o]. cbn. f_equal. lia. Qed.
Lemma instants_naive l : instants (as_naive l) = map (fun '(w, o) => Some w) l.
Proof. reflexivity. Qed.
Lemma back z us : map (fun '(w, o) => Some (w - o)) (map (fun u => (reading z u, z_offset z u)) us) = map Some us.
Proof. rewrite map_map. apply map_ext. intros u. unfold reading. f_equal. lia. Qed.

(** ** The curves *)
Section Curves.
  Context {F : Type} {O : Ops F}.
  Variables (lat lon : F).

  Lemma column_spec (a : darray F) n : forall k l, column a k n = Ok l ->
    List.length l = n /\ forall i, (i < n)%nat -> nth_error l i = da_at a (fun d => match d with DTime => k + i | _ => 0 end)%nat.
  Proof.
    induction n; intros k l; cbn [column].
    - intros [= <-]. split; [reflexivity|]. lia.
    - destruct (da_at a _) as [x|] eqn:E; [|discriminate]. destruct (column a (S k) n) as [r|] eqn:Er; [|discriminate].
      intros [= <-]. destruct (IHn _ _ Er) as [H1 H2]. split; [cbn; lia|]. intros [|i] Hi; cbn [nth_error].
      + rewrite Nat.add_0_r. now rewrite E.
      + rewrite H2 by lia. now rewrite Nat.add_succ_r.
  Qed.
  Lemma column_ok (a : darray F) n : forall k,
    (forall i, (i < n)%nat -> da_at a (fun d => match d with DTime => k + i | _ => 0 end)%nat <> None) -> exists l, column a k n = Ok l.
  Proof.
    induction n; intros k H; cbn [column]; [eauto|].
    assert (H0 := H 0%nat ltac:(lia)). rewrite Nat.add_0_r in H0. destruct (da_at a _) as [x|]; [|congruence].
    destruct (IHn (S k)) as [l ->]; [|cbn [rbind]; eauto]. intros i Hi. specialize (H (S i) ltac:(lia)). now rewrite Nat.add_succ_r in H.
  Qed.

  Lemma at_one k : at_idx Sites (elems (Scalar lat)) (elems (Scalar lon)) k 0 0 lat lon.
  Proof. split; reflexivity. Qed.

  Lemma da_cell {A} (ds : list dim) (a : ndarray A) e e' : (forall d, In d ds -> e d = e' d) -> da_at (of_nd ds a) e = da_at (of_nd ds a) e'.
  Proof. intros H. cbn. f_equal. apply map_ext_in. exact H. Qed.

  Lemma sunpath_shows times us c : sunpath lat lon times = Ok c -> instants times = map Some us -> shows lat lon us c.
  Proof.
    unfold sunpath. destruct (sites true times _ _ _ _ _) as [sw|] eqn:Es; [|discriminate]. cbn [rbind].
    assert (Hc : call true Sites times (Scalar lat) (Scalar lon) "psa" RTrue "numexpr" = Ok sw) by exact Es.
    destruct (call_fields _ _ _ _ _ _ _ _ _ Hc) as (Huc & _ & _ & Hlen & _).
    destruct (column (saa sw) 0 _) as [az|] eqn:E1; [|discriminate]. cbn [rbind]. destruct (column (elevation sw) 0 _) as [al|] eqn:E2; [|discriminate]. cbn [rbind].
    intros [= <-] Hi. apply column_spec in E1, E2. rewrite Hlen, Hi, map_length in *. destruct E1 as [L1 N1], E2 as [L2 N2]. cbn [cv_azimuth cv_altitude].
    unfold shows. cbn [cv_azimuth cv_altitude]. split; [|now rewrite L1, L2].
    assert (P : forall k u x y, nth_error us k = Some u -> nth_error az k = Some x -> nth_error al k = Some y -> position_at lat lon u x y).
    { intros k u x y Hk Hx Hy.
      assert (Hk' : nth_error (instants times) k = Some (Some u)) by (rewrite Hi; now apply map_nth_error).
      destruct (C02_single_call F O true Sites times (Scalar lat) (Scalar lon) "psa" RTrue "numexpr" sw k 0 0 (Some u) lat lon Hc Hk' (at_one k)) as (sp1 & H1 & [Hz Ha] & _).
      exists sp1. split; [exact H1|]. assert (Hu1 : sp_usecase sp1 = Sites) by apply (call_fields _ _ _ _ _ _ _ _ _ H1).
      assert (Kn : (k < List.length us)%nat) by (apply nth_error_Some; congruence).
      rewrite (N1 _ Kn) in Hx. rewrite (N2 _ Kn) in Hy. unfold reads. revert Hx Hy.
      unfold saa, azimuth, elevation, zenith, raw_azimuth, raw_zenith, dims_zenith, of_nd. rewrite Huc, Hu1. cbn [da_map da_at map Nat.add at_cell idx] in *.
      destruct Hz as (v1 & Ez & Ez'), Ha as (v2 & Ea & Ea'). cbn [idx] in *. rewrite Ez, Ea, Ez', Ea'. auto. }
    clear - P L1 L2. revert az al L1 L2 P. induction us as [|u us IH]; intros [|x az] [|y al]; cbn; try discriminate; intros L1 L2 P; constructor.
    - exact (P 0%nat u x y eq_refl eq_refl eq_refl).
    - apply IH; [lia|lia|]. intros k. exact (P (S k)).
  Qed.
  Lemma sunpath_ok times : (forall n, times <> TMulti n) -> (forall s nm z l, times <> TAware s (PytzNamed nm z) l) -> (forall s o l, times <> TAware s (PytzFixed o) l) ->
    coords_ok [lat] [lon] -> exists c, sunpath lat lon times = Ok c.
  Proof.
    intros Hm Hp Hf Hc.
    destruct (C10_good_shapes_accepted F O Sites (instants times) [lat] [lon] "psa" RTrue "numexpr" (ne_psa (F := F))) as [sp0 H0]; [cbn; tauto|reflexivity|exact Hc|].
    assert (H1 : call true Sites (at_times (instants times)) (Scalar lat) (Scalar lon) "psa" RTrue "numexpr" = Ok sp0) by exact H0.
    assert (Hct : exists tz ws us, ctor_times times = Ok (tz, ws, us)).
    { destruct times as [s l|s [nm z|o|z] l|n]; [|now elim (Hp s nm z l)|now elim (Hf s o l)| |now elim (Hm n)].
      - rewrite ctor_times_naive. eauto.
      - unfold ctor_times. cbn [walls rbind]. rewrite tz_localize_utc. cbn [rbind]. eauto. }
    destruct Hct as (tz & ws & us & Hct).
    destruct (proj2 (call_aware_ctor true Sites times (Scalar lat) (Scalar lon) "psa" RTrue "numexpr" sp0 H1 Hm) tz ws us Hct) as (sp & Hsp & _).
    assert (Hsp' : sites true times (Scalar lat) (Scalar lon) "psa" RTrue "numexpr" = Ok sp) by exact Hsp.
    unfold sunpath. rewrite Hsp'. cbn [rbind]. destruct (call_fields _ _ _ _ _ _ _ _ _ Hsp) as (Huc & _ & _ & Hlen & _). rewrite Hlen.
    assert (Q : forall k, (k < List.length (instants times))%nat -> exists x y, get (sp_azimuth sp) [k; 0%nat] = Some x /\ get (sp_zenith sp) [k; 0%nat] = Some y).
    { intros k Hk. destruct (nth_error (instants times) k) as [t|] eqn:Ht; [|apply nth_error_None in Ht; lia].
      destruct (C02_single_call F O true Sites times (Scalar lat) (Scalar lon) "psa" RTrue "numexpr" sp k 0 0 t lat lon Hsp Ht (at_one k)) as (sp1 & H2 & [Hz Ha] & _).
      cbn [idx] in Hz, Ha. destruct Hz as (v1 & Ez & _), Ha as (v2 & Ea & _). eauto. }
    destruct (column_ok (saa sp) (List.length (instants times)) 0) as [az ->].
    { intros k Hk. destruct (Q k Hk) as (x & y & Hx & Hy). unfold saa, azimuth, raw_azimuth, of_nd, dims_zenith. rewrite Huc. cbn. rewrite Hx. discriminate. }
    destruct (column_ok (elevation sp) (List.length (instants times)) 0) as [al ->].
    { intros k Hk. destruct (Q k Hk) as (x & y & Hx & Hy). unfold elevation, zenith, raw_zenith, of_nd, dims_zenith. rewrite Huc. cbn. rewrite Hy. discriminate. }
    cbn [rbind]. eauto.
  Qed.
End Curves.
