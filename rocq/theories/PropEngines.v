(** * PropEngines: use cases, coordinates and engines, over the (extended) reals

    Companion of PropPipeline.v: the same calls, with exact float64 arithmetic and any float32
    rounding [E] (see PropAstro.v). *)

From Coq Require Import ZArith Znumtheory Zpow_facts QArith Reals Bool List String Lra Lia.
From Flocq Require Import Core.Raux Core.
From Interval Require Import Tactic.
From Verif Require Import Num Arrays Libspa Time Core Usecases Spec UsecaseLemmas GenericLemmas GenericLemmas2 Ext ExtLemmas Witness NanCells
  Sky AstroTac Refraction AstroSpec Astro AstroCell AstroCall AstroRefr AstroRefute Float32 PsaCell Iqbal IqbalR EngineLemmas PropPipeline PropAstro.
Import ListNotations.
Open Scope R_scope.

(** A time that is NaT or representable as datetime64[ns]. *)
Definition ok_time (t : option Z) : Prop := forall z, t = Some z -> representable z.
(** What the documentation accepts: NaN, or degrees in the stated interval. *)
Definition lat_in_range (x : ext) : Prop := x = NaN \/ exists d, x = Fin d /\ -90 <= d <= 90.
Definition lon_in_range (x : ext) : Prop := x = NaN \/ exists d, x = Fin d /\ -180 <= d < 180.

(** ** C03: regular_grid is sites on the mesh, for every float32 rounding *)
Lemma dec_tan E uc times lat lon alg refr eng g k t d :
  call (O := ExtOps E) true uc times lat lon alg refr eng = Ok g ->
  nth_error (instants times) k = Some t -> ok_time t ->
  get (sp_declination g) [k] = Some d -> ftan (Ops := ExtOps E) d = div (Ops := ExtOps E) (fsin (Ops := ExtOps E) d) (fcos (Ops := ExtOps E) d).
Proof.
  intros Hc Hk Ht Hd. destruct t as [z|].
  - destruct (call_time E true uc times lat lon alg refr eng g k z Hc Hk (Ht z eq_refl)) as (x & _ & _ & H & _ & _ & B & _).
    rewrite Hd in H. injection H as ->. apply tan_law_fin. pose proof (cos_dec_b x B). lra.
  - destruct (nat_rows (O := ExtOps E) true uc times lat lon alg refr eng g k Hc Hk) as (_ & _ & H & _).
    rewrite Hd in H. injection H as ->. reflexivity.
Qed.

Theorem C03_grid_is_sites : forall E times lat lon alg refr eng g k j i t la lo,
  regular_grid (O := ExtOps E) true times lat lon alg refr eng = Ok g ->
  nth_error (instants times) k = Some t -> ok_time t ->
  nth_error (elems lat) j = Some la -> nth_error (elems lon) i = Some lo ->
  exists s, sites (O := ExtOps E) true (at_time t) (Scalar la) (Scalar lo) alg refr eng = Ok s /\
    same_time_outputs g s k 0 /\ same_position g s [k; j; i] [0%nat; 0%nat].
Proof.
  intros E times lat lon alg refr eng g k j i t la lo Hg Hk Ht Hj Hi.
  destruct (C03_grid_eq_sites _ (ExtOps E) true times lat lon alg refr eng g k j i t la lo Hg Hk Hj Hi) as (s & H1 & H2 & H3 & H4).
  exists s. split; [exact H1|]. split; [exact H2|]. split; [exact H3|]. apply H4. intros _ _ d.
  exact (dec_tan E RegularGrid times lat lon alg refr eng g k t d Hg Hk Ht).
Qed.

(** ** C04: transect is sites along the track: for every float32 rounding, except for iqbal/numexpr *)
Theorem C04_transect_is_sites_partial : forall E times lat lon alg refr eng g k t la lo,
  (alg = "iqbal"%string -> eng = "numexpr"%string -> ideal E) ->
  transect (O := ExtOps E) true times lat lon alg refr eng = Ok g ->
  nth_error (instants times) k = Some t -> ok_time t ->
  nth_error (elems lat) k = Some la -> nth_error (elems lon) k = Some lo ->
  exists s, sites (O := ExtOps E) true (at_time t) (Scalar la) (Scalar lo) alg refr eng = Ok s /\
    same_time_outputs g s k 0 /\ same_position g s [k] [0%nat; 0%nat].
Proof.
  intros E times lat lon alg refr eng g k t la lo Hq Hg Hk Ht Hj Hi.
  destruct (C04_transect_eq_sites _ (ExtOps E) true times lat lon alg refr eng g k t la lo Hg Hk Hj Hi) as (s & H1 & H2 & H3 & H4).
  { intros Ha He. exact (ExactLaws.ideal_lon15 E lo (Hq Ha He)). }
  exists s. split; [exact H1|]. split; [exact H2|]. split; [exact H3|]. apply H4. intros _ _ d.
  exact (dec_tan E Transect times lat lon alg refr eng g k t d Hg Hk Ht).
Qed.

(** One fifteenth is not a binary32 number. *)
Lemma r32_15 : r32 (1 / 15) <> 1 / 15.
Proof.
  intros H. assert (G : generic_format radix2 (FLT_exp (-149) 24) (r32 (1 / 15))) by (apply generic_format_round; [now apply FLT_exp_valid|apply valid_rnd_N]).
  rewrite H in G. apply FLT_format_generic in G; [|reflexivity]. destruct G as [[m e] G _ _]. unfold F2R in G. cbn [Fnum Fexp] in G.
  assert (Hm : IZR m * bpow radix2 e * 15 = 1) by (rewrite <- G; field).
  destruct (Z_le_gt_dec 0 e) as [He|He].
  - destruct e as [|e|e]; [cbn in Hm|cbn in Hm|lia].
    + rewrite Rmult_1_r, <- mult_IZR in Hm. apply eq_IZR in Hm. lia.
    + rewrite <- !mult_IZR in Hm. apply eq_IZR in Hm. lia.
  - destruct e as [|e|e]; [lia|lia|]. cbn [bpow] in Hm.
    rewrite Z.pow_pos_fold in Hm. change (radix_val radix2) with 2%Z in Hm.
    assert (Hp : IZR (2 ^ Z.pos e) <> 0) by (apply IZR_neq, Z.pow_nonzero; lia).
    assert (E2 : IZR (m * 15) = IZR (2 ^ Z.pos e)).
    { rewrite mult_IZR. apply (Rmult_eq_reg_r (/ IZR (2 ^ Z.pos e))); [rewrite Rinv_r by exact Hp; lra|now apply Rinv_neq_0_compat]. }
    apply eq_IZR in E2.
    assert (Hd : (3 | 2 ^ Z.pos e)%Z) by (exists (m * 5)%Z; lia).
    apply prime_power_prime in Hd; [discriminate Hd|lia|exact prime_3|exact prime_2].
Qed.

(** ... so at longitude 1 the zenith of iqbal/numexpr differs between transect and sites (the transect
    code divides the float32 longitudes by 15 in float64, the sites code in float32). *)
Lemma iq_eq_lat E r std eot del (x : R) ecf l15 : rnd E 0 = 0 -> rnd E 1 = 1 -> 0 < cos del -> 0 <= std + l15 + eot < 12 ->
  let t := {| iq_std := Fin std; iq_ecf := ecf; iq_eot := Fin eot; iq_dec := Fin del |} in
  (rnd E (x / 15) = l15 -> r = false -> fst (ne_iqbal_2d (O := ExtOps E) r t (Fin x) (Fin 0)) = Fin (acos (cos del * cos ((std + l15 + eot - 12) * 15 * (PI / 180))))) /\
  (x / 15 = l15 -> r = false -> fst (ne_iqbal_1d (O := ExtOps E) r t (Fin x) (Fin 0)) = Fin (acos (cos del * cos ((std + l15 + eot - 12) * 15 * (PI / 180))))).
Proof.
  intros H0 H1 Hd Hb t. assert (Hd' : cos del <> 0) by lra.
  assert (L : i_lat std l15 eot = std + l15 + eot).
  { unfold i_lat, i_lat2, i_lat1, where_. destruct (Rltb_spec (std + l15 + eot) #0) as [A|A]; [exfalso; q2; lra|].
    cbv zeta. destruct (Rleb_spec #24 (std + l15 + eot)) as [B|B]; [exfalso; q2; lra|reflexivity]. }
  assert (C0 : cos 0 = 1) by apply cos_0. assert (S0 : sin 0 = 0) by apply sin_0.
  assert (Hu : -1 <= sin del * 0 + cos del * 1 * cos ((std + l15 + eot - #12.0) * #15.0 * (PI / #180.0)) <= 1).
  { pose proof (COS_bound del). set (c := cos (_ * _ * _)). assert (-1 <= c <= 1) by apply COS_bound. nra. }
  split; intros Hx ->; subst t; cbv beta iota zeta delta [ne_iqbal_2d ne_iqbal_1d iq_std iq_eot iq_dec div32 mul32]; cbn [fst];
    ext_ops; rewrite !eIQ_RAD; rewrite !fin_fun, !fin_mul, !fin_fun, Rmult_0_l, H0, C0, S0, ?H0, H1, fin_div by (q2; lra);
    rewrite ?fin_fun; (replace (x / #15.0) with (x / 15) by (q2; field)); rewrite Hx, !fin_add, lat_where, L; fin;
    rewrite fin_unit by exact Hu; f_equal; f_equal; q2; ring_simplify; f_equal; f_equal; lra.
Qed.

Lemma rnd_f32 x : rnd float32_env x = r32 x. Proof. reflexivity. Qed.
Lemma cast_f32 n : (Z.abs n <= 16777216)%Z -> cast32 (Ops := ExtOps float32_env) (Fin (IZR n)) = Fin (IZR n).
Proof. intros H. change (Fin (rnd float32_env (IZR n)) = Fin (IZR n)). rewrite rnd_f32. now rewrite r32_int. Qed.
Lemma w_std : i_std (w_t / 1000000000) = 10.
Proof. rewrite i_std_eq. replace ((w_t / 1000000000) mod 86400)%Z with 36000%Z by reflexivity. lra. Qed.
Definition iq_rec (s : Z) : iq_time := {| iq_std := Fin (i_std s); iq_ecf := Fin (i_ecf s); iq_eot := Fin (i_eoth s); iq_dec := Fin (i_dec s) |}.
Lemma iq_get_t E t a b g : transect (O := ExtOps E) true (at_times [Some t]) (Scalar a) (Scalar b) "iqbal" RFalse "numexpr" = Ok g ->
  get (sp_zenith g) [0%nat] = Some (fst (ne_iqbal_1d (O := ExtOps E) false (iq_rec (t / 1000000000)) (cast32 (Ops := ExtOps E) b) (cast32 (Ops := ExtOps E) a))).
Proof.
  intros Hg. set (m := ne_iqbal (O := ExtOps E)).
  assert (Hin : In ("iqbal"%string, "numexpr"%string, m) (supported (O := ExtOps E))) by (do 5 right; left; reflexivity).
  destruct (dispatch_lemma (O := ExtOps E) true Transect (at_times [Some t]) (Scalar a) (Scalar b) "iqbal" RFalse "numexpr" g m 0 t a b Hg Hin eq_refl) as (_ & _ & _ & Dg).
  destruct (Dg 0%nat 0%nat (conj eq_refl eq_refl)) as [Zg _]. unfold iq_rec. rewrite <- (proj1 (iq_time_R E _)). exact Zg.
Qed.
Lemma iq_get_s E t a b g : sites (O := ExtOps E) true (at_times [Some t]) (Scalar a) (Scalar b) "iqbal" RFalse "numexpr" = Ok g ->
  get (sp_zenith g) [0%nat; 0%nat] = Some (fst (ne_iqbal_2d (O := ExtOps E) false (iq_rec (t / 1000000000)) (cast32 (Ops := ExtOps E) b) (cast32 (Ops := ExtOps E) a))).
Proof.
  intros Hg. set (m := ne_iqbal (O := ExtOps E)).
  assert (Hin : In ("iqbal"%string, "numexpr"%string, m) (supported (O := ExtOps E))) by (do 5 right; left; reflexivity).
  destruct (dispatch_lemma (O := ExtOps E) true Sites (at_times [Some t]) (Scalar a) (Scalar b) "iqbal" RFalse "numexpr" g m 0 t a b Hg Hin eq_refl) as (_ & _ & _ & Dg).
  destruct (Dg 0%nat 0%nat (conj eq_refl eq_refl)) as [Zg _]. unfold iq_rec. rewrite <- (proj1 (iq_time_R E _)). exact Zg.
Qed.

Theorem C04_iqbal_numexpr_refuted : exists g s z z',
  transect (O := ExtOps float32_env) true (at_times [Some w_t]) (Scalar (Fin 0)) (Scalar (Fin 1)) "iqbal" RFalse "numexpr" = Ok g /\
  sites (O := ExtOps float32_env) true (at_times [Some w_t]) (Scalar (Fin 0)) (Scalar (Fin 1)) "iqbal" RFalse "numexpr" = Ok s /\
  value (sp_zenith g) [0%nat] z /\ value (sp_zenith s) [0%nat; 0%nat] z' /\ z <> z'.
Proof.
  set (m := ne_iqbal (O := ExtOps float32_env)).
  assert (Hin : In ("iqbal"%string, "numexpr"%string, m) (supported (O := ExtOps float32_env))) by (do 5 right; left; reflexivity).
  destruct (one_cell float32_env Transect w_t 0 1 "iqbal" RFalse "numexpr" m Hin w_t_representable ltac:(lra) ltac:(lra)) as (g & (Hg & Hk & Ht) & Hi).
  destruct (one_cell float32_env Sites w_t 0 1 "iqbal" RFalse "numexpr" m Hin w_t_representable ltac:(lra) ltac:(lra)) as (s & (Hs & _) & _).
  assert (Zg := iq_get_t _ _ _ _ _ Hg). assert (Zs := iq_get_s _ _ _ _ _ Hs). unfold iq_rec in Zg, Zs. set (u := (w_t / 1000000000)%Z) in *.
  rewrite (cast_f32 0), (cast_f32 1) in Zg, Zs by lia.
  assert (R0 : rnd float32_env 0 = 0) by (rewrite rnd_f32; apply (r32_int 0); lia). assert (R1 : rnd float32_env 1 = 1) by (rewrite rnd_f32; apply (r32_int 1); lia).
  assert (Hstd : i_std u = 10) by apply w_std. clearbody u.
  assert (He : -0.3 <= i_eoth u <= 0.3) by (pose proof (i_eot_b (i_ang u)); unfold i_eoth; q2; lra).
  assert (Hd : 0 < cos (i_dec u)) by (pose proof (i_dec_b (i_ang u)) as H; change (i_dec0 (i_ang u)) with (i_dec u) in H; pose proof (cos_dec_b (i_dec u)); lra).
  assert (Hr : Rabs (r32 (1 / 15) - 1 / 15) <= / 33554432) by (rewrite <- rnd_f32; apply r32_accurate; lra). apply Rabs_le_inv in Hr.
  destruct (iq_eq_lat float32_env false (i_std u) (i_eoth u) (i_dec u) 1 (Fin (i_ecf u)) (1 / 15) R0 R1 Hd ltac:(lra)) as [_ Z1].
  destruct (iq_eq_lat float32_env false (i_std u) (i_eoth u) (i_dec u) 1 (Fin (i_ecf u)) (r32 (1 / 15)) R0 R1 Hd ltac:(lra)) as [Z2 _].
  rewrite (Z1 eq_refl eq_refl) in Zg. rewrite (Z2 (rnd_f32 _) eq_refl) in Zs.
  eexists g, s, _, _. repeat split; [exact Hg|exact Hs|exact Zg|exact Zs|].
  intros Heq. apply r32_15. set (h1 := (_ + 1 / 15 + _ - 12) * 15 * _) in Heq. set (h2 := (_ + r32 (1 / 15) + _ - 12) * 15 * _) in Heq.
  assert (Hpi : 3.14 < PI < 3.1416) by (split; interval).
  assert (B1 : - PI <= h1 <= 0) by (unfold h1; rewrite Hstd; split; nra).
  assert (B2 : - PI <= h2 <= 0) by (unfold h2; rewrite Hstd; split; nra).
  assert (Hc : cos (i_dec u) * cos h1 = cos (i_dec u) * cos h2).
  { pose proof (COS_bound (i_dec u)). pose proof (COS_bound h1). pose proof (COS_bound h2).
    rewrite <- (cos_acos (_ * cos h1)), <- (cos_acos (_ * cos h2)) by nra. now rewrite Heq. }
  apply Rmult_eq_reg_l in Hc; [|lra]. rewrite <- (cos_neg h1), <- (cos_neg h2) in Hc.
  assert (E : - h1 = - h2) by (rewrite <- (acos_cos (- h1)), <- (acos_cos (- h2)) by lra; now rewrite Hc).
  unfold h1, h2 in E. apply (Rmult_eq_reg_r (15 * (PI / 180))); [|nra]. lra.
Qed.

(** ** C08: coordinate validation, in degrees *)
Lemma lat_dec_b x : (x = NaN \/ exists d, x = Fin d /\ -90 <= d <= 90) <-> (e_isnan x = true \/ (e_le (Fin #(-90)) x = true /\ e_le x (Fin #90) = true)).
Proof.
  assert (E1 : #(-90) = -90) by q2r. assert (E2 : #90 = 90) by q2r. rewrite E1, E2.
  destruct x as [| | |d]; cbn [e_isnan e_le]; split; intros H; try (now left); try (destruct H as [H|H]; [discriminate|]).
  all: try (destruct H as (d' & H & _); discriminate H). all: try (destruct H as [H H']; discriminate).
  - right. destruct H as (d' & [= <-] & B). destruct (Rleb_spec (-90) d), (Rleb_spec d 90); split; reflexivity || lra.
  - right. exists d. split; [reflexivity|]. destruct H as [H H']. destruct (Rleb_spec (-90) d), (Rleb_spec d 90); try discriminate; lra.
Qed.
Lemma lon_dec_b x : (x = NaN \/ exists d, x = Fin d /\ -180 <= d < 180) <-> (e_isnan x = true \/ (e_le (Fin #(-180)) x = true /\ e_lt x (Fin #180) = true)).
Proof.
  assert (E1 : #(-180) = -180) by q2r. assert (E2 : #180 = 180) by q2r. rewrite E1, E2.
  destruct x as [| | |d]; cbn [e_isnan e_le e_lt]; split; intros H; try (now left); try (destruct H as [H|H]; [discriminate|]).
  all: try (destruct H as (d' & H & _); discriminate H). all: try (destruct H as [H H']; discriminate).
  - right. destruct H as (d' & [= <-] & B). destruct (Rleb_spec (-180) d), (Rltb_spec d 180); split; reflexivity || lra.
  - right. exists d. split; [reflexivity|]. destruct H as [H H']. destruct (Rleb_spec (-180) d), (Rltb_spec d 180); try discriminate; lra.
Qed.
Lemma coords_real E lat lon :
  coords_ok (O := ExtOps E) lat lon <-> (forall x, In x lat -> lat_in_range x) /\ (forall x, In x lon -> lon_in_range x).
Proof.
  split; intros [H1 H2]; split; intros x Hx.
  - apply lat_dec_b, (H1 x Hx). - apply lon_dec_b, (H2 x Hx).
  - apply lat_dec_b, (H1 x Hx). - apply lon_dec_b, (H2 x Hx).
Qed.

Theorem C08_real_form : forall E uc l lat lon alg refr eng m,
  In (alg, eng, m) (supported (O := ExtOps E)) ->
  one_dim lat (elems lat) -> one_dim lon (elems lon) ->
  shape_cond uc (List.length l) (List.length (elems lat)) (List.length (elems lon)) ->
  let r := call (O := ExtOps E) true uc (at_times l) lat lon alg refr eng in
  let good := (forall x, In x (elems lat) -> lat_in_range x) /\ (forall x, In x (elems lon) -> lon_in_range x) in
  (good -> exists sp, r = Ok sp) /\ (~ good -> r = Raise ValueError).
Proof.
  intros E uc l lat lon alg refr eng m Hin Hla Hlo Hsh r good. split; intros Hg.
  - exact (C08_accept _ (ExtOps E) uc l lat lon alg refr eng m Hin Hla Hlo Hsh (proj2 (coords_real E _ _) Hg)).
  - eapply (C08_reject _ (ExtOps E)); [discriminate|exact Hin|exact Hla|exact Hlo|]. intros H. now apply Hg, (coords_real E).
Qed.

Example C08_example : (forall x, In x (elems w_lat) -> lat_in_range x) /\ ~ lat_in_range (Fin 90.1) /\ ~ lat_in_range PInf /\
  lon_in_range (Fin (-180)) /\ ~ lon_in_range (Fin 180).
Proof.
  split; [|repeat split].
  - intros x [<-|[<-|[<-|[]]]]; [right; exists 40; split; [reflexivity|lra]|right; exists (-90); split; [reflexivity|lra]|now left].
  - intros [H|(d & [= <-] & H)]; [discriminate|lra].
  - intros [H|(d & H & _)]; discriminate.
  - right. exists (-180). split; [reflexivity|lra].
  - intros [H|(d & [= <-] & H)]; [discriminate|lra].
Qed.

(** ** C09: the documented longitude 180 is rejected (every other documented longitude is accepted: C08) *)
Theorem C09_longitude_180_refuted : forall E uc l lat lon alg refr eng m,
  In (alg, eng, m) (supported (O := ExtOps E)) -> one_dim lat (elems lat) -> one_dim lon (elems lon) ->
  In (Fin 180) (elems lon) ->
  call (O := ExtOps E) true uc (at_times l) lat lon alg refr eng = Raise ValueError.
Proof.
  intros E uc l lat lon alg refr eng m Hin Hla Hlo H180.
  eapply (C08_reject _ (ExtOps E)); [discriminate|exact Hin|exact Hla|exact Hlo|]. intros H. apply (coords_real E) in H.
  destruct (proj2 H _ H180) as [H1|(d & [= <-] & H1)]; [discriminate|lra].
Qed.
Theorem C09_other_longitudes_partial : forall E uc l lat lon alg refr eng m,
  In (alg, eng, m) (supported (O := ExtOps E)) -> one_dim lat (elems lat) -> one_dim lon (elems lon) ->
  shape_cond uc (List.length l) (List.length (elems lat)) (List.length (elems lon)) ->
  (forall x, In x (elems lat) -> lat_in_range x) ->
  (forall x, In x (elems lon) -> exists d, x = Fin d /\ -180 <= d <= 180 /\ d <> 180) ->
  exists sp, call (O := ExtOps E) true uc (at_times l) lat lon alg refr eng = Ok sp.
Proof.
  intros E uc l lat lon alg refr eng m Hin Hla Hlo Hsh H1 H2.
  apply (C08_real_form E uc l lat lon alg refr eng m Hin Hla Hlo Hsh). split; [exact H1|]. intros x Hx.
  destruct (H2 x Hx) as (d & -> & B & N). right. exists d. split; [reflexivity|lra].
Qed.

(** ** C07: NaN coordinates *)
Theorem C07_nan_cells : forall E uc times lat lon alg refr eng sp k j i t la lo,
  call (O := ExtOps E) true uc times lat lon alg refr eng = Ok sp ->
  nth_error (instants times) k = Some t -> at_idx uc (elems lat) (elems lon) k j i la lo ->
  la = NaN \/ lo = NaN ->
  get (sp_zenith sp) (idx uc k j i) = Some NaN /\ get (sp_azimuth sp) (idx uc k j i) = Some NaN.
Proof.
  intros E uc times lat lon alg refr eng sp k j i t la lo Hc Hk Hi Hn. destruct t as [t|].
  2:{ destruct (nat_rows (O := ExtOps E) true uc times lat lon alg refr eng sp k Hc Hk) as (_ & _ & _ & H). exact (H j i la lo Hi). }
  destruct (call_supported _ _ _ _ _ _ _ _ _ Hc) as (m & Hin).
  destruct (dispatch_lemma (O := ExtOps E) true uc times lat lon alg refr eng sp m k t la lo Hc Hin Hk) as (_ & _ & _ & D).
  destruct (D j i Hi) as [H1 H2]. rewrite H1, H2. 
  pose proof (nan_cells E alg eng m Hin uc (is_True refr) (lib_time m (t / 1000000000))) as N.
  pose proof (lib_cast_nan E alg eng m Hin) as Cn.
  destruct Hn as [-> | ->]; rewrite Cn.
  - rewrite (proj2 (N (lib_cast m lo))). split; reflexivity.
  - rewrite (proj1 (N (lib_cast m la))). split; reflexivity.
Qed.

(** Overwriting coordinates by NaN is accepted and changes no other place and no location-independent output. *)
Definition nan_where (mask : nat -> bool) (l : list ext) : list ext :=
  map (fun '(n, x) => if mask n then NaN else x) (combine (seq 0 (List.length l)) l).
Lemma nth_error_seq n : forall s k, (k < n)%nat -> nth_error (seq s n) k = Some (s + k)%nat.
Proof.
  induction n as [|n IH]; intros s k Hk; [lia|]. destruct k as [|k]; cbn [seq nth_error]; [f_equal; lia|]. rewrite IH by lia. f_equal. lia.
Qed.
Lemma nth_combine {A B} (a : list A) (b : list B) k x y : nth_error a k = Some x -> nth_error b k = Some y -> nth_error (combine a b) k = Some (x, y).
Proof. revert b k. induction a as [|a0 a IH]; intros [|b0 b] [|k]; cbn; try discriminate; intros H1 H2; [injection H1 as ->; injection H2 as ->; reflexivity|auto]. Qed.
Lemma nan_where_nth mask l k x : nth_error l k = Some x -> nth_error (nan_where mask l) k = Some (if mask k then NaN else x).
Proof.
  intros H. assert (Hk : (k < List.length l)%nat) by (apply nth_error_Some; congruence).
  unfold nan_where. rewrite nth_error_map, (nth_combine _ _ k k x); [reflexivity| |exact H]. apply (nth_error_seq _ 0 k Hk).
Qed.
Lemma nan_where_len mask l : List.length (nan_where mask l) = List.length l.
Proof. unfold nan_where. rewrite map_length, combine_length, seq_length. lia. Qed.
Lemma nan_where_in mask l x : In x (nan_where mask l) -> x = NaN \/ In x l.
Proof.
  unfold nan_where. intros H. apply in_map_iff in H. destruct H as ([n y] & H & Hin). apply in_combine_r in Hin.
  destruct (mask n); subst; auto.
Qed.

Theorem C07_nan_local : forall E uc l lats lons alg refr eng sp mask_lat mask_lon,
  call (O := ExtOps E) true uc (at_times l) (Vec lats) (Vec lons) alg refr eng = Ok sp ->
  exists sp', call (O := ExtOps E) true uc (at_times l) (Vec (nan_where mask_lat lats)) (Vec (nan_where mask_lon lons)) alg refr eng = Ok sp' /\
    forall k t, nth_error l k = Some t ->
      same_time_outputs sp sp' k k /\
      forall j i la lo, at_idx uc lats lons k j i la lo ->
        at_idx uc (nan_where mask_lat lats) (nan_where mask_lon lons) k j i la lo ->
        same_position sp sp' (idx uc k j i) (idx uc k j i).
Proof.
  intros E uc l lats lons alg refr eng sp ma mo Hc.
  destruct (call_supported _ _ _ _ _ _ _ _ _ Hc) as (m & Hin).
  destruct (accept_lemma (O := ExtOps E) true uc l (Vec (nan_where ma lats)) (Vec (nan_where mo lons)) alg refr eng m eq_refl Hin (or_introl eq_refl) (or_introl eq_refl)) as (sp' & Hc').
  { cbn [elems]. rewrite !nan_where_len. destruct (call_Ok_inv true _ _ _ _ _ _ _ _ Hc) as (m' & tz & ws & us0 & [] & _).
    destruct uc; cbn [shape_cond]; trivial; cbn in *; tauto. }
  { apply (coords_real E). assert (H := ok_coords (O := ExtOps E) true _ _ _ _ _ _ _ _ Hc). apply (coords_real E) in H. destruct H as [H1 H2].
    split; intros x Hx; apply nan_where_in in Hx; destruct Hx as [->|Hx]; try (now left); [apply H1|apply H2]; exact Hx. }
  exists sp'. split; [exact Hc'|]. intros k t Hk.
  assert (S : same_time_outputs sp sp' k k).
  { destruct t as [t|].
    - destruct (dispatch_lemma (O := ExtOps E) true uc _ _ _ _ _ _ sp m k t NaN NaN Hc Hin Hk) as (A1 & A2 & A3 & _).
      destruct (dispatch_lemma (O := ExtOps E) true uc _ _ _ _ _ _ sp' m k t NaN NaN Hc' Hin Hk) as (B1 & B2 & B3 & _).
      repeat split; eexists; split; eassumption.
    - destruct (nat_rows (O := ExtOps E) true uc _ _ _ _ _ _ sp k Hc Hk) as (A1 & A2 & A3 & _).
      destruct (nat_rows (O := ExtOps E) true uc _ _ _ _ _ _ sp' k Hc' Hk) as (B1 & B2 & B3 & _).
      repeat split; eexists; split; eassumption. }
  split; [exact S|].
  intros j i la lo Hi Hi'.
  refine (proj1 (independence (O := ExtOps E) true uc (at_times l) (Vec lats) (Vec lons) (at_times l) _ _ alg refr eng sp sp' k j i k j i t la lo Hc Hc' Hk Hk Hi Hi')).
Qed.
Example C07_example : nan_where (Nat.eqb 1) [Fin 40; Fin 50; Fin 60] = [Fin 40; NaN; Fin 60].
Proof. reflexivity. Qed.

(** ** C28: soltrack and iqbal - both engines return the same values, in exact float32 arithmetic
    (the location-independent outputs for every float32 rounding, and for psa too) *)
Theorem C28_engines_time : forall E uc times lat lon alg refr a b k t,
  call (O := ExtOps E) true uc times lat lon alg refr "numpy" = Ok a ->
  call (O := ExtOps E) true uc times lat lon alg refr "numexpr" = Ok b ->
  nth_error (instants times) k = Some t -> ok_time t -> same_time_outputs a b k k.
Proof.
  intros E uc times lat lon alg refr a b k t Ha Hb Hk Ht.
  destruct (call_supported _ _ _ _ _ _ _ _ _ Ha) as (m & Hin). destruct (call_supported _ _ _ _ _ _ _ _ _ Hb) as (m' & Hin').
  destruct t as [t|].
  - destruct (dispatch_lemma (O := ExtOps E) true uc _ _ _ _ _ _ a m k t NaN NaN Ha Hin Hk) as (A1 & A2 & A3 & _).
    destruct (dispatch_lemma (O := ExtOps E) true uc _ _ _ _ _ _ b m' k t NaN NaN Hb Hin' Hk) as (B1 & B2 & B3 & _).
    destruct (engines_time E alg m m' _ Hin Hin' (sec_range t (Ht t eq_refl))) as (C1 & C2 & C3). unfold sec_of in *.
    rewrite C1 in A3. rewrite C2 in A2. rewrite C3 in A1. repeat split; eexists; split; eassumption.
  - destruct (nat_rows (O := ExtOps E) true uc _ _ _ _ _ _ a k Ha Hk) as (A1 & A2 & A3 & _).
    destruct (nat_rows (O := ExtOps E) true uc _ _ _ _ _ _ b k Hb Hk) as (B1 & B2 & B3 & _).
    repeat split; eexists; split; eassumption.
Qed.

Theorem C28_engines_agree : forall E uc times lat lon alg refr a b k j i t la lo,
  ideal E -> alg = "soltrack"%string \/ alg = "iqbal"%string ->
  call (O := ExtOps E) true uc times lat lon alg refr "numpy" = Ok a ->
  call (O := ExtOps E) true uc times lat lon alg refr "numexpr" = Ok b ->
  nth_error (instants times) k = Some t -> ok_time t -> at_idx uc (elems lat) (elems lon) k j i la lo ->
  same_position a b (idx uc k j i) (idx uc k j i).
Proof.
  intros E uc times lat lon alg refr a b k j i t la lo HE Hal Ha Hb Hk Ht Hi.
  destruct (call_supported _ _ _ _ _ _ _ _ _ Ha) as (m & Hin). destruct (call_supported _ _ _ _ _ _ _ _ _ Hb) as (m' & Hin').
  destruct t as [t|].
  - destruct (dispatch_lemma (O := ExtOps E) true uc _ _ _ _ _ _ a m k t la lo Ha Hin Hk) as (_ & _ & _ & A).
    destruct (dispatch_lemma (O := ExtOps E) true uc _ _ _ _ _ _ b m' k t la lo Hb Hin' Hk) as (_ & _ & _ & B).
    destruct (A j i Hi) as [A1 A2]. destruct (B j i Hi) as [B1 B2]. clear A B. fold (sec_of t) in *.
    assert (Hs := sec_range t (Ht t eq_refl)).
    rewrite (dims E alg _ m uc (is_True refr) (sec_of t) lo la Hin Hs (fun _ _ => HE)) in A1, A2.
    rewrite (dims E alg _ m' uc (is_True refr) (sec_of t) lo la Hin' Hs (fun _ _ => HE)) in B1, B2.
    destruct (at_idx_in _ _ _ _ _ _ _ _ Hi) as [Ia Io].
    assert (Hco := coord_ok_in E _ _ _ _ (ok_coords (O := ExtOps E) true _ _ _ _ _ _ _ _ Ha) Ia Io).
    rewrite (engines_cell E alg m m' (is_True refr) t la lo HE Hal Hin Hin' (Ht t eq_refl) Hco) in A1, A2.
    split; eexists; split; eassumption.
  - destruct (nat_rows (O := ExtOps E) true uc _ _ _ _ _ _ a k Ha Hk) as (_ & _ & _ & A).
    destruct (nat_rows (O := ExtOps E) true uc _ _ _ _ _ _ b k Hb Hk) as (_ & _ & _ & B).
    destruct (A j i la lo Hi) as [A1 A2]. destruct (B j i la lo Hi) as [B1 B2]. split; eexists; split; eassumption.
Qed.

(** Every call accepted with one engine is accepted with the other (psa, soltrack, iqbal). *)
Example C28_example : forall uc refr, exists a b,
  call (O := ExtOps ideal_env) true uc (at_times w_times) w_lat w_lon "soltrack" refr "numpy" = Ok a /\
  call (O := ExtOps ideal_env) true uc (at_times w_times) w_lat w_lon "soltrack" refr "numexpr" = Ok b.
Proof.
  intros uc refr. destruct (w_call uc "soltrack" "numpy" (py_soltrack (O := ExtOps ideal_env)) refr) as [a Ha]; [cbn; tauto|].
  destruct (w_call uc "soltrack" "numexpr" (ne_soltrack (O := ExtOps ideal_env)) refr) as [b Hb]; [cbn; tauto|]. now exists a, b.
Qed.

(** ** C29: psa.  Equal azimuth; cos(zenith) equal within 1e-6 without refraction; the zenith itself equal
    within the documented 0.002 degrees when it is 2 degrees or more away from overhead and underfoot. *)
Lemma psa_get E uc times lat lon refr eng sp k j i t la lo m : ideal E ->
  evaluated_cell E uc times lat lon "psa" refr eng sp k j i t la lo ->
  In ("psa"%string, eng, m) (supported (O := ExtOps E)) ->
  get (sp_zenith sp) (idx uc k j i) = Some (fst (lib_2d m (is_True refr) (lib_time m (sec_of t)) (Fin lo) (Fin la))) /\
  get (sp_azimuth sp) (idx uc k j i) = Some (snd (lib_2d m (is_True refr) (lib_time m (sec_of t)) (Fin lo) (Fin la))).
Proof.
  intros HE H Hin. destruct (cell_get _ _ _ _ _ _ _ _ _ _ _ _ _ _ _ m H Hin ltac:(discriminate)) as [H1 H2].
  assert (Hc : forall x, lib_cast m (Fin x) = Fin x).
  { intros x. cbn [supported In] in Hin. destruct Hin as [Hm|[Hm|[Hm|[Hm|[Hm|[Hm|[Hm|[]]]]]]]]; try discriminate Hm; injection Hm as _ <-;
      cbn [py_psa ne_psa lib_cast]; ext_ops; rewrite fin_fun, HE; reflexivity. }
  rewrite !Hc in H1, H2. now split.
Qed.
Lemma psa_two E uc times lat lon refr a b k j i t la lo : ideal E ->
  evaluated_cell E uc times lat lon "psa" refr "numpy" a k j i t la lo ->
  evaluated_cell E uc times lat lon "psa" refr "numexpr" b k j i t la lo ->
  exists c A, -1 <= c <= 1 /\
    value (sp_zenith a) (idx uc k j i) (psa_finish (is_True refr) (acos (Rround6 c))) /\
    value (sp_zenith b) (idx uc k j i) (psa_finish (is_True refr) (acos c)) /\
    value (sp_azimuth a) (idx uc k j i) A /\ value (sp_azimuth b) (idx uc k j i) A.
Proof.
  intros HE Ha Hb. assert (Ht : representable t) by apply Ha.
  destruct (psa_get E uc times lat lon refr _ a k j i t la lo (py_psa (O := ExtOps E)) HE Ha) as [A1 A2]; [left; reflexivity|].
  destruct (psa_get E uc times lat lon refr _ b k j i t la lo (ne_psa (O := ExtOps E)) HE Hb) as [B1 B2]; [right; left; reflexivity|].
  destruct (psa_cells E t HE Ht) as (H0 & d & Hd & H). destruct (H (is_True refr) la lo) as [C1 C2]. clear H.
  rewrite C2 in A1, A2. rewrite C1 in B1, B2. cbn [fst snd] in *.
  eexists _, _. split; [apply sun_U_bound|]. repeat split; eassumption.
Qed.

Theorem C29_psa_engines_partial : forall E uc times lat lon refr a b k j i t la lo,
  ideal E ->
  evaluated_cell E uc times lat lon "psa" refr "numpy" a k j i t la lo ->
  evaluated_cell E uc times lat lon "psa" refr "numexpr" b k j i t la lo ->
  same_at (sp_azimuth a) (sp_azimuth b) (idx uc k j i) (idx uc k j i) /\ same_time_outputs a b k k /\
  (is_True refr = false -> exists z z',
     value (sp_zenith a) (idx uc k j i) z /\ value (sp_zenith b) (idx uc k j i) z' /\
     Rabs (cos z - cos z') <= 1 / 1000000 /\
     (2 <= z' * (180 / PI) <= 178 -> Rabs (z * (180 / PI) - z' * (180 / PI)) <= 0.002)).
Proof.
  intros E uc times lat lon refr a b k j i t la lo HE Ha Hb.
  destruct (psa_two _ _ _ _ _ _ _ _ _ _ _ _ _ _ HE Ha Hb) as (c & A & Hc & Z1 & Z2 & A1 & A2).
  split; [exists (Fin A); now split|]. split.
  { destruct Ha as [(Ha & Hk & Ht) _]. destruct Hb as [(Hb & _) _].
    apply (C28_engines_time E uc times lat lon "psa" refr a b k (Some t) Ha Hb Hk). intros z [= <-]. exact Ht. }
  intros Hr. rewrite Hr in Z1, Z2. eexists _, _. split; [exact Z1|]. split; [exact Z2|]. unfold psa_finish, psa_parallax.
  assert (Hrd : Rabs (Rround6 c - c) <= 5 / 10000000).
  { unfold Rround6. pose proof (Znearest_half (fun z => negb (Z.even z)) (c * 1000000)) as Hn. apply Rabs_le_inv in Hn.
    apply Rabs_le. change (Znearest (fun z => negb (Z.even z)) (c * 1000000)) with (ZnearestE (c * 1000000)) in Hn. lra. }
  assert (Hc1 := round6_unit c ltac:(lra)).
  set (x1 := acos (Rround6 c)). set (x2 := acos c).
  assert (B1 : 0 <= x1 <= PI) by apply acos_bound. assert (B2 : 0 <= x2 <= PI) by apply acos_bound.
  assert (HEM : 0 <= EM <= 0.0001) by (rewrite EM_eq; lra).
  assert (Hcos : Rabs (cos (x1 + EM * sin x1) - cos (x2 + EM * sin x2)) <= 51 / 100000000).
  { eapply Rle_trans; [apply cos_parallax; lra|]. unfold x1 at 1, x2 at 1. rewrite !cos_acos by assumption.
    set (r := Rabs (Rround6 c - c)) in *. assert (0 <= r) by apply Rabs_pos. assert ((1 + EM) * (1 + EM) <= 1.001) by nra. nra. }
  split; [lra|].
  set (z := x1 + EM * sin x1) in *. set (z' := x2 + EM * sin x2) in *. intros Hz'.
  assert (Hzb : 0 <= z <= PI + 0.0001).
  { unfold z. assert (0 <= sin x1) by (apply sin_ge_0; lra). pose proof (SIN_bound x1). nra. }
  assert (Hp : 3.1415 < PI < 3.1416) by (split; interval).
  assert (Hq : 57.29 < 180 / PI < 57.3) by (split; interval).
  assert (Z' : 0.0349 <= z' <= PI - 0.0349).
  { assert (E180 : 180 / PI * PI = 180) by (field; lra). split; [|]; nra. }
  apply Rabs_le_inv in Hcos.
  assert (Hzl : 0.034 <= z).
  { destruct (Rle_or_lt 0.034 z) as [|Hl]; [assumption|exfalso].
    assert (cos 0.034 <= cos z) by (apply cos_decr_1; lra). assert (cos z' <= cos 0.0349) by (apply cos_decr_1; lra).
    assert (cos 0.0349 + 0.00002 <= cos 0.034) by (clear; interval with (i_prec 80)). lra. }
  assert (Hzu : z <= PI - 0.034).
  { destruct (Rle_or_lt z (PI - 0.034)) as [|Hl]; [assumption|exfalso].
    assert (Hm : cos z <= cos (PI - 0.034)).
    { destruct (Rle_or_lt z PI) as [Hle|Hgt]; [apply cos_decr_1; lra|].
      replace (cos z) with (cos (2 * PI - z)) by (rewrite cos_minus, cos_2PI, sin_2PI; ring).
      apply cos_decr_1; lra. }
    assert (cos (PI - 0.0349) <= cos z') by (apply cos_decr_1; lra).
    rewrite Rtrigo_facts.cos_pi_minus in *. assert (cos 0.0349 + 0.00002 <= cos 0.034) by (clear; interval with (i_prec 80)). lra. }
  assert (Hd : Rabs (z - z') <= 0.000034).
  { destruct (Req_dec z z') as [->|Hne]; [rewrite Rminus_diag_eq by reflexivity; rewrite Rabs_R0; lra|].
    assert (G : forall u v, u < v -> 0.034 <= u -> v <= PI - 0.034 -> 0.03 * (v - u) <= cos u - cos v).
    { intros u v Huv Hu Hv. destruct (MVT_cor2 cos (fun x => - sin x) u v Huv) as (w & Hw & Hw').
      { intros. apply derivable_pt_lim_cos. }
      assert (0.03 <= sin w).
      { destruct (Rle_or_lt w (PI / 2)).
        - assert (sin 0.034 <= sin w) by (apply sin_incr_1; lra). assert (0.03 <= sin 0.034) by (clear; interval with (i_prec 80)). lra.
        - rewrite <- Rtrigo_facts.sin_pi_minus. assert (sin 0.034 <= sin (PI - w)) by (apply sin_incr_1; lra). assert (0.03 <= sin 0.034) by (clear; interval with (i_prec 80)). lra. }
      nra. }
    destruct (Rlt_or_le z z') as [Hlt|Hle].
    - specialize (G z z' Hlt ltac:(lra) ltac:(lra)). apply Rabs_le. lra.
    - specialize (G z' z ltac:(lra) ltac:(lra) ltac:(lra)). apply Rabs_le. lra. }
  rewrite <- Rmult_minus_distr_r, Rabs_mult, (Rabs_pos_eq (180 / PI)) by lra. assert (0 <= Rabs (z - z')) by apply Rabs_pos. nra.
Qed.

(** ... and nowhere else: with the sun overhead the engines differ by 0.045 degrees (cos(zenith) is rounded
    to six decimals by the numpy engine), ... *)
Lemma psa_pair E uc t la lo refr : representable t -> -90 <= la <= 90 -> -180 <= lo < 180 -> exists a b,
  evaluated_cell E uc (at_times [Some t]) (Scalar (Fin la)) (Scalar (Fin lo)) "psa" refr "numpy" a 0 0 0 t la lo /\
  evaluated_cell E uc (at_times [Some t]) (Scalar (Fin la)) (Scalar (Fin lo)) "psa" refr "numexpr" b 0 0 0 t la lo.
Proof.
  intros Ht Ha Ho.
  destruct (one_cell E uc t la lo "psa" refr "numpy" (py_psa (O := ExtOps E)) ltac:(left; reflexivity) Ht Ha Ho) as (a & Ha').
  destruct (one_cell E uc t la lo "psa" refr "numexpr" (ne_psa (O := ExtOps E)) ltac:(right; left; reflexivity) Ht Ha Ho) as (b & Hb').
  now exists a, b.
Qed.
Lemma psa_values E uc t : ideal E -> representable t -> exists H0 d, -0.411 <= d <= 0.411 /\
  forall refr la lo a b,
  evaluated_cell E uc (at_times [Some t]) (Scalar (Fin la)) (Scalar (Fin lo)) "psa" refr "numpy" a 0 0 0 t la lo ->
  evaluated_cell E uc (at_times [Some t]) (Scalar (Fin la)) (Scalar (Fin lo)) "psa" refr "numexpr" b 0 0 0 t la lo ->
  let c := sun_U (la * (PI / 180)) d (H0 + lo * (PI / 180)) in
  value (sp_zenith a) (idx uc 0 0 0) (psa_finish (is_True refr) (acos (Rround6 c))) /\
  value (sp_zenith b) (idx uc 0 0 0) (psa_finish (is_True refr) (acos c)).
Proof.
  intros HE Ht. destruct (psa_cells E t HE Ht) as (H0 & d & Hd & H). exists H0, d. split; [exact Hd|].
  intros refr la lo a b Ha Hb.
  destruct (psa_get E uc _ _ _ refr _ a 0 0 0 t la lo (py_psa (O := ExtOps E)) HE Ha) as [A1 A2]; [left; reflexivity|].
  destruct (psa_get E uc _ _ _ refr _ b 0 0 0 t la lo (ne_psa (O := ExtOps E)) HE Hb) as [B1 B2]; [right; left; reflexivity|].
  destruct (H (is_True refr) la lo) as [C1 C2]. rewrite C2 in A1. rewrite C1 in B1. split; [exact A1|exact B1].
Qed.

Theorem C29_overhead_refuted : forall E uc t, ideal E -> representable t ->
  exists la lo a b z z',
    evaluated_cell E uc (at_times [Some t]) (Scalar (Fin la)) (Scalar (Fin lo)) "psa" RFalse "numpy" a 0 0 0 t la lo /\
    evaluated_cell E uc (at_times [Some t]) (Scalar (Fin la)) (Scalar (Fin lo)) "psa" RFalse "numexpr" b 0 0 0 t la lo /\
    value (sp_zenith a) (idx uc 0 0 0) z /\ value (sp_zenith b) (idx uc 0 0 0) z' /\
    0.045 < (z' - z) * (180 / PI).
Proof.
  intros E uc t HE Ht. destruct (psa_values E uc t HE Ht) as (H0 & d & Hd & HV).
  destruct (lon_for H0 0) as (lo & n & Ho & Hh).
  assert (Hp : 3.1415 < PI < 3.1416) by (split; interval). assert (Hq : 57.29 < 180 / PI < 57.3) by (split; interval).
  set (la := (d + 0.0008) * (180 / PI)). assert (Ha : -90 <= la <= 90) by (unfold la; split; nra).
  destruct (psa_pair E uc t la lo RFalse Ht Ha Ho) as (a & b & Ca & Cb).
  destruct (HV RFalse la lo a b Ca Cb) as [Z1 Z2]. clear HV. cbn [is_True] in Z1, Z2.
  assert (U : sun_U (la * (PI / 180)) d (H0 + lo * (PI / 180)) = cos 0.0008).
  { rewrite Hh. replace (0 + 2 * PI * IZR n) with (0 - 2 * PI * IZR (- n)) by (rewrite opp_IZR; ring).
    unfold sun_U, la. rewrite cos_2kpi, cos_0. replace ((d + 0.0008) * (180 / PI) * (PI / 180)) with (d + 0.0008) by (field; lra).
    replace 0.0008 with ((d + 0.0008) - d) at 3 by ring. rewrite cos_minus. ring. }
  rewrite U in Z1, Z2.
  assert (R1 : Rround6 (cos 0.0008) = 1).
  { replace 1 with (IZR 1000000 / 1000000) by field. apply round6_eq. clear. interval with (i_prec 80). }
  rewrite R1, acos_1 in Z1. rewrite acos_cos in Z2 by lra.
  exists la, lo, a, b. eexists _, _. split; [exact Ca|]. split; [exact Cb|]. split; [exact Z1|]. split; [exact Z2|].
  unfold psa_finish, psa_parallax. rewrite sin_0, Rmult_0_r. assert (0 <= EM) by (rewrite EM_eq; lra).
  assert (0 <= sin 0.0008) by (apply sin_ge_0; lra). nra.
Qed.

(** ... and, with refraction (the default), by 0.6 degrees just below the horizon, where one engine applies the
    refraction correction and the other does not. *)
Theorem C29_horizon_refuted : forall E uc t, ideal E -> representable t ->
  exists la lo a b z z',
    evaluated_cell E uc (at_times [Some t]) (Scalar (Fin la)) (Scalar (Fin lo)) "psa" RTrue "numpy" a 0 0 0 t la lo /\
    evaluated_cell E uc (at_times [Some t]) (Scalar (Fin la)) (Scalar (Fin lo)) "psa" RTrue "numexpr" b 0 0 0 t la lo /\
    value (sp_zenith a) (idx uc 0 0 0) z /\ value (sp_zenith b) (idx uc 0 0 0) z' /\
    0.6 < (z - z') * (180 / PI).
Proof.
  intros E uc t HE Ht. destruct (psa_values E uc t HE Ht) as (H0 & d & Hd & HV).
  destruct (lon_for H0 PI) as (lo & n & Ho & Hh).
  assert (Hp : 3.1415 < PI < 3.1416) by (split; interval). assert (Hq : 57.29 < 180 / PI < 57.3) by (split; interval).
  assert (Hch : cos (H0 + lo * (PI / 180)) = -1 /\ sin (H0 + lo * (PI / 180)) = 0).
  { rewrite Hh. replace (PI + 2 * PI * IZR n) with (PI - 2 * PI * IZR (- n)) by (rewrite opp_IZR; ring).
    rewrite cos_2kpi, sin_2kpi. split; [apply cos_PI|apply sin_PI]. }
  set (z0 := PI / 2 + 0.0145021).
  destruct (midnight d _ z0 (proj1 Hch) (proj2 Hch) Hd ltac:(unfold z0; lra)) as (la & Ha & Hac).
  destruct (psa_pair E uc t la lo RTrue Ht Ha Ho) as (a & b & Ca & Cb).
  destruct (HV RTrue la lo a b Ca Cb) as [Z1 Z2]. clear HV. cbn [is_True] in Z1, Z2. set (c := sun_U _ d _) in *.
  assert (Hc : c = cos z0) by (rewrite <- Hac; symmetry; apply cos_acos, sun_U_bound).
  assert (Hcs : c = - sin 0.0145021) by (rewrite Hc; unfold z0; rewrite <- (sin_shift (PI / 2 + _)); rewrite <- sin_neg; f_equal; ring).
  rewrite Hac in Z2.
  assert (R1 : Rround6 c = IZR (-14502) / 1000000).
  { apply round6_eq. rewrite Hcs. clear. interval with (i_prec 80). }
  rewrite R1 in Z1. set (y := acos _) in Z1.
  assert (Hy : PI / 2 + 0.0145025 <= y).
  { unfold y. destruct (Rle_or_lt (PI / 2 + 0.0145025) y) as [H|H]; [exact H|exfalso].
    assert (By : 0 <= y <= PI) by apply acos_bound.
    assert (C1 : cos (PI / 2 + 0.0145025) < cos y) by (apply cos_decreasing_1; lra).
    unfold y in C1. rewrite cos_acos in C1 by lra. rewrite <- (sin_shift (PI / 2 + _)) in C1.
    replace (PI / 2 - (PI / 2 + 0.0145025)) with (- (0.0145025)) in C1 by lra. rewrite sin_neg in C1.
    assert (sin 0.0145025 <= 0.014502) by (clear; interval with (i_prec 80)). lra. }
  assert (By : y <= PI) by apply acos_bound.
  assert (Hs : 0.9998 <= sin y).
  { unfold y. rewrite sin_acos by lra. clear. interval with (i_prec 80). }
  exists la, lo, a, b. eexists _, _. split; [exact Ca|]. split; [exact Cb|]. split; [exact Z1|]. split; [exact Z2|].
  assert (E1 : psa_finish true y = psa_parallax y).
  { unfold psa_finish, where_, psa_elev, psa_parallax. rewrite EM_eq. assert (#1.4545e-2 = 0.014545) by q2r.
    destruct (Rleb_spec (- #1.4545e-2) (PI / 2 - (y + 42587565907513806 / 1000000000000000000000 * sin y))); [exfalso; lra|]. ring. }
  assert (E2 : psa_finish true z0 <= PI / 2 + 0.0146 - 0.0107).
  { unfold psa_finish, where_, psa_elev, psa_parallax, z0. rewrite <- (cos_shift (PI / 2 + _)).
    replace (PI / 2 - (PI / 2 + 0.0145021)) with (- (0.0145021)) by lra. rewrite cos_neg.
    replace (PI / 2 - (PI / 2 + 0.0145021 + EM * cos 0.0145021)) with (- (0.0145021 + EM * cos 0.0145021)) by lra.
    assert (Hl : - #1.4545e-2 <= - (0.0145021 + EM * cos 0.0145021)) by (clear; q2; interval with (i_prec 80)).
    destruct (Rleb_spec (- #1.4545e-2) (- (0.0145021 + EM * cos 0.0145021))) as [H|H]; [|contradiction (Rlt_not_le _ _ H Hl)].
    assert (Hx : 0.0107 <= refr_corr (#1 * #1.7802e-2) #60 k_psa (- (0.0145021 + EM * cos 0.0145021))).
    { unfold refr_corr, refr_arg. clear. q2. interval with (i_prec 80). }
    assert (0.0145021 + EM * cos 0.0145021 <= 0.0146) by (clear; q2; interval with (i_prec 80)). lra. }
  rewrite E1. unfold psa_parallax. assert (0 <= EM) by (rewrite EM_eq; lra).
  set (Z := psa_finish true z0) in *. assert (0.0106 <= y + EM * sin y - Z) by nra. nra.
Qed.
