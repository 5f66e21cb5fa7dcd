(** * GenericLemmas2: pipeline properties for an arbitrary arithmetic, continued *)

From Coq Require Import ZArith QArith List Bool Arith String Lia.
From Verif Require Import Num Arrays ArraysLemmas Psa Soltrack Iqbal Nrel Libspa Time Core Usecases Spec
     PipelineLemmas UsecaseLemmas GenericLemmas.
Import ListNotations.
Open Scope nat_scope.
Open Scope list_scope.

Section Generic2.
  Context {F : Type} {O : Ops F}.
  Variable ne : bool.

  (** ** C03, C04: cells of regular_grid and transect against sites *)

  Lemma cross uc times lat lon alg refr eng sp k j i t la lo :
    call ne uc times lat lon alg refr eng = Ok sp ->
    nth_error (instants times) k = Some t ->
    at_idx uc (elems lat) (elems lon) k j i la lo ->
    exists m s, module_of ne alg eng = Some (Some m) /\
      sites ne (at_time t) (Scalar la) (Scalar lo) alg refr eng = Ok s /\
      same_time_outputs sp s k 0 /\
      (forall z, flr t = Some z -> get (sp_declination sp) [k] = Some (lib_dec m (lib_time m z))) /\
      (cell m uc (is_True refr) fst (flr t) lo la = cell m Sites (is_True refr) fst (flr t) lo la ->
       same_at (sp_zenith sp) (sp_zenith s) (idx uc k j i) [0; 0]) /\
      (cell m uc (is_True refr) snd (flr t) lo la = cell m Sites (is_True refr) snd (flr t) lo la ->
       same_at (sp_azimuth sp) (sp_azimuth s) (idx uc k j i) [0; 0]).
  Proof.
    intros H Ht Hi.
    destruct (single_call ne uc Sites times lat lon alg refr eng sp t k j i la lo H Hi) as [s Hs].
    destruct (call_cells ne _ _ _ _ _ _ _ _ H) as (m & Hm & Htime & Hcell).
    destruct (call_cells ne _ _ _ _ _ _ _ _ Hs) as (m' & Hm' & Htime' & Hcell').
    rewrite Hm in Hm'. injection Hm' as <-.
    exists m, s. split; [exact Hm|]. split; [exact Hs|].
    destruct (Hcell _ _ _ _ _ _ Ht Hi) as [Hz Ha].
    destruct (Hcell' 0 0 0 t la lo eq_refl (at_idx_single Sites la lo)) as [Hz' Ha'].
    destruct (Htime _ _ Ht) as (H1 & H2 & H3). destruct (Htime' 0 t eq_refl) as (H1' & H2' & H3').
    split; [repeat split; unfold same_at; eexists; split; eassumption|].
    split. { intros z Hz0. rewrite Hz0 in H3. exact H3. }
    split; intros E; unfold same_at; eexists; (split; [eassumption|]); rewrite E; assumption.
  Qed.

  Lemma cell_zenith_grid alg eng m refr t lo la :
    module_of ne alg eng = Some (Some m) ->
    cell m RegularGrid refr fst t lo la = cell m Sites refr fst t lo la.
  Proof.
    intros Hm. apply module_cases in Hm.
    destruct Hm as [(_&_&->)|[(_&_&->)|[(_&_&->)|[(_&_&->)|[(_&_&->)|[(_&_&->)|(_&_&->)]]]]]].
    - apply cell_pypsa.
    - apply cell_nepsa.
    - apply cell_pysol.
    - apply cell_nesol_zenith.
    - apply cell_pyiqbal.
    - apply cell_neiqbal_grid.
    - apply cell_nrel.
  Qed.
  Lemma cell_azimuth_grid alg eng m refr t lo la :
    module_of ne alg eng = Some (Some m) ->
    (alg = "soltrack"%string -> eng = "numexpr"%string -> forall z, t = Some z -> tan_law (lib_dec m (lib_time m z))) ->
    cell m RegularGrid refr snd t lo la = cell m Sites refr snd t lo la.
  Proof.
    intros Hm Hl. apply module_cases in Hm.
    destruct Hm as [(_&_&->)|[(_&_&->)|[(_&_&->)|[(Ha&He&->)|[(_&_&->)|[(_&_&->)|(_&_&->)]]]]]].
    - apply cell_pypsa.
    - apply cell_nepsa.
    - apply cell_pysol.
    - apply cell_nesol_tan. intros z Hz. exact (Hl Ha He z Hz).
    - apply cell_pyiqbal.
    - apply cell_neiqbal_grid.
    - apply cell_nrel.
  Qed.
  Lemma cell_zenith_transect alg eng m refr t lo la :
    module_of ne alg eng = Some (Some m) ->
    (alg = "iqbal"%string -> eng = "numexpr"%string -> lon15_law lo) ->
    cell m Transect refr fst t lo la = cell m Sites refr fst t lo la.
  Proof.
    intros Hm Hl. apply module_cases in Hm.
    destruct Hm as [(_&_&->)|[(_&_&->)|[(_&_&->)|[(_&_&->)|[(_&_&->)|[(Ha&He&->)|(_&_&->)]]]]]].
    - apply cell_pypsa.
    - apply cell_nepsa.
    - apply cell_pysol.
    - apply cell_nesol_zenith.
    - apply cell_pyiqbal.
    - apply cell_neiqbal_lon15. auto.
    - apply cell_nrel.
  Qed.
  Lemma cell_azimuth_transect alg eng m refr t lo la :
    module_of ne alg eng = Some (Some m) ->
    (alg = "iqbal"%string -> eng = "numexpr"%string -> lon15_law lo) ->
    (alg = "soltrack"%string -> eng = "numexpr"%string -> forall z, t = Some z -> tan_law (lib_dec m (lib_time m z))) ->
    cell m Transect refr snd t lo la = cell m Sites refr snd t lo la.
  Proof.
    intros Hm Hl Hl'. apply module_cases in Hm.
    destruct Hm as [(_&_&->)|[(_&_&->)|[(_&_&->)|[(Ha&He&->)|[(_&_&->)|[(Ha&He&->)|(_&_&->)]]]]]].
    - apply cell_pypsa.
    - apply cell_nepsa.
    - apply cell_pysol.
    - apply cell_nesol_tan. intros z Hz. exact (Hl' Ha He z Hz).
    - apply cell_pyiqbal.
    - apply cell_neiqbal_lon15. auto.
    - apply cell_nrel.
  Qed.

  Lemma grid_eq_sites times lat lon alg refr eng g k j i t la lo :
    regular_grid ne times lat lon alg refr eng = Ok g ->
    nth_error (instants times) k = Some t ->
    nth_error (elems lat) j = Some la -> nth_error (elems lon) i = Some lo ->
    exists s, sites ne (at_time t) (Scalar la) (Scalar lo) alg refr eng = Ok s /\
      same_time_outputs g s k 0 /\
      same_at (sp_zenith g) (sp_zenith s) [k; j; i] [0; 0] /\
      ((alg = "soltrack"%string -> eng = "numexpr"%string ->
        forall d, get (sp_declination g) [k] = Some d -> ftan d = div (fsin d) (fcos d)) ->
       same_at (sp_azimuth g) (sp_azimuth s) [k; j; i] [0; 0]).
  Proof.
    intros H Ht Hla Hlo.
    destruct (cross RegularGrid times lat lon alg refr eng g k j i t la lo H Ht (conj Hla Hlo))
      as (m & s & Hm & Hs & H1 & Hd & H2 & H3).
    exists s. split; [exact Hs|]. split; [exact H1|]. split.
    - apply H2. eapply cell_zenith_grid; eassumption.
    - intros Hl. apply H3. eapply cell_azimuth_grid; [eassumption|].
      intros Ha He z Hz. apply (Hl Ha He). now apply Hd.
  Qed.

  Lemma transect_eq_sites times lat lon alg refr eng g k t la lo :
    transect ne times lat lon alg refr eng = Ok g ->
    nth_error (instants times) k = Some t ->
    nth_error (elems lat) k = Some la -> nth_error (elems lon) k = Some lo ->
    (alg = "iqbal"%string -> eng = "numexpr"%string -> div32 (cast32 lo) (lit 15.0) = div (cast32 lo) (lit 15.0)) ->
    exists s, sites ne (at_time t) (Scalar la) (Scalar lo) alg refr eng = Ok s /\
      same_time_outputs g s k 0 /\
      same_at (sp_zenith g) (sp_zenith s) [k] [0; 0] /\
      ((alg = "soltrack"%string -> eng = "numexpr"%string ->
        forall d, get (sp_declination g) [k] = Some d -> ftan d = div (fsin d) (fcos d)) ->
       same_at (sp_azimuth g) (sp_azimuth s) [k] [0; 0]).
  Proof.
    intros H Ht Hla Hlo Hl15.
    destruct (cross Transect times lat lon alg refr eng g k 0 0 t la lo H Ht (conj Hla Hlo))
      as (m & s & Hm & Hs & H1 & Hd & H2 & H3).
    exists s. split; [exact Hs|]. split; [exact H1|]. split.
    - apply H2. eapply cell_zenith_transect; eassumption.
    - intros Hl. apply H3. eapply cell_azimuth_transect; [eassumption|assumption|].
      intros Ha He z Hz. apply (Hl Ha He). now apply Hd.
  Qed.

  (** ** C05: concatenation *)


  Lemma concat_lemma uc l1 l2 lat lon alg refr eng ab :
    uc <> Transect ->
    call ne uc (at_times (l1 ++ l2)%list) lat lon alg refr eng = Ok ab ->
    exists a b, call ne uc (at_times l1) lat lon alg refr eng = Ok a /\
                call ne uc (at_times l2) lat lon alg refr eng = Ok b /\
      app_rows (sp_zenith a) (sp_zenith b) (sp_zenith ab) /\
      app_rows (sp_azimuth a) (sp_azimuth b) (sp_azimuth ab) /\
      app_rows (sp_ecf a) (sp_ecf b) (sp_ecf ab) /\
      app_rows (sp_eot a) (sp_eot b) (sp_eot ab) /\
      app_rows (sp_declination a) (sp_declination b) (sp_declination ab).
  Proof.
    intros Huc H. destruct (call_Ok_inv ne _ _ _ _ _ _ _ _ H) as (m & tz & ws & us & Hacc & ->).
    assert (Hn : forall l, accepts ne uc (at_times l) lat lon alg eng m "UTC" l l).
    { intros l. destruct Hacc. constructor; try assumption; try reflexivity.
      - destruct uc; [exact acc_shape|exact I|congruence].
      - apply ctor_times_naive. }
    exists (mk_sp uc "UTC" l1 l1 alg eng refr (eval_ok m (is_True refr) (nd_of uc) (secs (at_times l1)) (elems lat) (elems lon))),
           (mk_sp uc "UTC" l2 l2 alg eng refr (eval_ok m (is_True refr) (nd_of uc) (secs (at_times l2)) (elems lat) (elems lon))).
    split; [now apply call_Ok_intro|]. split; [now apply call_Ok_intro|].
    cbn [mk_sp sp_zenith sp_azimuth sp_ecf sp_eot sp_declination eval_ok s_zenith s_azimuth s_ecf s_eot s_declination].
    unfold app_rows. cbn [shape data]. unfold secs, at_times; cbn [instants]. rewrite !map_app.
    assert (Hd : forall pr, out_data m (is_True refr) pr (nd_of uc) (map (option_map floor_s) l1 ++ map (option_map floor_s) l2) (elems lat) (elems lon)
       = out_data m (is_True refr) pr (nd_of uc) (map (option_map floor_s) l1) (elems lat) (elems lon) ++
         out_data m (is_True refr) pr (nd_of uc) (map (option_map floor_s) l2) (elems lat) (elems lon)).
    { intros pr. destruct uc; [| |congruence]; cbn [nd_of out_data]; apply flat_map_app. }
    rewrite !Hd, !app_length.
    repeat split; try reflexivity; destruct uc; try congruence; cbn [nd_of out_shape]; do 3 eexists; repeat split; reflexivity.
  Qed.

  (** ** C06: NaT *)


  Lemma nth_valid l k z :
    nth_error l k = Some (Some z) -> nth_error (filter isSome l) (valid_before l k) = Some (Some z).
  Proof.
    revert k; induction l as [|t l IH]; intros [|k]; cbn [nth_error]; try discriminate.
    - intros [= ->]. reflexivity.
    - intros H. unfold valid_before in *. cbn [firstn filter].
      destruct t; cbn [isSome List.length nth_error]; apply IH; exact H.
  Qed.

  Lemma nth_select {A} (l : list (option Z)) (xs : list A) k z x :
    nth_error l k = Some (Some z) -> nth_error xs k = Some x ->
    nth_error (select (map isSome l) xs) (valid_before l k) = Some x.
  Proof.
    revert xs k; induction l as [|t l IH]; intros [|y xs] [|k]; cbn [nth_error]; try discriminate.
    - intros [= ->] [= ->]. reflexivity.
    - intros H1 H2. unfold valid_before in *. cbn [firstn filter map].
      destruct t; cbn [isSome List.length nth_error select]; eapply IH; eassumption.
  Qed.

  Lemma nat_rows uc times lat lon alg refr eng sp k :
    call ne uc times lat lon alg refr eng = Ok sp ->
    nth_error (instants times) k = Some None ->
    get (sp_ecf sp) [k] = Some fnan /\ get (sp_eot sp) [k] = Some fnan /\
    get (sp_declination sp) [k] = Some fnan /\
    forall j i la lo, at_idx uc (elems lat) (elems lon) k j i la lo ->
      get (sp_zenith sp) (idx uc k j i) = Some fnan /\ get (sp_azimuth sp) (idx uc k j i) = Some fnan.
  Proof.
    intros H Ht. destruct (call_cells ne _ _ _ _ _ _ _ _ H) as (m & Hm & Htime & Hcell).
    destruct (Htime _ _ Ht) as (H1 & H2 & H3). split; [exact H1|]. split; [exact H2|]. split; [exact H3|].
    intros j i la lo Hi. exact (Hcell _ _ _ _ _ _ Ht Hi).
  Qed.


  Lemma forallb_select {A} (p : A -> bool) m xs : forallb p xs = true -> forallb p (select m xs) = true.
  Proof.
    revert xs; induction m as [|b m IH]; intros [|x xs] H; cbn in *; try reflexivity.
    apply andb_prop in H. destruct H as [Ha Hb]. destruct b; cbn; [rewrite Ha; cbn|]; auto.
  Qed.
  Lemma filter_somes_len (l : list (option Z)) : List.length (filter isSome l) = List.length (somes l).
  Proof. unfold somes. induction l as [|[z|] l IH]; cbn; [reflexivity|now rewrite IH|exact IH]. Qed.

  Lemma nat_others uc times lat lon alg refr eng sp :
    call ne uc times lat lon alg refr eng = Ok sp ->
    let us := instants times in
    exists sp', call ne uc (at_times (filter isSome us)) (drop_nat_coord uc us lat) (drop_nat_coord uc us lon) alg refr eng = Ok sp' /\
      forall k z, nth_error us k = Some (Some z) ->
        same_time_outputs sp sp' k (valid_before us k) /\
        forall j i la lo, at_idx uc (elems lat) (elems lon) k j i la lo ->
          same_position sp sp' (idx uc k j i) (idx uc (valid_before us k) j i).
  Proof.
    intros H us. destruct (call_Ok_inv ne _ _ _ _ _ _ _ _ H) as (m & tz & ws & us0 & [] & Hsp).
    assert (Hacc : accepts ne uc (at_times (filter isSome us)) (drop_nat_coord uc us lat) (drop_nat_coord uc us lon)
                     alg eng m "UTC" (filter isSome us) (filter isSome us)).
    { constructor; try assumption; try reflexivity.
      - destruct uc; try assumption; reflexivity.
      - destruct uc; try assumption; reflexivity.
      - destruct uc; cbn [shape_cond at_times instants drop_nat_coord elems] in *; try assumption.
        destruct acc_shape as [Ha Hb]. rewrite filter_somes_len. rewrite !select_length; subst us; lia.
      - destruct uc; try assumption. cbn [drop_nat_coord elems]. now apply forallb_select.
      - destruct uc; try assumption. cbn [drop_nat_coord elems]. now apply forallb_select.
      - apply ctor_times_naive. }
    eexists. split; [eapply call_Ok_intro; exact Hacc|].
    intros k z Hk. assert (Hk' := nth_valid us k z Hk).
    assert (H' := call_Ok_intro ne uc _ _ _ alg refr eng _ _ _ _ Hacc).
    destruct (call_cells ne _ _ _ _ _ _ _ _ H) as (m1 & Hm1 & Htime & Hcell).
    destruct (call_cells ne _ _ _ _ _ _ _ _ H') as (m2 & Hm2 & Htime' & Hcell').
    rewrite Hm1 in Hm2. injection Hm2 as <-.
    split.
    - destruct (Htime _ _ Hk) as (H1 & H2 & H3). destruct (Htime' _ _ Hk') as (H1' & H2' & H3').
      repeat split; unfold same_at; eexists; split; eassumption.
    - intros j i la lo Hi.
      assert (Hi' : at_idx uc (elems (drop_nat_coord uc us lat)) (elems (drop_nat_coord uc us lon)) (valid_before us k) j i la lo).
      { destruct uc; cbn [at_idx drop_nat_coord elems] in *; try assumption.
        destruct Hi as [Ha Hb]. split; eapply nth_select; eassumption. }
      destruct (Hcell _ _ _ _ _ _ Hk Hi) as [Hz Ha].
      destruct (Hcell' _ _ _ _ _ _ Hk' Hi') as [Hz' Ha'].
      split; unfold same_at; eexists; split; eassumption.
  Qed.

  (** ** C05: selections of times *)

  Lemma pick_length {A} p (l : list A) :
    (forall i, In i p -> i < List.length l) -> List.length (pick p l) = List.length p.
  Proof.
    induction p as [|i p IH]; intros H; [reflexivity|]. cbn [pick flat_map]. rewrite app_length.
    fold (pick p l). rewrite IH by (intros; apply H; now right).
    destruct (nth_error l i) eqn:E; [reflexivity|].
    apply nth_error_None in E. specialize (H i (or_introl eq_refl)). lia.
  Qed.
  Lemma nth_pick {A} p (l : list A) r i x :
    (forall i, In i p -> i < List.length l) ->
    nth_error p r = Some i -> nth_error l i = Some x -> nth_error (pick p l) r = Some x.
  Proof.
    revert r. induction p as [|i0 p IH]; intros r H Hr Hi; [now destruct r|].
    cbn [pick flat_map]. fold (pick p l).
    destruct (nth_error l i0) as [x0|] eqn:E0.
    2: { apply nth_error_None in E0. specialize (H i0 (or_introl eq_refl)). lia. }
    destruct r as [|r]; cbn in Hr |- *.
    - congruence.
    - apply IH; [intros; apply H; now right|assumption|assumption].
  Qed.
  Lemma forallb_pick {A} (f : A -> bool) p l : forallb f l = true -> forallb f (pick p l) = true.
  Proof.
    intros H. apply forallb_forall. intros x Hx. apply in_flat_map in Hx. destruct Hx as (i & _ & Hi).
    destruct (nth_error l i) as [y|] eqn:E; [|destruct Hi]. destruct Hi as [<-|[]].
    exact (proj1 (forallb_forall _ _) H y (nth_error_In _ _ E)).
  Qed.

  Lemma pick_lemma uc times lat lon alg refr eng sp p :
    call ne uc times lat lon alg refr eng = Ok sp ->
    let us := instants times in
    (forall i, In i p -> i < List.length us) ->
    exists sp', call ne uc (at_times (pick p us)) (pick_coord uc p lat) (pick_coord uc p lon) alg refr eng = Ok sp' /\
      forall r k, nth_error p r = Some k ->
        same_time_outputs sp sp' k r /\
        forall j i la lo, at_idx uc (elems lat) (elems lon) k j i la lo ->
          same_position sp sp' (idx uc k j i) (idx uc r j i).
  Proof.
    intros H us Hp. destruct (call_Ok_inv ne _ _ _ _ _ _ _ _ H) as (m & tz & ws & us0 & [] & Hsp).
    assert (Hacc : accepts ne uc (at_times (pick p us)) (pick_coord uc p lat) (pick_coord uc p lon)
                     alg eng m "UTC" (pick p us) (pick p us)).
    { constructor; try assumption; try reflexivity.
      - destruct uc; try assumption; reflexivity.
      - destruct uc; try assumption; reflexivity.
      - destruct uc; cbn [shape_cond at_times instants pick_coord elems] in *; try assumption.
        destruct acc_shape as [Ha Hb]. rewrite !pick_length; try (intros; apply Hp; assumption).
        + split; reflexivity.
        + intros i Hi. specialize (Hp i Hi). subst us. lia.
        + intros i Hi. specialize (Hp i Hi). subst us. lia.
      - destruct uc; try assumption. cbn [pick_coord elems]. now apply forallb_pick.
      - destruct uc; try assumption. cbn [pick_coord elems]. now apply forallb_pick.
      - apply ctor_times_naive. }
    eexists. split; [eapply call_Ok_intro; exact Hacc|].
    intros r k Hk.
    assert (Hkl : k < List.length us) by (apply Hp; eapply nth_error_In; eassumption).
    destruct (nth_error us k) as [t|] eqn:Hus; [|apply nth_error_None in Hus; lia].
    assert (Hk' := nth_pick p us r k t Hp Hk Hus).
    assert (H' := call_Ok_intro ne uc _ _ _ alg refr eng _ _ _ _ Hacc).
    destruct (call_cells ne _ _ _ _ _ _ _ _ H) as (m1 & Hm1 & Htime & Hcell).
    destruct (call_cells ne _ _ _ _ _ _ _ _ H') as (m2 & Hm2 & Htime' & Hcell').
    rewrite Hm1 in Hm2. injection Hm2 as <-.
    split.
    - destruct (Htime _ _ Hus) as (H1 & H2 & H3). destruct (Htime' _ _ Hk') as (H1' & H2' & H3').
      repeat split; unfold same_at; eexists; split; eassumption.
    - intros j i la lo Hi.
      assert (Hi' : at_idx uc (elems (pick_coord uc p lat)) (elems (pick_coord uc p lon)) r j i la lo).
      { destruct uc; cbn [at_idx pick_coord elems shape_cond] in *; try assumption.
        destruct Hi as [Ha Hb]. destruct acc_shape as [Hc Hd].
        split; eapply nth_pick; try eassumption.
        - intros i' Hi'. specialize (Hp i' Hi'). subst us. lia.
        - intros i' Hi'. specialize (Hp i' Hi'). subst us. lia. }
      destruct (Hcell _ _ _ _ _ _ Hus Hi) as [Hz Ha].
      destruct (Hcell' _ _ _ _ _ _ Hk' Hi') as [Hz' Ha'].
      split; unfold same_at; eexists; split; eassumption.
  Qed.

  (** ** C10: shapes *)

  Lemma mismatch_lemma uc times lat lon alg refr eng :
    (forall n, times <> TMulti n) ->
    ~ shape_cond uc (List.length (instants times)) (List.length (elems lat)) (List.length (elems lon)) ->
    call ne uc times lat lon alg refr eng = Raise ValueError.
  Proof.
    intros Ht Hs. rewrite call_eq. destruct (to_utc_instants times) as [[n Hn]|Hu]; [now elim (Ht n)|].
    rewrite Hu. destruct ((ndim_of lat =? 1) && (ndim_of lon =? 1)); [|reflexivity]. cbn [andb].
    destruct uc; cbn [shape_cond] in Hs.
    - destruct (Nat.eqb_spec (List.length (elems lat)) (List.length (elems lon))); [contradiction|reflexivity].
    - now elim Hs.
    - destruct (Nat.eqb_spec (List.length (elems lat)) (List.length (elems lon)));
      destruct (Nat.eqb_spec (List.length (elems lon)) (List.length (instants times))); try reflexivity.
      elim Hs. split; lia.
  Qed.

  Lemma multi_lemma uc times lat lon alg refr eng n :
    n >= 2 -> lat = Multi n \/ lon = Multi n -> (forall n, times <> TMulti n) ->
    call ne uc times lat lon alg refr eng = Raise ValueError.
  Proof.
    intros Hn Hm Ht. rewrite call_eq. destruct (to_utc_instants times) as [[n' Hn']|Hu]; [now elim (Ht n')|].
    rewrite Hu. destruct Hm as [->| ->]; cbn [ndim_of].
    - destruct (Nat.eqb_spec n 1); [lia|]. reflexivity.
    - destruct (Nat.eqb_spec n 1); [lia|]. rewrite andb_false_r. reflexivity.
  Qed.

  Lemma multi_times_lemma uc lat lon alg refr eng n :
    call ne uc (TMulti n) lat lon alg refr eng = Raise TypeError.
  Proof. rewrite call_eq. reflexivity. Qed.


  Lemma coords_ok_iff lat lon :
    coords_ok lat lon <-> forallb lat_ok lat = true /\ forallb lon_ok lon = true.
  Proof.
    unfold coords_ok. rewrite !forallb_forall. unfold lat_ok, lon_ok.
    split; intros [Ha Hb]; split; intros x Hx; specialize (Ha x); specialize (Hb x);
      rewrite ?orb_true_iff, ?andb_true_iff in *; auto.
  Qed.

  Lemma accept_lemma uc l lat lon alg refr eng m :
    ne = true -> In (alg, eng, m) supported ->
    one_dim lat (elems lat) -> one_dim lon (elems lon) ->
    shape_cond uc (List.length l) (List.length (elems lat)) (List.length (elems lon)) ->
    coords_ok (elems lat) (elems lon) ->
    exists sp, call ne uc (at_times l) lat lon alg refr eng = Ok sp.
  Proof.
    intros Hne Hin H1 H2 Hs Hc. apply coords_ok_iff in Hc. destruct Hc as [Hla Hlo].
    eexists. eapply call_Ok_intro with (m := m). constructor; try assumption; try reflexivity.
    - destruct H1 as [->|[a [-> _]]]; reflexivity.
    - destruct H2 as [->|[a [-> _]]]; reflexivity.
    - apply (supported_module_of ne) in Hin. rewrite Hin, Hne. reflexivity.
    - apply ctor_times_naive.
  Qed.

  (** Rejection of coordinates: a call that is otherwise good. *)
  Lemma coords_reject_lemma uc times lat lon alg refr eng m :
    (forall n, times <> TMulti n) ->
    In (alg, eng, m) (supported (F := F)) -> 
    one_dim lat (elems lat) -> one_dim lon (elems lon) ->
    ~ coords_ok (elems lat) (elems lon) ->
    call ne uc times lat lon alg refr eng = Raise ValueError.
  Proof.
    intros Ht Hin H1 H2 Hc. rewrite call_eq.
    destruct (to_utc_instants times) as [[n' Hn']|Hu]; [now elim (Ht n')|]. rewrite Hu.
    match goal with |- (if ?b then _ else _) = _ => destruct b; [|reflexivity] end.
    destruct (module_of ne alg eng) as [om|]; [|reflexivity].
    rewrite coords_ok_iff in Hc.
    destruct (forallb lon_ok (elems lon)); cbn [andb]; [|reflexivity].
    destruct (forallb lat_ok (elems lat)); [|reflexivity]. elim Hc; split; reflexivity.
  Qed.

  Lemma ok_coords uc times lat lon alg refr eng sp :
    call ne uc times lat lon alg refr eng = Ok sp -> coords_ok (elems lat) (elems lon).
  Proof.
    intros H. destruct (call_Ok_inv ne _ _ _ _ _ _ _ _ H) as (m & tz & ws & us0 & [] & Hsp).
    apply coords_ok_iff. split; assumption.
  Qed.

  (** ** C11 *)

  Lemma unsupported_evaluate alg eng times lat lon nd refr :
    (forall m, ~ In (alg, eng, m) (supported (F := F))) ->
    evaluate ne times lat lon alg nd refr eng = Raise ValueError.
  Proof.
    intros H. unfold evaluate.
    assert (Hn : module_of (F:=F) ne alg eng = None).
    { destruct (module_of ne alg eng) as [om|] eqn:E; [|reflexivity].
      apply module_of_supported in E. destruct E as [m [Hin _]]. now elim (H m). }
    unfold module_of in Hn. destruct (module_table ne alg) as [e|]; [|reflexivity]. now rewrite Hn.
  Qed.
  Lemma evaluate_shapes times lat lon alg refr eng nd :
    (forall n, times <> TMulti n) ->
    (exists n, n >= 2 /\ (lat = Multi n \/ lon = Multi n))
    \/ (nd = 0 /\ ~ (List.length (instants times) = List.length (elems lat) /\ List.length (elems lat) = List.length (elems lon)))
    \/ (nd = 1 /\ List.length (elems lat) <> List.length (elems lon))
    \/ (nd <> 0 /\ nd <> 1 /\ nd <> 2) ->
    evaluate ne times lat lon alg nd refr eng = Raise ValueError.
  Proof.
    intros Ht H. unfold evaluate. destruct (module_table ne alg) as [e|]; [|reflexivity]. destruct (e eng) as [om|]; [|reflexivity].
    unfold check_ndim.
    destruct (Nat.eqb_spec nd 0) as [E0|E0], (Nat.eqb_spec nd 1) as [E1|E1], (Nat.eqb_spec nd 2) as [E2|E2]; cbn [orb rbind]; try reflexivity; try lia;
      unfold check_timelatlon; (destruct (to_utc_instants times) as [[n' Hn']|Hu]; [now elim (Ht n')|]); rewrite Hu; cbn [rbind]; rewrite map_length;
      (destruct (Nat.ltb_spec 1 (ndim_of lon)); cbn [negb guard rbind]; [reflexivity|]);
      (destruct (forallb lon_ok (elems lon)); cbn [guard rbind]; [|reflexivity]);
      (destruct (Nat.ltb_spec 1 (ndim_of lat)); cbn [negb guard rbind]; [reflexivity|]);
      (destruct (forallb lat_ok (elems lat)); cbn [guard rbind]; [|reflexivity]);
      (destruct H as [(n & Hn & [E|E])|H]; [rewrite E in *; cbn [ndim_of] in *; lia|rewrite E in *; cbn [ndim_of] in *; lia|]); subst nd; cbn [Nat.eqb andb negb].
    - destruct (Nat.eqb_spec (List.length (instants times)) (List.length (elems lon))), (Nat.eqb_spec (List.length (elems lon)) (List.length (elems lat)));
        cbn [andb negb guard rbind]; try reflexivity. exfalso. destruct H as [[_ H]|[[H _]|(H & _)]]; try lia.
    - destruct (Nat.eqb_spec (List.length (elems lon)) (List.length (elems lat))); cbn [andb negb guard rbind]; try reflexivity.
      exfalso. destruct H as [[H _]|[[_ H]|(_ & H & _)]]; lia.
    - exfalso. destruct H as [[H _]|[[H _]|(_ & _ & H)]]; lia.
  Qed.
  Lemma unsupported_call uc alg eng times lat lon refr :
    (forall m, ~ In (alg, eng, m) (supported (F := F))) -> (forall n, times <> TMulti n) ->
    call ne uc times lat lon alg refr eng = Raise ValueError.
  Proof.
    intros H Ht. rewrite call_eq.
    destruct (to_utc_instants times) as [[n' Hn']|Hu]; [now elim (Ht n')|]. rewrite Hu.
    match goal with |- (if ?b then _ else _) = _ => destruct b; [|reflexivity] end.
    destruct (module_of ne alg eng) as [om|] eqn:E; [|reflexivity].
    apply module_of_supported in E. destruct E as [m [Hin _]]. now elim (H m).
  Qed.

  Lemma supported_unique alg eng m m' :
    In (alg, eng, m) (supported (F := F)) -> In (alg, eng, m') supported -> m = m'.
  Proof.
    intros H H'. assert (E : true = true) by reflexivity.
    pose proof (supported_module_of true alg eng m H) as A.
    pose proof (supported_module_of true alg eng m' H') as B. congruence.
  Qed.

  Lemma dispatch_lemma uc times lat lon alg refr eng sp m k t la lo :
    call ne uc times lat lon alg refr eng = Ok sp -> In (alg, eng, m) supported ->
    nth_error (instants times) k = Some (Some t) ->
    let s := (t / 1000000000)%Z in
    get (sp_ecf sp) [k] = Some (lib_ecf m (lib_time m s)) /\
    get (sp_eot sp) [k] = Some (lib_eot m (lib_time m s)) /\
    get (sp_declination sp) [k] = Some (lib_dec m (lib_time m s)) /\
    forall j i, at_idx uc (elems lat) (elems lon) k j i la lo ->
      get (sp_zenith sp) (idx uc k j i) =
        Some (fst (lib_cell m uc (is_True refr) (lib_time m s) (lib_cast m lo) (lib_cast m la))) /\
      get (sp_azimuth sp) (idx uc k j i) =
        Some (snd (lib_cell m uc (is_True refr) (lib_time m s) (lib_cast m lo) (lib_cast m la))).
  Proof.
    intros H Hin Hk s. destruct (call_cells ne _ _ _ _ _ _ _ _ H) as (m' & Hm & Htime & Hcell).
    apply (supported_module_of ne) in Hin.
    assert (m' = m). { rewrite Hm in Hin. destruct ne; [congruence|]. destruct (String.eqb eng "numexpr"); congruence. }
    subst m'. destruct (Htime _ _ Hk) as (H1 & H2 & H3). repeat split; try assumption.
    - exact (proj1 (Hcell _ _ _ _ _ _ Hk H0)).
    - exact (proj2 (Hcell _ _ _ _ _ _ Hk H0)).
  Qed.

  (** ** C12, C13 *)

  Lemma seconds_lemma uc t1 t2 lat lon alg refr eng a b :
    map (option_map (fun z => z / 1000000000)%Z) (instants t1) =
    map (option_map (fun z => z / 1000000000)%Z) (instants t2) ->
    call ne uc t1 lat lon alg refr eng = Ok a ->
    call ne uc t2 lat lon alg refr eng = Ok b -> same_outputs a b.
  Proof.
    intros E H1 H2. destruct (call_Ok_inv ne _ _ _ _ _ _ _ _ H1) as (m & tz & ws & us & [] & ->).
    destruct (call_Ok_inv ne _ _ _ _ _ _ _ _ H2) as (m' & tz' & ws' & us' & [] & ->).
    rewrite acc_mod in acc_mod0. injection acc_mod0 as <-.
    assert (Es : secs t1 = secs t2) by exact E. rewrite Es. repeat split.
  Qed.

  (** ** C16 *)

  Lemma out_data_azi alg eng m nd ts lats lons r r' :
    module_of ne alg eng = Some (Some m) -> nd <= 2 ->
    out_data m r snd nd ts lats lons = out_data m r' snd nd ts lats lons.
  Proof.
    intros Hm Hnd.
    assert (H : forall uc z lo la, snd (lib_cell m uc r (lib_time m z) (lib_cast m lo) (lib_cast m la)) =
                              snd (lib_cell m uc r' (lib_time m z) (lib_cast m lo) (lib_cast m la))).
    { intros uc z lo la. exact (azimuth_norefr ne alg eng m uc (Some z) lo la r r' Hm). }
    destruct nd as [|[|[|nd]]]; [| | |lia]; cbn [out_data].
    - apply map_ext. intros [[z|] [lo la]]; [|reflexivity]. cbn [cell0 fst snd]. apply (H Transect).
    - apply flat_map_ext. intros [z|]; [|reflexivity]. cbn [row1].
      apply map_ext. intros [lo la]. apply (H Sites).
    - apply flat_map_ext. intros [z|]; [|reflexivity]. cbn [row2].
      apply flat_map_ext. intros la. apply map_ext. intros lo. apply (H RegularGrid).
  Qed.

  Lemma refraction_lemma uc times lat lon alg eng r r' a :
    call ne uc times lat lon alg r eng = Ok a ->
    exists b, call ne uc times lat lon alg r' eng = Ok b /\
      sp_azimuth b = sp_azimuth a /\ sp_declination b = sp_declination a /\
      sp_ecf b = sp_ecf a /\ sp_eot b = sp_eot a /\
      sp_times_utc b = sp_times_utc a /\ sp_latitude b = sp_latitude a /\ sp_longitude b = sp_longitude a.
  Proof.
    intros H. destruct (call_Ok_inv ne _ _ _ _ _ _ _ _ H) as (m & tz & ws & us & Hacc & ->).
    eexists. split; [eapply call_Ok_intro; exact Hacc|].
    repeat split. cbn [mk_sp sp_azimuth eval_ok s_azimuth]. f_equal.
    eapply out_data_azi; [destruct Hacc; eassumption|]. destruct uc; cbn; lia.
  Qed.

  (** ** C17 *)
  Lemma has_refraction_lemma uc times lat lon alg eng r a :
    call ne uc times lat lon alg r eng = Ok a ->
    sp_refraction a = r /\
    exists b, call ne uc times lat lon alg (if is_True r then RTrue else RFalse) eng = Ok b /\ sp_zenith b = sp_zenith a.
  Proof.
    intros H. destruct (call_Ok_inv ne _ _ _ _ _ _ _ _ H) as (m & tz & ws & us & Hacc & ->).
    split; [reflexivity|].
    eexists. split; [eapply call_Ok_intro; exact Hacc|]. destruct r as [| |b]; reflexivity.
  Qed.
End Generic2.
