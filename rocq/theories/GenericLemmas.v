(** * GenericLemmas: pipeline properties for an arbitrary arithmetic *)

From Coq Require Import ZArith QArith List Bool Arith String Lia.
From Verif Require Import Num Arrays ArraysLemmas Psa Soltrack Iqbal Nrel Libspa Time Core Usecases Spec
     PipelineLemmas UsecaseLemmas.
Import ListNotations.
Open Scope nat_scope.

Lemma nth_error_lt {A} (l : list A) k x : nth_error l k = Some x -> k < List.length l.
Proof. intros H. apply nth_error_Some. congruence. Qed.

Section Generic.
  Context {F : Type} {O : Ops F}.
  Variable ne : bool.

  (** ** Dispatch *)

  Lemma module_of_supported alg eng om :
    module_of (F := F) ne alg eng = Some om ->
    exists m, In (alg, eng, m) supported /\ (om = Some m \/ (om = None /\ eng = "numexpr"%string /\ ne = false)).
  Proof.
    unfold module_of, module_table.
    repeat match goal with
    | |- context[if String.eqb alg ?s then _ else _] => destruct (String.eqb_spec alg s); subst
    end; try discriminate;
    repeat match goal with
    | |- context[if String.eqb eng ?s then _ else _] => destruct (String.eqb_spec eng s); subst
    end; try discriminate; intros [= <-];
    try (eexists; split; [|left; reflexivity]; unfold supported; cbn [In]; tauto);
    destruct ne; (eexists; split; [|first [left; reflexivity | right; repeat split; reflexivity]]); unfold supported; cbn [In]; tauto.
  Qed.

  Lemma supported_module_of alg eng m :
    In (alg, eng, m) (supported (F := F)) ->
    module_of ne alg eng = Some (if ne then Some m else if String.eqb eng "numexpr" then None else Some m).
  Proof.
    unfold supported; cbn [In]. intros H.
    repeat (destruct H as [H|H]; [injection H as <- <- <-; destruct ne; reflexivity|]). destruct H.
  Qed.

  (** Case analysis on the implementation that runs. *)
  Lemma module_cases alg eng (m : spalib F) :
    module_of ne alg eng = Some (Some m) ->
    (alg = "psa" /\ eng = "numpy" /\ m = py_psa \/ alg = "psa" /\ eng = "numexpr" /\ m = ne_psa \/
     alg = "soltrack" /\ eng = "numpy" /\ m = py_soltrack \/ alg = "soltrack" /\ eng = "numexpr" /\ m = ne_soltrack \/
     alg = "iqbal" /\ eng = "numpy" /\ m = py_iqbal \/ alg = "iqbal" /\ eng = "numexpr" /\ m = ne_iqbal \/
     alg = "nrel" /\ eng = "numexpr" /\ m = ne_nrel)%string.
  Proof.
    intros H. apply module_of_supported in H. destruct H as [m' [Hin [[= <-]|[H _]]]]; [|discriminate].
    unfold supported in Hin; cbn [In] in Hin.
    repeat (destruct Hin as [Hin|Hin]; [injection Hin as <- <- <-; tauto|]). destruct Hin.
  Qed.

  (** ** Cells *)

  Definition lib_cell (m : spalib F) (uc : usecase) : bool -> lib_T m -> F -> F -> F * F :=
    match uc with Sites => lib_2d m | RegularGrid => lib_3d m | Transect => lib_1d m end.
  Definition cell (m : spalib F) (uc : usecase) (refr : bool) (pr : F * F -> F) (t : option Z) (lo la : F) : F :=
    match t with
    | Some z => pr (lib_cell m uc refr (lib_time m z) (lib_cast m lo) (lib_cast m la))
    | None => fnan
    end.

  Lemma row1_length m refr pr lats lons t :
    List.length lons = List.length lats -> List.length (row1 m refr pr lats lons t) = List.length lats.
  Proof.
    intros H. destruct t; cbn; [rewrite map_length, combine_length; lia|apply repeat_length].
  Qed.
  Lemma row2_length m refr pr lats lons t :
    List.length (row2 m refr pr lats lons t) = List.length lats * List.length lons.
  Proof.
    destruct t; cbn; [|apply repeat_length]. unfold outer2.
    apply flat_map_const_length. intros; apply map_length.
  Qed.

  Lemma get_sites m refr pr ts lats lons k j t la lo :
    List.length lats = List.length lons ->
    nth_error ts k = Some t -> nth_error lats j = Some la -> nth_error lons j = Some lo ->
    get (ND (out_shape 1 (List.length ts) (List.length lats) (List.length lons))
            (out_data m refr pr 1 ts lats lons)) [k; j] = Some (cell m Sites refr pr t lo la).
  Proof.
    intros Hl Ht Hla Hlo. cbn [out_shape]. rewrite get_2d by (eapply nth_error_lt; eassumption).
    cbn [out_data]. rewrite nth_error_flat_map with (n := List.length lats).
    - rewrite Ht. destruct t as [z|]; cbn [row1 cell].
      + rewrite nth_error_map, nth_error_combine, Hlo, Hla. reflexivity.
      + apply nth_error_repeat. eapply nth_error_lt; eassumption.
    - intros x _. apply row1_length. lia.
    - eapply nth_error_lt; eassumption.
  Qed.

  Lemma get_grid m refr pr ts lats lons k j i t la lo :
    nth_error ts k = Some t -> nth_error lats j = Some la -> nth_error lons i = Some lo ->
    get (ND (out_shape 2 (List.length ts) (List.length lats) (List.length lons))
            (out_data m refr pr 2 ts lats lons)) [k; j; i] = Some (cell m RegularGrid refr pr t lo la).
  Proof.
    intros Ht Hla Hlo. cbn [out_shape].
    assert (Hj := nth_error_lt _ _ _ Hla). assert (Hi := nth_error_lt _ _ _ Hlo).
    rewrite get_3d; [|eapply nth_error_lt; eassumption|assumption|assumption].
    cbn [out_data]. rewrite nth_error_flat_map with (n := List.length lats * List.length lons).
    - rewrite Ht. destruct t as [z|]; cbn [row2 cell].
      + rewrite nth_error_outer2 by assumption. rewrite Hla, Hlo. reflexivity.
      + apply nth_error_repeat. nia.
    - intros x _. apply row2_length.
    - nia.
  Qed.

  Lemma get_transect m refr pr ts lats lons k t la lo :
    nth_error ts k = Some t -> nth_error lats k = Some la -> nth_error lons k = Some lo ->
    get (ND (out_shape 0 (List.length ts) (List.length lats) (List.length lons))
            (out_data m refr pr 0 ts lats lons)) [k] = Some (cell m Transect refr pr t lo la).
  Proof.
    intros Ht Hla Hlo. cbn [out_shape]. rewrite get_1d by (eapply nth_error_lt; eassumption).
    cbn [out_data]. rewrite nth_error_map, !nth_error_combine, Ht, Hlo, Hla. cbn.
    destruct t; reflexivity.
  Qed.

  Lemma get_time (f : Z -> F) ts k t :
    nth_error ts k = Some t ->
    get (ND [List.length ts] (map (time_val f) ts)) [k] = Some (time_val f t).
  Proof.
    intros Ht. rewrite get_1d by (eapply nth_error_lt; eassumption).
    now rewrite nth_error_map, Ht.
  Qed.

  Definition flr (t : option Z) : option Z := option_map floor_s t.

  Lemma nth_secs times k t : nth_error (instants times) k = Some t -> nth_error (secs times) k = Some (flr t).
  Proof. intros H. unfold secs. now rewrite nth_error_map, H. Qed.

  (** ** Outputs of a call, cell by cell *)


  Lemma call_cells uc times lat lon alg refr eng sp :
    call ne uc times lat lon alg refr eng = Ok sp ->
    exists m, module_of ne alg eng = Some (Some m) /\
      (forall k t, nth_error (instants times) k = Some t ->
         get (sp_ecf sp) [k] = Some (time_val (fun z => lib_ecf m (lib_time m z)) (flr t)) /\
         get (sp_eot sp) [k] = Some (time_val (fun z => lib_eot m (lib_time m z)) (flr t)) /\
         get (sp_declination sp) [k] = Some (time_val (fun z => lib_dec m (lib_time m z)) (flr t))) /\
      (forall k j i t la lo,
         nth_error (instants times) k = Some t -> at_idx uc (elems lat) (elems lon) k j i la lo ->
         get (sp_zenith sp) (idx uc k j i) = Some (cell m uc (is_True refr) fst (flr t) lo la) /\
         get (sp_azimuth sp) (idx uc k j i) = Some (cell m uc (is_True refr) snd (flr t) lo la)).
  Proof.
    intros H. destruct (call_Ok_inv ne _ _ _ _ _ _ _ _ H) as (m & tz & ws & us & [] & ->).
    exists m. split; [assumption|]. split.
    - intros k t Ht. apply nth_secs in Ht. cbn [mk_sp sp_ecf sp_eot sp_declination eval_ok s_ecf s_eot s_declination].
      repeat split; now apply get_time.
    - intros k j i t la lo Ht Hi. apply nth_secs in Ht.
      cbn [mk_sp sp_zenith sp_azimuth eval_ok s_zenith s_azimuth].
      destruct uc; cbn [idx at_idx nd_of shape_cond] in *; destruct Hi as [Hla Hlo].
      + split; now apply get_sites.
      + split; now apply get_grid.
      + split; now apply get_transect.
  Qed.

  (** ** C01 *)


  Lemma shapes_lemma uc times lat lon alg refr eng sp :
    call ne uc times lat lon alg refr eng = Ok sp ->
    let K := List.length (instants times) in
    let J := List.length (elems lat) in
    let I := List.length (elems lon) in
    shape (sp_zenith sp) = doc_shape uc K J I /\ wf_array (sp_zenith sp) /\
    shape (sp_azimuth sp) = doc_shape uc K J I /\ wf_array (sp_azimuth sp) /\
    shape (sp_ecf sp) = [K] /\ wf_array (sp_ecf sp) /\
    shape (sp_eot sp) = [K] /\ wf_array (sp_eot sp) /\
    shape (sp_declination sp) = [K] /\ wf_array (sp_declination sp).
  Proof.
    intros H. destruct (call_Ok_inv ne _ _ _ _ _ _ _ _ H) as (m & tz & ws & us & [] & ->).
    cbv zeta. assert (Hs : List.length (secs times) = List.length (instants times)) by (unfold secs; apply map_length).
    unfold wf_array. cbn [mk_sp sp_zenith sp_azimuth sp_ecf sp_eot sp_declination eval_ok s_zenith s_azimuth
      s_ecf s_eot s_declination shape data].
    rewrite Hs, !map_length. cbn [fold_right]. rewrite !Nat.mul_1_r.
    assert (Hd : forall pr, List.length (out_data m (is_True refr) pr (nd_of uc) (secs times) (elems lat) (elems lon)) =
       fold_right Nat.mul 1 (out_shape (nd_of uc) (List.length (instants times)) (List.length (elems lat)) (List.length (elems lon)))).
    { intros pr. destruct uc; cbn [nd_of out_data out_shape fold_right shape_cond] in *.
      - rewrite flat_map_const_length with (n := List.length (elems lat)); [lia|].
        intros; apply row1_length; lia.
      - rewrite flat_map_const_length with (n := List.length (elems lat) * List.length (elems lon)); [lia|].
        intros; apply row2_length.
      - rewrite map_length, !combine_length. lia. }
    rewrite !Hd. repeat split; try exact Hs; destruct uc; reflexivity.
  Qed.

  Lemma tz_localize_no_assert z ws : tz_localize z ws <> Raise AssertionError.
  Proof.
    unfold tz_localize. generalize (List.length (map (classify z) ws)). generalize (map (classify z) ws).
    intros l n; revert l; induction n as [|n IH]; intros l; [discriminate|].
    destruct l as [|[| |u|a b] l]; cbn [localize_classes]; try discriminate.
    - specialize (IH l). destruct (localize_classes n l) as [|[]]; cbn; congruence.
    - specialize (IH l). destruct (localize_classes n l) as [|[]]; cbn; congruence.
    - destruct (take_run _) as [run rest].
      assert (resolve_run run <> Raise AssertionError).
      { destruct run as [|[x y] run]; cbn; [discriminate|]. destruct (switches 1 x run) as [|? [|]]; discriminate. }
      specialize (IH rest). destruct (resolve_run run) as [us|e]; cbn [rbind]; [|congruence].
      destruct (localize_classes n rest) as [|[]]; cbn; congruence.
  Qed.

  Lemma no_assertion uc times lat lon alg refr eng :
    call (F := F) ne uc times lat lon alg refr eng <> Raise AssertionError.
  Proof.
    rewrite call_eq. destruct (to_utc times) as [us|e] eqn:E.
    2:{ destruct times; cbn in E; congruence. }
    match goal with |- (if ?b then _ else _) <> _ => destruct b; [|discriminate] end.
    destruct (module_of ne alg eng) as [om|]; [|discriminate].
    match goal with |- (if ?b then _ else _) <> _ => destruct b; [|discriminate] end.
    destruct om as [m|]; [|discriminate].
    destruct (ctor_times times) as [[[tz ws] us']|e] eqn:Ec; [discriminate|].
    unfold ctor_times in Ec. destruct times as [s l|s tzi l|n]; cbn [walls rbind] in Ec; [| |congruence].
    - rewrite tz_localize_utc in Ec. discriminate.
    - destruct tzi as [nm z|o|z]; [|congruence|rewrite tz_localize_utc in Ec; discriminate].
      assert (Hn := tz_localize_no_assert z (map (option_map fst) l)).
      destruct (tz_localize z _); cbn in Ec; congruence.
  Qed.

  (** ** C02: independence *)

  Lemma single_accepts uc uc' times lat lon alg eng m tz ws us t la lo :
    accepts ne uc times lat lon alg eng m tz ws us ->
    In la (elems lat) -> In lo (elems lon) ->
    accepts ne uc' (at_time t) (Scalar la) (Scalar lo) alg eng m "UTC" [t] [t].
  Proof.
    intros [] Hla Hlo. constructor; cbn [at_time instants elems ndim_of to_utc]; try reflexivity.
    - destruct uc'; cbn; auto.
    - cbn. rewrite (proj1 (forallb_forall _ _) acc_lonok lo Hlo). reflexivity.
    - cbn. rewrite (proj1 (forallb_forall _ _) acc_latok la Hla). reflexivity.
    - assumption.
    - apply ctor_times_naive.
  Qed.

  Lemma at_idx_In uc lats lons k j i la lo :
    at_idx (F:=F) uc lats lons k j i la lo -> In la lats /\ In lo lons.
  Proof. destruct uc; cbn; intros [H1 H2]; split; eapply nth_error_In; eassumption. Qed.

  Lemma single_call uc uc' times lat lon alg refr eng sp t k j i la lo :
    call ne uc times lat lon alg refr eng = Ok sp ->
    at_idx uc (elems lat) (elems lon) k j i la lo ->
    exists sp1, call ne uc' (at_time t) (Scalar la) (Scalar lo) alg refr eng = Ok sp1.
  Proof.
    intros H Hi. destruct (call_Ok_inv ne _ _ _ _ _ _ _ _ H) as (m & tz & ws & us & Ha & _).
    apply at_idx_In in Hi. destruct Hi as [Hla Hlo].
    eexists. eapply call_Ok_intro. eapply single_accepts; eassumption.
  Qed.

  Lemma at_idx_single uc la lo : at_idx (F:=F) uc (elems (Scalar la)) (elems (Scalar lo)) 0 0 0 la lo.
  Proof. destruct uc; cbn; auto. Qed.

  (** The same instant and location evaluated by two calls of the same use case. *)
  Lemma independence uc times lat lon times' lat' lon' alg refr eng sp sp' k j i k' j' i' t la lo :
    call ne uc times lat lon alg refr eng = Ok sp ->
    call ne uc times' lat' lon' alg refr eng = Ok sp' ->
    nth_error (instants times) k = Some t -> nth_error (instants times') k' = Some t ->
    at_idx uc (elems lat) (elems lon) k j i la lo ->
    at_idx uc (elems lat') (elems lon') k' j' i' la lo ->
    same_position sp sp' (idx uc k j i) (idx uc k' j' i') /\ same_time_outputs sp sp' k k'.
  Proof.
    intros H H' Ht Ht' Hi Hi'.
    destruct (call_cells _ _ _ _ _ _ _ _ H) as (m & Hm & Htime & Hcell).
    destruct (call_cells _ _ _ _ _ _ _ _ H') as (m' & Hm' & Htime' & Hcell').
    rewrite Hm in Hm'. injection Hm' as <-.
    destruct (Hcell _ _ _ _ _ _ Ht Hi) as [Hz Ha]. destruct (Hcell' _ _ _ _ _ _ Ht' Hi') as [Hz' Ha'].
    destruct (Htime _ _ Ht) as (H1 & H2 & H3). destruct (Htime' _ _ Ht') as (H1' & H2' & H3').
    split; [split|repeat split]; unfold same_at; eexists; split; eassumption.
  Qed.

  (** ** Cells of different use cases *)

  Lemma ne_psa_dims r t lo la :
    ne_psa_1d (F:=F) r t lo la = ne_psa_2d r t lo la /\ ne_psa_3d r t lo la = ne_psa_2d r t lo la.
  Proof. split; reflexivity. Qed.
  Lemma py_psa_dims r t lo la :
    py_psa_1d (F:=F) r t lo la = py_psa_2d r t lo la /\ py_psa_3d r t lo la = py_psa_2d r t lo la.
  Proof. split; reflexivity. Qed.
  Lemma py_soltrack_dims r t lo la :
    py_soltrack_1d (F:=F) r t lo la = py_soltrack_2d r t lo la /\ py_soltrack_3d r t lo la = py_soltrack_2d r t lo la.
  Proof. split; reflexivity. Qed.
  Lemma py_iqbal_dims r t lo la :
    py_iqbal_1d (F:=F) r t lo la = py_iqbal_2d r t lo la /\ py_iqbal_3d r t lo la = py_iqbal_2d r t lo la.
  Proof. split; reflexivity. Qed.
  Lemma ne_nrel_dims r t lo la :
    ne_nrel_1d (F:=F) r t lo la = ne_nrel_2d r t lo la /\ ne_nrel_3d r t lo la = ne_nrel_2d r t lo la.
  Proof. split; reflexivity. Qed.
  Lemma ne_iqbal_dims r t lo la : ne_iqbal_3d (F:=F) r t lo la = ne_iqbal_2d r t lo la.
  Proof. reflexivity. Qed.
  Lemma ne_soltrack_dims r t lo la :
    ne_soltrack_3d (F:=F) r t lo la = ne_soltrack_1d r t lo la /\
    fst (ne_soltrack_2d r t lo la) = fst (ne_soltrack_1d r t lo la).
  Proof. split; reflexivity. Qed.

  Lemma ne_psa_azi r r' t lo la :
    snd (ne_psa_1d (F:=F) r t lo la) = snd (ne_psa_1d r' t lo la) /\
    snd (ne_psa_2d (F:=F) r t lo la) = snd (ne_psa_2d r' t lo la) /\
    snd (ne_psa_3d (F:=F) r t lo la) = snd (ne_psa_3d r' t lo la).
  Proof. repeat split; reflexivity. Qed.
  Lemma py_psa_azi r r' t lo la :
    snd (py_psa_1d (F:=F) r t lo la) = snd (py_psa_1d r' t lo la) /\
    snd (py_psa_2d (F:=F) r t lo la) = snd (py_psa_2d r' t lo la) /\
    snd (py_psa_3d (F:=F) r t lo la) = snd (py_psa_3d r' t lo la).
  Proof. repeat split; reflexivity. Qed.
  Lemma ne_soltrack_azi r r' t lo la :
    snd (ne_soltrack_1d (F:=F) r t lo la) = snd (ne_soltrack_1d r' t lo la) /\
    snd (ne_soltrack_2d (F:=F) r t lo la) = snd (ne_soltrack_2d r' t lo la) /\
    snd (ne_soltrack_3d (F:=F) r t lo la) = snd (ne_soltrack_3d r' t lo la).
  Proof. repeat split; reflexivity. Qed.
  Lemma py_soltrack_azi r r' t lo la :
    snd (py_soltrack_1d (F:=F) r t lo la) = snd (py_soltrack_1d r' t lo la) /\
    snd (py_soltrack_2d (F:=F) r t lo la) = snd (py_soltrack_2d r' t lo la) /\
    snd (py_soltrack_3d (F:=F) r t lo la) = snd (py_soltrack_3d r' t lo la).
  Proof. repeat split; reflexivity. Qed.
  Lemma ne_iqbal_azi r r' t lo la :
    snd (ne_iqbal_1d (F:=F) r t lo la) = snd (ne_iqbal_1d r' t lo la) /\
    snd (ne_iqbal_2d (F:=F) r t lo la) = snd (ne_iqbal_2d r' t lo la) /\
    snd (ne_iqbal_3d (F:=F) r t lo la) = snd (ne_iqbal_3d r' t lo la).
  Proof. repeat split; reflexivity. Qed.
  Lemma py_iqbal_azi r r' t lo la :
    snd (py_iqbal_1d (F:=F) r t lo la) = snd (py_iqbal_1d r' t lo la) /\
    snd (py_iqbal_2d (F:=F) r t lo la) = snd (py_iqbal_2d r' t lo la) /\
    snd (py_iqbal_3d (F:=F) r t lo la) = snd (py_iqbal_3d r' t lo la).
  Proof. repeat split; reflexivity. Qed.
  Lemma ne_nrel_azi r r' t lo la :
    snd (ne_nrel_1d (F:=F) r t lo la) = snd (ne_nrel_1d r' t lo la) /\
    snd (ne_nrel_2d (F:=F) r t lo la) = snd (ne_nrel_2d r' t lo la) /\
    snd (ne_nrel_3d (F:=F) r t lo la) = snd (ne_nrel_3d r' t lo la).
  Proof. repeat split; reflexivity. Qed.

  (** numexpr soltrack: sites divide the sine by the cosine of the declination where
      transects and grids take its tangent. *)
  Definition tan_law (x : F) : Prop := ftan x = div (fsin x) (fcos x).
  Lemma ne_soltrack_tan r tm x y (H : tan_law (st_dec tm)) : ne_soltrack_2d (F:=F) r tm x y = ne_soltrack_1d r tm x y.
  Proof. unfold ne_soltrack_2d, ne_soltrack_1d. rewrite H. reflexivity. Qed.

  (** numexpr iqbal: transects divide the longitude by 15 in float64, the others in float32. *)
  Definition lon15_law (lo : F) : Prop :=
    div32 (cast32 lo) (lit 15.0) = div (cast32 lo) (lit 15.0).
  Lemma ne_iqbal_lon15 r tm lo y :
    lon15_law lo -> ne_iqbal_2d (F:=F) r tm (cast32 lo) y = ne_iqbal_1d r tm (cast32 lo) y.
  Proof. unfold lon15_law. intros H. unfold ne_iqbal_1d, ne_iqbal_2d. rewrite H. reflexivity. Qed.

  Local Opaque ne_psa_1d ne_psa_2d ne_psa_3d py_psa_1d py_psa_2d py_psa_3d
    py_soltrack_1d py_soltrack_2d py_soltrack_3d ne_soltrack_1d ne_soltrack_2d ne_soltrack_3d
    py_iqbal_1d py_iqbal_2d py_iqbal_3d ne_iqbal_1d ne_iqbal_2d ne_iqbal_3d
    ne_nrel_1d ne_nrel_2d ne_nrel_3d ne_psa_time py_psa_time ne_soltrack_time py_soltrack_time
    ne_iqbal_time py_iqbal_time ne_nrel_time.

  Lemma cell_same_dims m pr uc uc' refr t lo la :
    (forall r tm x y, pr (lib_1d m r tm x y) = pr (lib_2d m r tm x y)) ->
    (forall r tm x y, pr (lib_3d m r tm x y) = pr (lib_2d m r tm x y)) ->
    cell m uc refr pr t lo la = cell m uc' refr pr t lo la.
  Proof.
    intros H1 H3. destruct t; [|reflexivity].
    destruct uc, uc'; cbn [cell lib_cell]; rewrite ?H1, ?H3; reflexivity.
  Qed.

  Lemma cell_nepsa uc uc' refr pr t lo la :
    cell ne_psa uc refr pr t lo la = cell ne_psa uc' refr pr t lo la.
  Proof. apply cell_same_dims; intros r tm x y; apply f_equal; apply (ne_psa_dims r tm x y). Qed.
  Lemma cell_pypsa uc uc' refr pr t lo la :
    cell py_psa uc refr pr t lo la = cell py_psa uc' refr pr t lo la.
  Proof. apply cell_same_dims; intros r tm x y; apply f_equal; apply (py_psa_dims r tm x y). Qed.
  Lemma cell_pysol uc uc' refr pr t lo la :
    cell py_soltrack uc refr pr t lo la = cell py_soltrack uc' refr pr t lo la.
  Proof. apply cell_same_dims; intros r tm x y; apply f_equal; apply (py_soltrack_dims r tm x y). Qed.
  Lemma cell_pyiqbal uc uc' refr pr t lo la :
    cell py_iqbal uc refr pr t lo la = cell py_iqbal uc' refr pr t lo la.
  Proof. apply cell_same_dims; intros r tm x y; apply f_equal; apply (py_iqbal_dims r tm x y). Qed.
  Lemma cell_nrel uc uc' refr pr t lo la :
    cell ne_nrel uc refr pr t lo la = cell ne_nrel uc' refr pr t lo la.
  Proof. apply cell_same_dims; intros r tm x y; apply f_equal; apply (ne_nrel_dims r tm x y). Qed.
  Lemma cell_nesol_zenith uc uc' refr t lo la :
    cell ne_soltrack uc refr fst t lo la = cell ne_soltrack uc' refr fst t lo la.
  Proof.
    apply cell_same_dims; intros r tm x y.
    - symmetry. apply (ne_soltrack_dims r tm x y).
    - etransitivity; [apply f_equal, (ne_soltrack_dims r tm x y)|symmetry; apply (ne_soltrack_dims r tm x y)].
  Qed.
  Lemma cell_nesol_tan uc uc' refr pr t lo la :
    (forall z, t = Some z -> tan_law (st_dec (ne_soltrack_time (ofZ z)))) ->
    cell ne_soltrack uc refr pr t lo la = cell ne_soltrack uc' refr pr t lo la.
  Proof.
    intros H. destruct t as [z|]; [|reflexivity]. specialize (H z eq_refl).
    assert (H1 : forall x y, pr (ne_soltrack_1d refr (ne_soltrack_time (ofZ z)) x y) = pr (ne_soltrack_2d refr (ne_soltrack_time (ofZ z)) x y)).
    { intros x y. apply f_equal. symmetry. now apply ne_soltrack_tan. }
    assert (H3 : forall x y, pr (ne_soltrack_3d refr (ne_soltrack_time (ofZ z)) x y) = pr (ne_soltrack_2d refr (ne_soltrack_time (ofZ z)) x y)).
    { intros x y. rewrite <- H1. apply f_equal. apply ne_soltrack_dims. }
    destruct uc, uc'; cbn [cell lib_cell ne_soltrack lib_1d lib_2d lib_3d lib_time lib_cast]; rewrite ?H1, ?H3; reflexivity.
  Qed.

  Lemma cell_32 m refr pr t lo la :
    (forall r tm x y, lib_3d m r tm x y = lib_2d m r tm x y) ->
    cell m RegularGrid refr pr t lo la = cell m Sites refr pr t lo la.
  Proof. intros H. destruct t; [|reflexivity]. cbn [cell lib_cell]. now rewrite H. Qed.
  Lemma cell_12 m refr pr t lo la :
    (forall r tm y, lib_1d m r tm (lib_cast m lo) y = lib_2d m r tm (lib_cast m lo) y) ->
    cell m Transect refr pr t lo la = cell m Sites refr pr t lo la.
  Proof. intros H. destruct t; [|reflexivity]. cbn [cell lib_cell]. now rewrite H. Qed.
  Lemma cell_neiqbal_grid refr pr t lo la :
    cell ne_iqbal RegularGrid refr pr t lo la = cell ne_iqbal Sites refr pr t lo la.
  Proof. apply cell_32. intros r tm x y. apply (ne_iqbal_dims r tm x y). Qed.
  Lemma cell_neiqbal_lon15 refr pr t lo la :
    lon15_law lo ->
    cell ne_iqbal Transect refr pr t lo la = cell ne_iqbal Sites refr pr t lo la.
  Proof. intros H. apply cell_12. intros r tm y. symmetry. apply (ne_iqbal_lon15 r tm lo y H). Qed.

  Lemma cell_azi m uc r r' t lo la :
    (forall tm x y, snd (lib_1d m r tm x y) = snd (lib_1d m r' tm x y)) ->
    (forall tm x y, snd (lib_2d m r tm x y) = snd (lib_2d m r' tm x y)) ->
    (forall tm x y, snd (lib_3d m r tm x y) = snd (lib_3d m r' tm x y)) ->
    cell m uc r snd t lo la = cell m uc r' snd t lo la.
  Proof.
    intros H1 H2 H3. destruct t; [|reflexivity]. destruct uc; cbn [cell lib_cell]; auto.
  Qed.

  (** ** Refraction *)

  Lemma azimuth_norefr alg eng m uc t lo la r r' :
    module_of ne alg eng = Some (Some m) ->
    cell m uc r snd t lo la = cell m uc r' snd t lo la.
  Proof.
    intros Hm. destruct t as [z|]; [|reflexivity].
    apply module_cases in Hm.
    destruct Hm as [(_&_&->)|[(_&_&->)|[(_&_&->)|[(_&_&->)|[(_&_&->)|[(_&_&->)|(_&_&->)]]]]]];
      apply cell_azi; intros tm x y.
    - apply (py_psa_azi r r' tm x y).
    - apply (py_psa_azi r r' tm x y).
    - apply (py_psa_azi r r' tm x y).
    - apply (ne_psa_azi r r' tm x y).
    - apply (ne_psa_azi r r' tm x y).
    - apply (ne_psa_azi r r' tm x y).
    - apply (py_soltrack_azi r r' tm x y).
    - apply (py_soltrack_azi r r' tm x y).
    - apply (py_soltrack_azi r r' tm x y).
    - apply (ne_soltrack_azi r r' tm x y).
    - apply (ne_soltrack_azi r r' tm x y).
    - apply (ne_soltrack_azi r r' tm x y).
    - apply (py_iqbal_azi r r' tm x y).
    - apply (py_iqbal_azi r r' tm x y).
    - apply (py_iqbal_azi r r' tm x y).
    - apply (ne_iqbal_azi r r' tm x y).
    - apply (ne_iqbal_azi r r' tm x y).
    - apply (ne_iqbal_azi r r' tm x y).
    - apply (ne_nrel_azi r r' tm x y).
    - apply (ne_nrel_azi r r' tm x y).
    - apply (ne_nrel_azi r r' tm x y).
  Qed.
End Generic.
