(** * UsecaseLemmas: the three use cases, fully described *)

From Coq Require Import ZArith QArith List Bool Arith String Lia.
From Verif Require Import Num Arrays ArraysLemmas Libspa Time Core Usecases Spec PipelineLemmas.
Import ListNotations.
Open Scope nat_scope.

(** ** Times *)

Lemma to_utc_instants t : (exists n, t = TMulti n) \/ to_utc t = Ok (instants t).
Proof.
  destruct t as [s l|s tz l|n]; [right|right|left]; cbn.
  - reflexivity.
  - f_equal. apply map_ext. intros [[w o]|]; reflexivity.
  - now exists n.
Qed.

Lemma to_utc_Ok t us : to_utc t = Ok us -> us = instants t.
Proof.
  destruct (to_utc_instants t) as [[n ->]|H]; [discriminate|]. rewrite H. now intros [= ->].
Qed.

Lemma resolve_run_length r us : resolve_run r = Ok us -> List.length us = List.length r.
Proof.
  destruct r as [|[a b] r]; cbn [resolve_run]; [now intros [= <-]|].
  destruct (switches 1 a r) as [|k [|k' l]]; try discriminate. intros [= <-].
  rewrite app_length, !map_length, <- app_length, firstn_skipn. reflexivity.
Qed.

Lemma take_run_length l r rest : take_run l = (r, rest) -> List.length l = List.length r + List.length rest.
Proof.
  revert r rest; induction l as [|c l IH]; cbn; intros r rest; [now intros [= <- <-]|].
  destruct c; try (now intros [= <- <-]).
  destruct (take_run l) as [r0 rest0] eqn:E. intros [= <- <-]. cbn. now rewrite (IH r0 rest0).
Qed.

Lemma localize_classes_length fuel l r :
  List.length l <= fuel -> localize_classes fuel l = Ok r -> List.length r = List.length l.
Proof.
  revert l r; induction fuel as [|fuel IH]; intros l r Hf.
  - destruct l; [|cbn in Hf; lia]. cbn. now intros [= <-].
  - destruct l as [|c l]; cbn [localize_classes]; [now intros [= <-]|]. cbn [List.length] in Hf.
    destruct c as [| |u|a b].
    + destruct (localize_classes fuel l) eqn:E; cbn; [|discriminate]. intros [= <-]. cbn.
      f_equal. apply (IH l); [lia|exact E].
    + discriminate.
    + destruct (localize_classes fuel l) eqn:E; cbn; [|discriminate]. intros [= <-]. cbn.
      f_equal. apply (IH l); [lia|exact E].
    + destruct (take_run (LTwo a b :: l)) as [run rest] eqn:E.
      assert (Hl := take_run_length _ _ _ E). cbn [List.length] in Hl.
      assert (Hr : 1 <= List.length run).
      { cbn in E. destruct (take_run l). injection E as <- <-. cbn. lia. }
      destruct (resolve_run run) as [us|] eqn:E2; cbn; [|discriminate].
      destruct (localize_classes fuel rest) eqn:E3; cbn; [|discriminate]. intros [= <-].
      rewrite app_length, map_length, (resolve_run_length _ _ E2).
      rewrite (IH rest _ ltac:(lia) E3). lia.
Qed.

Lemma tz_localize_length z ws us : tz_localize z ws = Ok us -> List.length us = List.length ws.
Proof.
  unfold tz_localize. intros H. apply localize_classes_length in H; [|lia].
  now rewrite map_length in H.
Qed.

Lemma candidates_utc w : candidates utc_zone w = [w].
Proof. unfold candidates, utc_zone; cbn. rewrite !Z.sub_0_r, Z.sub_diag. reflexivity. Qed.

Lemma tz_localize_utc ws : tz_localize utc_zone ws = Ok ws.
Proof.
  unfold tz_localize. rewrite map_length.
  induction ws as [|[w|] ws IH]; cbn [map List.length localize_classes classify].
  - reflexivity.
  - rewrite candidates_utc, IH. reflexivity.
  - rewrite IH. reflexivity.
Qed.

Lemma ctor_times_length t tz ws us :
  ctor_times t = Ok (tz, ws, us) -> List.length us = List.length (instants t).
Proof.
  unfold ctor_times. destruct t as [s l|s tzi l|n]; cbn [walls rbind instants]; [| |discriminate].
  - rewrite tz_localize_utc. now intros [= <- <- <-].
  - rewrite map_length. destruct tzi as [nm z|o|z].
    + destruct (tz_localize z _) eqn:E; cbn; [|discriminate]. intros [= <- <- <-].
      apply tz_localize_length in E. now rewrite E, map_length.
    + discriminate.
    + rewrite tz_localize_utc. intros [= <- <- <-]. apply map_length.
Qed.

Lemma ctor_times_naive s l : ctor_times (TNaive s l) = Ok ("UTC"%string, l, l).
Proof. cbn. now rewrite tz_localize_utc. Qed.

Lemma floor_s_mul z : floor_s (z * NS_PER_S) = z.
Proof. unfold floor_s, NS_PER_S. apply Z.div_mul. discriminate. Qed.

(** ** The use cases *)

Definition nd_of (uc : usecase) : nat := match uc with Sites => 1 | RegularGrid => 2 | Transect => 0 end.

Lemma shape_eqb_refl a : shape_eqb a a = true.
Proof. unfold shape_eqb. now destruct (list_eq_dec Nat.eq_dec a a). Qed.

Section Usecases.
  Context {F : Type} {O : Ops F}.
  Variable ne : bool.

  Definition mk_sp (uc : usecase) (tz : string) (ws us : list (option Z)) (alg eng : string)
             (refr : refr_flag) (s : solpos F) : Sunpos F :=
    {| sp_usecase := uc; sp_timezone := tz; sp_times := ws; sp_times_utc := us;
       sp_latitude := s_latitude s; sp_longitude := s_longitude s; sp_algorithm := alg;
       sp_engine := eng; sp_refraction := refr;
       sp_ecf := s_ecf s; sp_eot := s_eot s; sp_declination := s_declination s;
       sp_zenith := s_zenith s; sp_azimuth := s_azimuth s |}.

  Definition secs (t : times_arg) : list (option Z) := map (option_map floor_s) (instants t).

  Lemma init_ok t uc m refr lats lons alg eng rf tz ws us :
    ctor_times t = Ok (tz, ws, us) ->
    shape_cond uc (List.length (instants t)) (List.length lats) (List.length lons) ->
    Sunpos_init t lats lons alg eng rf uc (eval_ok m refr (nd_of uc) (secs t) lats lons) =
    Ok (mk_sp uc tz ws us alg eng rf (eval_ok m refr (nd_of uc) (secs t) lats lons)).
  Proof.
    intros Hc Hs. unfold Sunpos_init. rewrite Hc. cbn [rbind].
    assert (Hl : List.length us = List.length (secs t)).
    { unfold secs. rewrite map_length. now apply ctor_times_length in Hc. }
    rewrite Hl.
    assert (Hs' : List.length (secs t) = List.length (instants t)) by (unfold secs; apply map_length).
    destruct uc; cbn [nd_of shape_cond eval_ok s_ecf s_eot s_declination s_zenith s_azimuth shape out_shape] in *;
      rewrite !shape_eqb_refl; cbn [andb guard rbind].
    - rewrite (proj2 (Nat.eqb_eq _ _) Hs). cbn [andb guard rbind]. reflexivity.
    - reflexivity.
    - destruct Hs as [H1 H2]. rewrite <- Hs' in H1.
      rewrite (proj2 (Nat.eqb_eq _ _) H1), (proj2 (Nat.eqb_eq _ _) H2).
      cbn [andb guard rbind]. reflexivity.
  Qed.

  Lemma ndim_elems (x : arg F) : ndim_of x = 1 -> one_dim x (elems x) \/ x = Multi 1.
  Proof.
    destruct x as [a|l|n]; cbn; intros H.
    - left. right. now exists a.
    - left. now left.
    - right. now subst.
  Qed.

  (** Validation of evaluate's arguments, when they are 1-dim arrays. *)
  Lemma check_vec t lats lons nd :
    check_timelatlon t (Vec lats) (Vec lons) nd =
    match to_utc t with
    | Raise e => Raise e
    | Ok us =>
      if forallb lon_ok lons then
        if forallb lat_ok lats then
          if (negb (nd =? 0) || ((List.length us =? List.length lons) && (List.length lons =? List.length lats)))
             && (negb (nd =? 1) || (List.length lons =? List.length lats))
          then Ok (map (option_map floor_s) us, lats, lons) else Raise ValueError
        else Raise ValueError
      else Raise ValueError
    end.
  Proof.
    unfold check_timelatlon. destruct (to_utc t) as [us|e]; [|reflexivity].
    cbn [rbind ndim_of elems Nat.ltb Nat.leb negb guard].
    destruct (forallb lon_ok lons); cbn [guard rbind]; [|reflexivity].
    destruct (forallb lat_ok lats); cbn [guard rbind]; [|reflexivity].
    rewrite map_length.
    destruct (nd =? 0); cbn [andb negb orb guard rbind].
    - rewrite negb_involutive.
      destruct ((List.length us =? List.length lons) && (List.length lons =? List.length lats)) eqn:E;
        cbn [andb guard rbind]; [|reflexivity].
      apply andb_prop in E. destruct E as [_ ->]. destruct (nd =? 1); reflexivity.
    - destruct (nd =? 1); cbn [andb negb orb guard rbind]; [|reflexivity].
      rewrite negb_involutive. destruct (List.length lons =? List.length lats); reflexivity.
  Qed.

  Lemma map_floor_mul us :
    map (option_map floor_s) (map (option_map (fun z => (z * NS_PER_S)%Z)) (map (option_map floor_s) us)) =
    map (option_map floor_s) us.
  Proof.
    rewrite !map_map. apply map_ext. intros [z|]; cbn; [|reflexivity]. now rewrite floor_s_mul.
  Qed.

  (** Complete description of a call. *)
  Lemma call_eq uc times lat lon alg refr eng :
    call ne uc times lat lon alg refr eng =
    match to_utc times with
    | Raise e => Raise e
    | Ok us =>
      if (ndim_of lat =? 1) && (ndim_of lon =? 1) &&
         (match uc with
          | Sites => List.length (elems lat) =? List.length (elems lon)
          | RegularGrid => true
          | Transect => (List.length (elems lat) =? List.length (elems lon))
                        && (List.length (elems lon) =? List.length us)
          end)
      then
        match module_of ne alg eng with
        | None => Raise ValueError
        | Some om =>
            if forallb lon_ok (elems lon) && forallb lat_ok (elems lat) then
              match om with
              | None => Raise AttributeError
              | Some m =>
                  match ctor_times times with
                  | Raise e => Raise e
                  | Ok (tz, ws, us') =>
                      Ok (mk_sp uc tz ws us' alg eng refr
                            (eval_ok m (is_True refr) (nd_of uc) (secs times) (elems lat) (elems lon)))
                  end
              end
            else Raise ValueError
        end
      else Raise ValueError
    end.
  Proof.
    assert (Hctor : forall om uc (ok : bool), (ok = true -> shape_cond uc (List.length (instants times)) (List.length (elems lat)) (List.length (elems lon))) -> ok = true ->
       forall m : spalib F, om = Some m ->
       Sunpos_init times (elems lat) (elems lon) alg eng refr uc
          (eval_ok m (is_True refr) (nd_of uc) (secs times) (elems lat) (elems lon)) =
       match ctor_times times with
       | Raise e => Raise e
       | Ok (tz, ws, us') => Ok (mk_sp uc tz ws us' alg eng refr
           (eval_ok m (is_True refr) (nd_of uc) (secs times) (elems lat) (elems lon)))
       end).
    { intros om uc' ok Hs Hok m _. destruct (ctor_times times) as [[[tz ws] us']|e] eqn:E.
      - apply init_ok; [exact E|auto].
      - unfold Sunpos_init. now rewrite E. }
    destruct uc; cbn [call]; unfold sites, regular_grid, transect.
    - destruct (to_utc times) as [us|e] eqn:Eu; [|reflexivity]. cbn [rbind].
      unfold check_dimensions. cbn [Nat.eqb andb].
      destruct (ndim_of lat =? 1); cbn [andb guard rbind]; [|reflexivity].
      destruct (ndim_of lon =? 1); cbn [andb guard rbind]; [|reflexivity].
      destruct (List.length (elems lat) =? List.length (elems lon)) eqn:El; cbn [andb guard rbind]; [|reflexivity].
      apply Nat.eqb_eq in El.
      rewrite evaluate_eq by lia. destruct (module_of ne alg eng) as [om|]; [|reflexivity].
      rewrite check_vec. cbn [to_utc]. rewrite map_floor_mul.
      destruct (forallb lon_ok (elems lon)); cbn [andb]; [|reflexivity].
      destruct (forallb lat_ok (elems lat)); cbn [andb]; [|reflexivity].
      rewrite El, Nat.eqb_refl. cbn [Nat.eqb negb orb andb rbind].
      destruct om as [m|]; [|reflexivity]. cbn [rbind].
      apply to_utc_Ok in Eu. subst us.
      apply (Hctor (Some m) Sites true); [intros _; exact El|reflexivity|reflexivity].
    - destruct (to_utc times) as [us|e] eqn:Eu; [|reflexivity]. cbn [rbind].
      unfold check_dimensions. cbn [Nat.eqb andb].
      destruct (ndim_of lat =? 1); cbn [andb guard rbind]; [|reflexivity].
      destruct (ndim_of lon =? 1); cbn [andb guard rbind]; [|reflexivity].
      rewrite evaluate_eq by lia. destruct (module_of ne alg eng) as [om|]; [|reflexivity].
      rewrite check_vec, Eu. 
      destruct (forallb lon_ok (elems lon)); cbn [andb]; [|reflexivity].
      destruct (forallb lat_ok (elems lat)); cbn [andb]; [|reflexivity].
      cbn [Nat.eqb negb orb andb rbind].
      destruct om as [m|]; [|reflexivity]. cbn [rbind].
      apply to_utc_Ok in Eu. subst us.
      apply (Hctor (Some m) RegularGrid true); [intros _; exact I|reflexivity|reflexivity].
    - destruct (to_utc times) as [us|e] eqn:Eu; [|reflexivity]. cbn [rbind].
      unfold check_dimensions. cbn [Nat.eqb andb].
      destruct (ndim_of lat =? 1); cbn [andb guard rbind]; [|reflexivity].
      destruct (ndim_of lon =? 1); cbn [andb guard rbind]; [|reflexivity].
      rewrite map_length.
      destruct (List.length (elems lat) =? List.length (elems lon)) eqn:El; cbn [andb guard rbind]; [|reflexivity].
      destruct (List.length (elems lon) =? List.length us) eqn:Et; cbn [andb guard rbind]; [|reflexivity].
      apply Nat.eqb_eq in El, Et.
      rewrite evaluate_eq by lia. destruct (module_of ne alg eng) as [om|]; [|reflexivity].
      rewrite check_vec, Eu. 
      destruct (forallb lon_ok (elems lon)); cbn [andb]; [|reflexivity].
      destruct (forallb lat_ok (elems lat)); cbn [andb]; [|reflexivity].
      rewrite El, Et, !Nat.eqb_refl. cbn [Nat.eqb negb orb andb rbind].
      destruct om as [m|]; [|reflexivity]. cbn [rbind].
      apply to_utc_Ok in Eu. subst us.
      apply (Hctor (Some m) Transect true); [intros _; split; lia|reflexivity|reflexivity].
  Qed.

  (** Success, exactly. *)
  Record accepts (uc : usecase) (times : times_arg) (lat lon : arg F) (alg eng : string) (m : spalib F)
         (tz : string) (ws us : list (option Z)) : Prop := {
    acc_times : to_utc times = Ok (instants times);
    acc_lat : ndim_of lat = 1;
    acc_lon : ndim_of lon = 1;
    acc_shape : shape_cond uc (List.length (instants times)) (List.length (elems lat)) (List.length (elems lon));
    acc_lonok : forallb lon_ok (elems lon) = true;
    acc_latok : forallb lat_ok (elems lat) = true;
    acc_mod : module_of ne alg eng = Some (Some m);
    acc_ctor : ctor_times times = Ok (tz, ws, us) }.

  Lemma call_Ok_inv uc times lat lon alg refr eng sp :
    call ne uc times lat lon alg refr eng = Ok sp ->
    exists m tz ws us, accepts uc times lat lon alg eng m tz ws us /\
      sp = mk_sp uc tz ws us alg eng refr
             (eval_ok m (is_True refr) (nd_of uc) (secs times) (elems lat) (elems lon)).
  Proof.
    rewrite call_eq. destruct (to_utc times) as [us|e] eqn:Eu; [|discriminate].
    assert (Hus := to_utc_Ok _ _ Eu). subst us.
    match goal with |- (if ?b then _ else _) = _ -> _ => destruct b eqn:Eb; [|discriminate] end.
    destruct (module_of ne alg eng) as [om|] eqn:Em; [|discriminate].
    match goal with |- (if ?b then _ else _) = _ -> _ => destruct b eqn:Ec; [|discriminate] end.
    destruct om as [m|]; [|discriminate].
    destruct (ctor_times times) as [[[tz ws] us]|e] eqn:Et; [|discriminate].
    intros [= <-]. exists m, tz, ws, us. split; [|reflexivity].
    apply andb_prop in Eb. destruct Eb as [Eb Es]. apply andb_prop in Eb. destruct Eb as [E1 E2].
    apply andb_prop in Ec. destruct Ec as [E3 E4]. apply Nat.eqb_eq in E1, E2.
    constructor; try assumption.
    destruct uc; cbn [shape_cond].
    - now apply Nat.eqb_eq in Es.
    - exact I.
    - apply andb_prop in Es. destruct Es as [Ea Eb]. apply Nat.eqb_eq in Ea, Eb. split; lia.
  Qed.

  Lemma call_Ok_intro uc times lat lon alg refr eng m tz ws us :
    accepts uc times lat lon alg eng m tz ws us ->
    call ne uc times lat lon alg refr eng =
    Ok (mk_sp uc tz ws us alg eng refr
             (eval_ok m (is_True refr) (nd_of uc) (secs times) (elems lat) (elems lon))).
  Proof.
    intros [H1 H2 H3 H4 H5 H6 H7 H8]. rewrite call_eq, H1, H2, H3, H7, H5, H6, H8.
    destruct uc; cbn [shape_cond Nat.eqb andb] in *.
    - now rewrite H4, Nat.eqb_refl.
    - reflexivity.
    - destruct H4 as [Ha Hb]. rewrite <- Hb, <- Ha, !Nat.eqb_refl. reflexivity.
  Qed.
End Usecases.
