(** * PipelineLemmas: what [evaluate] and the three use cases compute, cell by cell,
    for an arbitrary arithmetic *)

From Coq Require Import ZArith QArith List Bool Arith String Lia.
From Verif Require Import Num Arrays ArraysLemmas Libspa Time Core Usecases.
Import ListNotations.
Open Scope nat_scope.

Lemma map_fst_flat_map {A B C} (g : A -> list (B * C)) xs :
  map fst (flat_map g xs) = flat_map (fun x => map fst (g x)) xs.
Proof. induction xs; cbn; [reflexivity|]. now rewrite map_app, IHxs. Qed.
Lemma map_snd_flat_map {A B C} (g : A -> list (B * C)) xs :
  map snd (flat_map g xs) = flat_map (fun x => map snd (g x)) xs.
Proof. induction xs; cbn; [reflexivity|]. now rewrite map_app, IHxs. Qed.
Lemma flat_map_map {A B C} (g : B -> list C) (f : A -> B) xs :
  flat_map g (map f xs) = flat_map (fun x => g (f x)) xs.
Proof. induction xs; cbn; [reflexivity|]. now rewrite IHxs. Qed.
Lemma flat_map_single {A B} (f : A -> B) xs : flat_map (fun x => [f x]) xs = map f xs.
Proof. induction xs; cbn; [reflexivity|]. now rewrite IHxs. Qed.
Lemma combine_map_l {A B C} (f : A -> C) (xs : list A) (ys : list B) :
  combine (map f xs) ys = map (fun '(a, b) => (f a, b)) (combine xs ys).
Proof. revert ys; induction xs; intros [|y ys]; cbn; try reflexivity. now rewrite IHxs. Qed.
Lemma combine_map_r {A B C} (f : B -> C) (xs : list A) (ys : list B) :
  combine xs (map f ys) = map (fun '(a, b) => (a, f b)) (combine xs ys).
Proof. revert ys; induction xs; intros [|y ys]; cbn; try reflexivity. now rewrite IHxs. Qed.

Lemma combine3_map {A B C A' B' C'} (f : A -> A') (g : B -> B') (h : C -> C') xs ys zs :
  combine (map f xs) (combine (map g ys) (map h zs)) =
  map (fun '(a, (b, c)) => (f a, (g b, h c))) (combine xs (combine ys zs)).
Proof.
  revert ys zs; induction xs; intros [|y ys] [|z zs]; cbn; try reflexivity. now rewrite IHxs.
Qed.

Section Pipeline.
  Context {F : Type} {O : Ops F}.
  Variable ne : bool.

  Definition module_of (alg eng : string) : option (option (spalib F)) :=
    match module_table ne alg with None => None | Some e => e eng end.

  Definition time_val (f : Z -> F) (t : option Z) : F :=
    match t with Some z => f z | None => fnan end.

  (** One row (time) of the location-dependent outputs. *)
  Definition row1 (m : spalib F) (refr : bool) (pr : F * F -> F) (lats lons : list F) (t : option Z) : list F :=
    match t with
    | Some z => map (fun '(lon, lat) => pr (lib_2d m refr (lib_time m z) (lib_cast m lon) (lib_cast m lat)))
                    (combine lons lats)
    | None => repeat fnan (List.length lats)
    end.
  Definition row2 (m : spalib F) (refr : bool) (pr : F * F -> F) (lats lons : list F) (t : option Z) : list F :=
    match t with
    | Some z => outer2 (fun lat lon => pr (lib_3d m refr (lib_time m z) (lib_cast m lon) (lib_cast m lat)))
                       lats lons
    | None => repeat fnan (List.length lats * List.length lons)
    end.
  Definition cell0 (m : spalib F) (refr : bool) (pr : F * F -> F) (t : option Z) (lonlat : F * F) : F :=
    match t with
    | Some z => pr (lib_1d m refr (lib_time m z) (lib_cast m (fst lonlat)) (lib_cast m (snd lonlat)))
    | None => fnan
    end.

  Definition out_data (m : spalib F) (refr : bool) (pr : F * F -> F) (nd : nat) (ts : list (option Z))
             (lats lons : list F) : list F :=
    match nd with
    | 0 => map (fun '(t, ll) => cell0 m refr pr t ll) (combine ts (combine lons lats))
    | 1 => flat_map (row1 m refr pr lats lons) ts
    | _ => flat_map (row2 m refr pr lats lons) ts
    end.

  Definition eval_ok (m : spalib F) (refr : bool) (nd : nat) (ts : list (option Z)) (lats lons : list F)
    : solpos F :=
    let n := List.length ts in
    let sh := out_shape nd n (List.length lats) (List.length lons) in
    {| s_latitude := lats; s_longitude := lons;
       s_ecf := ND [n] (map (time_val (fun z => lib_ecf m (lib_time m z))) ts);
       s_eot := ND [n] (map (time_val (fun z => lib_eot m (lib_time m z))) ts);
       s_declination := ND [n] (map (time_val (fun z => lib_dec m (lib_time m z))) ts);
       s_zenith := ND sh (out_data m refr fst nd ts lats lons);
       s_azimuth := ND sh (out_data m refr snd nd ts lats lons) |}.

  Lemma reshape_time ts (f : Z -> F) :
    reshape_full [List.length ts] (map isSome ts) (map f (somes ts)) =
    Ok (ND [List.length ts] (map (time_val f) ts)).
  Proof.
    unfold reshape_full. rewrite map_length, somes_length. cbn [tl size fold_right].
    rewrite Nat.mul_1_r, Nat.eqb_refl. cbn [guard rbind]. f_equal. f_equal.
    rewrite <- (flat_map_single f (somes ts)).
    rewrite (scatter_rows fnan 1 (fun x => [f x])) by reflexivity.
    rewrite <- (flat_map_single (time_val f) ts). apply flat_map_ext. intros [z|]; reflexivity.
  Qed.

  Lemma reshape_rows ts row sh (g : Z -> list F) :
    (forall z, List.length (g z) = row) -> tl sh = row :: nil \/ size (tl sh) = row ->
    reshape_full sh (map isSome ts) (flat_map g (somes ts)) =
    Ok (ND sh (flat_map (fun t => match t with Some z => g z | None => repeat fnan row end) ts)).
  Proof.
    intros Hg Hs. assert (Hs' : size (tl sh) = row).
    { destruct Hs as [->|Hs]; [|exact Hs]. cbn. lia. }
    unfold reshape_full. rewrite Hs'.
    rewrite (flat_map_const_length g row) by (intros; apply Hg).
    rewrite somes_length, Nat.eqb_refl. cbn [guard rbind]. f_equal. f_equal.
    now apply scatter_rows.
  Qed.

  Lemma nonat_eq (ts : list (option Z)) :
    map (fun t : option Z => match t with Some _ => true | None => false end) ts = map isSome ts.
  Proof. reflexivity. Qed.
  Lemma somes_eq (ts : list (option Z)) :
    flat_map (fun t : option Z => match t with Some z => [z] | None => [] end) ts = somes ts.
  Proof. reflexivity. Qed.

  (** The core computation after validation. *)
  Lemma sunpos_reshape m nd refr (ts : list (option Z)) (lats lons : list F) :
    nd <= 2 ->
    (nd = 0 -> List.length ts = List.length lons /\ List.length lons = List.length lats) ->
    (nd = 1 -> List.length lons = List.length lats) ->
    (let nonat := map isSome ts in
     let lats_nonat := if (nd =? 0) then select nonat lats else lats in
     let lons_nonat := if (nd =? 0) then select nonat lons else lons in
     let n_times := List.length ts in
     let sh := out_shape nd n_times (List.length lats) (List.length lons) in
     do r <- sunpos m (somes ts) lons_nonat lats_nonat nd refr;
     do ecf <- reshape_full [n_times] nonat (r_ecf r);
     do eot <- reshape_full [n_times] nonat (r_eot r);
     do dec <- reshape_full [n_times] nonat (r_dec r);
     do zen <- reshape_full sh nonat (r_zenith r);
     do azi <- reshape_full sh nonat (r_azimuth r);
     Ok {| s_latitude := lats; s_longitude := lons;
           s_ecf := ecf; s_eot := eot; s_declination := dec;
           s_zenith := zen; s_azimuth := azi |}) = Ok (eval_ok m refr nd ts lats lons).
  Proof.
    intros Hnd H0 H1. cbv zeta.
    destruct nd as [|[|[|nd]]]; [| | |lia].
    - destruct (H0 eq_refl) as [Ht Hl]. cbn [Nat.eqb sunpos].
      rewrite !select_length by lia. rewrite Nat.eqb_refl. cbn [andb guard rbind r_ecf r_eot r_dec r_zenith r_azimuth].
      rewrite !map_map, !reshape_time. cbn [rbind].
      assert (Hz : forall pr : F * F -> F,
        reshape_full (out_shape 0 (List.length ts) (List.length lats) (List.length lons)) (map isSome ts)
         (map pr (map (fun '(t, (lon, lat)) => lib_1d m refr t lon lat)
            (combine (map (lib_time m) (somes ts))
               (combine (map (lib_cast m) (select (map isSome ts) lons))
                  (map (lib_cast m) (select (map isSome ts) lats)))))) =
        Ok (ND (out_shape 0 (List.length ts) (List.length lats) (List.length lons))
               (out_data m refr pr 0 ts lats lons))).
      { intros pr. unfold reshape_full.
        rewrite !map_length, !combine_length, !map_length, !select_length by lia.
        rewrite !Nat.min_id, somes_length. cbn [out_shape tl size fold_right].
        rewrite Nat.mul_1_r, Nat.eqb_refl. cbn [guard rbind]. f_equal. f_equal.
        cbn [out_data].
        rewrite combine3_map, !map_map.
        rewrite <- select_combine by lia.
        etransitivity; [|etransitivity; [apply (scatter_transect fnan
          (fun z ll => pr (lib_1d m refr (lib_time m z) (lib_cast m (fst ll)) (lib_cast m (snd ll))))
          ts (combine lons lats)); rewrite combine_length; lia|]].
        - f_equal. apply map_ext. intros [z [lo la]]. reflexivity.
        - apply map_ext. intros [[z|] ll]; reflexivity. }
      setoid_rewrite map_map in Hz.
      rewrite (Hz fst). cbn [rbind]. rewrite (Hz snd). reflexivity.
    - specialize (H1 eq_refl). cbn [Nat.eqb sunpos].
      rewrite (proj2 (Nat.eqb_eq (List.length lons) (List.length lats)) H1).
      cbn [guard rbind r_ecf r_eot r_dec r_zenith r_azimuth].
      rewrite !map_map, !reshape_time. cbn [rbind].
      assert (Hz : forall pr : F * F -> F,
        reshape_full (out_shape 1 (List.length ts) (List.length lats) (List.length lons)) (map isSome ts)
         (map pr (outer2 (fun t '(lon, lat) => lib_2d m refr t lon lat) (map (lib_time m) (somes ts))
                   (combine (map (lib_cast m) lons) (map (lib_cast m) lats)))) =
        Ok (ND (out_shape 1 (List.length ts) (List.length lats) (List.length lons))
               (out_data m refr pr 1 ts lats lons))).
      { intros pr. unfold outer2. rewrite flat_map_map.
        etransitivity; [|apply (reshape_rows ts (List.length lats)
          (out_shape 1 (List.length ts) (List.length lats) (List.length lons))
          (fun z => map (fun '(lon, lat) => pr (lib_2d m refr (lib_time m z) (lib_cast m lon) (lib_cast m lat)))
                    (combine lons lats)))].
        - f_equal. rewrite flat_map_concat_map, concat_map, map_map, <- flat_map_concat_map.
          apply flat_map_ext. intros z. rewrite combine_map_l, combine_map_r, !map_map.
          apply map_ext. intros [lo la]. reflexivity.
        - intros z. rewrite map_length, combine_length. lia.
        - left. reflexivity. }
      rewrite (Hz fst). cbn [rbind]. rewrite (Hz snd). reflexivity.
    - cbn [Nat.eqb sunpos]. cbn [guard rbind r_ecf r_eot r_dec r_zenith r_azimuth].
      rewrite !map_map, !reshape_time. cbn [rbind].
      assert (Hz : forall pr : F * F -> F,
        reshape_full (out_shape 2 (List.length ts) (List.length lats) (List.length lons)) (map isSome ts)
         (map pr (outer3 (fun t lat lon => lib_3d m refr t lon lat) (map (lib_time m) (somes ts))
                   (map (lib_cast m) lats) (map (lib_cast m) lons))) =
        Ok (ND (out_shape 2 (List.length ts) (List.length lats) (List.length lons))
               (out_data m refr pr 2 ts lats lons))).
      { intros pr. unfold outer3. rewrite flat_map_map.
        etransitivity; [|apply (reshape_rows ts (List.length lats * List.length lons)
          (out_shape 2 (List.length ts) (List.length lats) (List.length lons))
          (fun z => outer2 (fun lat lon => pr (lib_3d m refr (lib_time m z) (lib_cast m lon) (lib_cast m lat)))
                       lats lons))].
        - f_equal. rewrite flat_map_concat_map, concat_map, map_map, <- flat_map_concat_map.
          apply flat_map_ext. intros z. rewrite flat_map_map. unfold outer2.
          rewrite flat_map_concat_map, concat_map, map_map, <- flat_map_concat_map.
          apply flat_map_ext. intros la. rewrite !map_map. reflexivity.
        - intros z. unfold outer2. apply flat_map_const_length. intros; apply map_length.
        - right. cbn. lia. }
      rewrite (Hz fst). cbn [rbind]. rewrite (Hz snd). reflexivity.
  Qed.

  (** [evaluate], fully described. *)
  Lemma evaluate_eq times lat lon alg nd refr eng :
    nd <= 2 ->
    evaluate ne times lat lon alg nd refr eng =
    match module_of alg eng with
    | None => Raise ValueError
    | Some om =>
        do '(ts, lats, lons) <- check_timelatlon times lat lon nd;
        match om with
        | None => Raise AttributeError
        | Some m => Ok (eval_ok m (is_True refr) nd ts lats lons)
        end
    end.
  Proof.
    intros Hnd. unfold evaluate, module_of. destruct (module_table ne alg) as [e|]; [|reflexivity].
    destruct (e eng) as [om|]; [|reflexivity].
    assert (Hc : check_ndim nd = Ok nd).
    { unfold check_ndim. destruct nd as [|[|[|nd]]]; try reflexivity. lia. }
    rewrite Hc. cbn [rbind].
    destruct (check_timelatlon times lat lon nd) as [[[ts lats] lons]|x] eqn:E; [|reflexivity].
    cbn [rbind]. destruct om as [m|]; [|reflexivity].
    rewrite nonat_eq, somes_eq. apply (sunpos_reshape m nd (is_True refr) ts lats lons Hnd).
    - intros ->. unfold check_timelatlon in E. destruct (to_utc times); [|discriminate]. cbn [rbind] in E.
      repeat match type of E with
        (do _ <- guard ?b ?x; _) = _ => destruct b eqn:?; cbn [guard rbind] in E; [|discriminate] end.
      inversion E; subst; clear E.
      match goal with H : negb ((0 =? 0) && negb ?c) = true |- _ => cbn [Nat.eqb andb] in H; rewrite negb_involutive in H;
        apply andb_prop in H; destruct H as [Ha Hb]; apply Nat.eqb_eq in Ha, Hb end. split; assumption.
    - intros ->. unfold check_timelatlon in E. destruct (to_utc times); [|discriminate]. cbn [rbind] in E.
      repeat match type of E with
        (do _ <- guard ?b ?x; _) = _ => destruct b eqn:?; cbn [guard rbind] in E; [|discriminate] end.
      inversion E; subst; clear E.
      match goal with H : negb ((1 =? 1) && negb ?c) = true |- _ => cbn [Nat.eqb andb] in H; rewrite negb_involutive in H;
        apply Nat.eqb_eq in H; exact H end.
  Qed.
End Pipeline.
