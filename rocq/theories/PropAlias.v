(** * PropAlias: does a result change when the user writes into arrays in place (C102), for any arithmetic *)
From Coq Require Import ZArith QArith Reals List Bool Arith String Lia.
From Verif Require Import Num Arrays Libspa Time Core Usecases Spec Sunpos Alias ArraysLemmas UsecaseLemmas SunposLemmas Ext ExactLaws AstroSpec Witness.
Import ListNotations.
Open Scope nat_scope.
Open Scope string_scope.
Open Scope list_scope.

(** ** Specification *)
(** The accessors asked in a history, in order. *)
Fixpoint asked {F} (h : list (event F)) : list (accessor F) :=
  match h with [] => [] | Ask q :: h => q :: asked h | _ :: h => asked h end.
(** The four accessors whose arrays are written to in the refutation. *)
Definition bare {F} (q : accessor F) : Prop := match q with ALatitude | ALongitude | AEcf | AEot => True | _ => False end.
(** No write of the history goes into an array returned by one of those four ([before]: the accessors asked so far). *)
Fixpoint writes_elsewhere {F} (before : list (accessor F)) (h : list (event F)) : Prop :=
  match h with
  | [] => True
  | Ask q :: h => writes_elsewhere (before ++ [q]) h
  | WriteInput _ _ _ :: h => writes_elsewhere before h
  | WriteAnswer a _ _ :: h => (forall q, nth_error before a = Some q -> ~ bare q) /\ writes_elsewhere before h
  end.
(** The same result but for element [n] of one of the four arrays. *)
Definition nd_write {F} (a : ndarray F) (n : nat) (v : F) : ndarray F := ND (shape a) (replace (data a) n v).
Definition tampered {F} (sp : Sunpos F) (q : accessor F) (n : nat) (v : F) : Sunpos F :=
  {| sp_usecase := sp_usecase sp; sp_timezone := sp_timezone sp; sp_times := sp_times sp; sp_times_utc := sp_times_utc sp;
     sp_latitude := match q with ALatitude => replace (sp_latitude sp) n v | _ => sp_latitude sp end;
     sp_longitude := match q with ALongitude => replace (sp_longitude sp) n v | _ => sp_longitude sp end;
     sp_algorithm := sp_algorithm sp; sp_engine := sp_engine sp; sp_refraction := sp_refraction sp;
     sp_ecf := match q with AEcf => nd_write (sp_ecf sp) n v | _ => sp_ecf sp end;
     sp_eot := match q with AEot => nd_write (sp_eot sp) n v | _ => sp_eot sp end;
     sp_declination := sp_declination sp; sp_zenith := sp_zenith sp; sp_azimuth := sp_azimuth sp |}.

(** ** Proofs *)
Section Proofs.
  Context {F : Type} {O : Ops F}.
  Variable nf : F.
  Variables (lat lon : list F) (sp : Sunpos F).
  Hypothesis (Hla : sp_latitude sp = lat) (Hlo : sp_longitude sp = lon).

  Local Definition m0 := fst (construct lat lon sp).
  Local Definition c := snd (construct lat lon sp).

  Lemma constructed : construct lat lon sp = (m0, c).
  Proof. unfold m0, c. now destruct (construct lat lon sp). Qed.
  (** The container reads as constructed; its buffers are allocated. *)
  Definition intact (m : memory) : Prop := 16 <= next m /\ (forall b, 9 <= b < 16 -> buffer m b = buffer m0 b).
  Lemma current0 : current m0 c sp = sp.
  Proof. unfold m0, c, current, reload. rewrite <- Hla, <- Hlo. destruct sp as [? ? ? ? ? ? ? ? ? [] [] [] [] []]. reflexivity. Qed.
  Lemma intact0 : intact m0.
  Proof. split; [exact (le_n 16)|reflexivity]. Qed.
  Lemma current_intact m : intact m -> current m c sp = sp.
  Proof.
    intros [_ H]. transitivity (current m0 c sp); [|exact current0].
    assert (H9 := H 9 ltac:(lia)). assert (H10 := H 10 ltac:(lia)). assert (H11 := H 11 ltac:(lia)). assert (H12 := H 12 ltac:(lia)).
    assert (H13 := H 13 ltac:(lia)). assert (H14 := H 14 ltac:(lia)). assert (H15 := H 15 ltac:(lia)). clear H.
    unfold current. change (b_latitude c) with 9. change (b_longitude c) with 10. change (b_ecf c) with 11. change (b_eot c) with 12.
    change (b_declination c) with 13. change (b_zenith c) with 14. change (b_azimuth c) with 15. now rewrite H9, H10, H11, H12, H13, H14, H15.
  Qed.
  Lemma intact_write m b n v : intact m -> ~ 9 <= b < 16 -> intact (write m b n v).
  Proof.
    intros [A B] H. split; [exact A|]. intros x Hx. cbn [write alloc buffer fst snd]. unfold set. destruct (Nat.eqb_spec x b) as [->|_]; [contradiction|]. now apply B.
  Qed.
  Lemma intact_alloc m l : intact m -> intact (fst (alloc m l)).
  Proof.
    intros [A B]. split; [cbn [alloc fst next]; lia|]. intros x Hx. cbn [write alloc buffer fst snd]. unfold set. destruct (Nat.eqb_spec x (next m)) as [->|_]; [lia|]. now apply B.
  Qed.
  Lemma alloc_fresh m l : intact m -> 16 <= snd (alloc m l).
  Proof. intros [A _]. exact A. Qed.

  (** The arrays answered so far: those of the bare accessors, or fresh ones. *)
  Definition honest (before : list (accessor F)) (l : list (nat * res (angle_or_time F))) : Prop :=
    List.length l = List.length before /\
    forall i q b r, nth_error before i = Some q -> nth_error l i = Some (b, r) -> r = answer nf sp q /\ (bare q \/ 16 <= b).
  Lemma run_ok h : forall before s, writes_elsewhere before h -> intact (mem s) -> honest before (answers s) ->
    let s' := fold_left (step nf c sp) h s in intact (mem s') /\ honest (before ++ asked h) (answers s').
  Proof.
    induction h as [|e h IH]; intros before s W HI HH; cbn [fold_left asked writes_elsewhere] in *.
    - rewrite app_nil_r. now split.
    - destruct e as [q|lo n v|a n v].
      + replace (before ++ q :: asked h) with ((before ++ [q]) ++ asked h) by now rewrite <- app_assoc.
        assert (K : forall m b, intact m -> bare q \/ 16 <= b -> honest (before ++ [q]) (answers s ++ [(b, answer nf (current (mem s) c sp) q)])).
        { intros m b _ Hb. destruct HH as [HL HH]. split; [rewrite !app_length; cbn; lia|]. intros i q' b' r Hq Hr. destruct (Nat.lt_ge_cases i (List.length before)) as [L|L].
          - rewrite nth_error_app1 in Hq by lia. rewrite nth_error_app1 in Hr by lia. now apply (HH i).
          - rewrite nth_error_app2 in Hq by lia. rewrite nth_error_app2 in Hr by lia. rewrite HL in Hr. destruct (i - List.length before) as [|[|]]; try discriminate.
            injection Hq as <-. injection Hr as <- <-. now rewrite current_intact. }
        apply IH; [exact W| |]; cbn [step].
        * destruct (returned c q); [exact HI|]. exact (intact_alloc _ [] HI).
        * destruct (returned c q) as [b|] eqn:R; [apply (K (mem s))|apply (K (mem s)); [|right; exact (proj1 HI)]]; try exact HI.
          left. destruct q; first [exact Logic.I|discriminate R].
      + apply IH; [exact W| |exact HH]. apply intact_write; [exact HI|]. destruct lo; lia.
      + destruct W as [Wa W]. cbn [step]. destruct (nth_error (answers s) a) as [[b r]|] eqn:E; [|now apply IH].
        apply IH; [exact W| |exact HH]. apply intact_write; [exact HI|]. destruct HH as [HL HH].
        destruct (nth_error before a) as [q|] eqn:Eq; [|exfalso; apply nth_error_None in Eq; assert (nth_error (answers s) a <> None) by congruence; apply nth_error_Some in H; lia].
        destruct (HH a q b r Eq E) as [_ [B|B]]; [exfalso; exact (Wa q eq_refl B)|lia].
  Qed.
  Lemma honest_answers before l : honest before l -> map snd l = map (answer nf sp) before.
  Proof.
    revert l. induction before as [|q before IH]; intros l [HL HH].
    - destruct l; [reflexivity|discriminate].
    - destruct l as [|[b r] l]; [discriminate|]. cbn. f_equal.
      + apply (HH 0 q b r eq_refl eq_refl).
      + apply IH. split; [now injection HL|]. intros i q' b' r' A B. exact (HH (S i) q' b' r' A B).
  Qed.
  Lemma unaffected h : writes_elsewhere [] h -> map snd (answers (run nf lat lon sp h)) = map (answer nf sp) (asked h).
  Proof.
    intros W. apply honest_answers. unfold run. rewrite constructed.
    apply (run_ok h [] {| mem := m0; answers := [] |} W intact0). split; [reflexivity|]. intros [|i]; discriminate.
  Qed.
  Lemma shared q q' n v : bare q -> map snd (answers (run nf lat lon sp [Ask q; WriteAnswer 0 n v; Ask q'])) = [answer nf sp q; answer nf (tampered sp q n v) q'].
  Proof.
    intros B. unfold run. rewrite constructed.
    assert (R : exists b, returned c q = Some b) by (destruct q; try (exfalso; exact B); eexists; reflexivity). destruct R as [b R].
    cbn [fold_left step answers mem app nth_error]. rewrite R. cbn [answers mem app nth_error]. rewrite current0.
    assert (T : current (write m0 b n v) c sp = tampered sp q n v).
    { assert (B9 : buffer m0 9 = lat) by reflexivity. assert (B10 : buffer m0 10 = lon) by reflexivity. assert (B11 : buffer m0 11 = data (sp_ecf sp)) by reflexivity.
      assert (B12 : buffer m0 12 = data (sp_eot sp)) by reflexivity. assert (B13 : buffer m0 13 = data (sp_declination sp)) by reflexivity.
      assert (B14 : buffer m0 14 = data (sp_zenith sp)) by reflexivity. assert (B15 : buffer m0 15 = data (sp_azimuth sp)) by reflexivity.
      assert (R' : b = match q with ALatitude => 9 | ALongitude => 10 | AEcf => 11 | _ => 12 end).
      { assert (R1 : returned c q = Some match q with ALatitude => 9 | ALongitude => 10 | AEcf => 11 | _ => 12 end) by (destruct q; first [exfalso; exact B|reflexivity]).
        rewrite R1 in R. clear - R. revert R. generalize (match q with ALatitude => 9 | ALongitude => 10 | AEcf => 11 | _ => 12 end). intros k R. now injection R as <-. }
      clear R. unfold current, tampered, reload, nd_write. change (b_latitude c) with 9. change (b_longitude c) with 10. change (b_ecf c) with 11. change (b_eot c) with 12.
      change (b_declination c) with 13. change (b_zenith c) with 14. change (b_azimuth c) with 15. rewrite Hla, Hlo, <- B9, <- B10, <- B11, <- B12.
      assert (Z13 : ND (shape (sp_declination sp)) (buffer m0 13) = sp_declination sp) by (rewrite B13; now destruct (sp_declination sp)).
      assert (Z14 : ND (shape (sp_zenith sp)) (buffer m0 14) = sp_zenith sp) by (rewrite B14; now destruct (sp_zenith sp)).
      assert (Z15 : ND (shape (sp_azimuth sp)) (buffer m0 15) = sp_azimuth sp) by (rewrite B15; now destruct (sp_azimuth sp)).
      assert (Z11 : ND (shape (sp_ecf sp)) (buffer m0 11) = sp_ecf sp) by (rewrite B11; now destruct (sp_ecf sp)).
      assert (Z12 : ND (shape (sp_eot sp)) (buffer m0 12) = sp_eot sp) by (rewrite B12; now destruct (sp_eot sp)).
      clear B9 B10 B11 B12 B13 B14 B15. generalize dependent m0. intros m Z13 Z14 Z15 Z11 Z12.
      destruct q; try (exfalso; exact B); subst b; cbn [write buffer]; unfold set; cbn [Nat.eqb]; rewrite ?Z11, ?Z12, ?Z13, ?Z14, ?Z15; reflexivity. }
    destruct (returned c q'); cbn [answers map snd]; now rewrite T.
  Qed.
End Proofs.

(** ** C102: results under in-place writes.  Whatever a user asks of a result and writes - into the arrays given as latitude and longitude,
    into the arrays of earlier answers - every answer is that of the untouched result, provided no write goes into an array answered by
    latitude, longitude, ecf or eot.  Missing for the full property: that proviso, without which it is false (C102_shared, C102_refuted). *)
Theorem C102_unaffected_partial {F} {O : Ops F} nf ne uc times lat lon alg refr eng (sp : Sunpos F) (h : list (event F)) :
  call ne uc times lat lon alg refr eng = Ok sp -> writes_elsewhere [] h ->
  map snd (answers (run nf (elems lat) (elems lon) sp h)) = map (answer nf sp) (asked h).
Proof. intros H. destruct (call_fields ne uc _ _ _ _ _ _ _ H) as (_ & A & B & _). now apply unaffected. Qed.
(** A write into the array answered by one of those four changes the result itself: every accessor asked afterwards answers for the changed result. *)
Theorem C102_shared {F} {O : Ops F} nf ne uc times lat lon alg refr eng (sp : Sunpos F) (q q' : accessor F) n v :
  call ne uc times lat lon alg refr eng = Ok sp -> bare q ->
  map snd (answers (run nf (elems lat) (elems lon) sp [Ask q; WriteAnswer 0 n v; Ask q'])) = [answer nf sp q; answer nf (tampered sp q n v) q'].
Proof. intros H. destruct (call_fields ne uc _ _ _ _ _ _ _ H) as (_ & A & B & _). now apply shared. Qed.
(** Without the proviso: setting the first latitude of a result's [latitude] to 41 makes [latitude] answer 41 ever after. *)
Theorem C102_refuted : ~ (forall (sp : Sunpos ext) lat lon alg refr eng times (h : list (event ext)),
  call (O := ExtOps ideal_env) true Sites times lat lon alg refr eng = Ok sp ->
  map snd (answers (run (O := ExtOps ideal_env) PInf (elems lat) (elems lon) sp h)) = map (answer (O := ExtOps ideal_env) PInf sp) (asked h)).
Proof.
  intros H. destruct (w_call Sites "psa" "numpy" (py_psa (O := ExtOps ideal_env)) RTrue ltac:(cbn; tauto)) as [sp Hc].
  specialize (H sp _ _ _ _ _ _ [Ask ALatitude; WriteAnswer 0 0 (Fin (Rdefinitions.IZR 41)); Ask ALatitude] Hc).
  rewrite (C102_shared (O := ExtOps ideal_env) PInf true Sites _ _ _ _ _ _ sp ALatitude ALatitude 0 (Fin (Rdefinitions.IZR 41)) Hc Logic.I) in H. cbn [asked map] in H. injection H as H.
  destruct (call_fields true Sites _ _ _ _ _ _ _ Hc) as (U & A & _).
  assert (K := f_equal (fun f => f (fun _ => 0)) H). cbn in K. rewrite A in K. cbn in K. injection K as K. apply RIneq.eq_IZR in K. discriminate.
Qed.
(** The hypotheses are met: a result, and a history that writes into the given arrays and into the answers of zenith and of air mass. *)
Example C102_example : exists sp : Sunpos ext,
  call (O := ExtOps ideal_env) true Transect (at_times w_times) w_lat w_lon "soltrack" RTrue "numpy" = Ok sp /\
  writes_elsewhere [] [Ask AZenith; WriteInput false 0 NaN; WriteAnswer 0 1 PInf; Ask AEcf; Ask (AAirmass "kasten_1965"); WriteAnswer 2 0 NaN; WriteInput true 2 NaN; Ask AZenith] /\
  bare (AEcf (F := ext)).
Proof.
  destruct (w_call Transect "soltrack" "numpy" (py_soltrack (O := ExtOps ideal_env)) RTrue ltac:(cbn; tauto)) as [sp Hc]. exists sp. split; [exact Hc|]. split; [|exact Logic.I].
  cbn. repeat split; intros q E; injection E as <-; intros [].
Qed.
