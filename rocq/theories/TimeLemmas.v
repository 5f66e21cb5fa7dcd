(** * TimeLemmas: what the container keeps as [times_utc] *)

From Coq Require Import ZArith QArith List Bool Arith String Lia Sorting.Sorted.
From Verif Require Import Num Arrays ArraysLemmas Libspa Time Core Usecases Spec
     PipelineLemmas UsecaseLemmas GenericLemmas GenericLemmas2.
Import ListNotations.
Open Scope Z_scope.
Open Scope list_scope.


Lemma In_insert_sorted x y l : In x (insert_sorted y l) <-> x = y \/ In x l.
Proof.
  induction l as [|a l IH]; cbn; [intuition|].
  destruct (Z.ltb_spec y a); [cbn; intuition|].
  destruct (Z.eqb_spec y a); [subst; cbn; intuition|]. cbn. rewrite IH. intuition.
Qed.

Lemma sorted_insert y l : StronglySorted Z.lt l -> StronglySorted Z.lt (insert_sorted y l).
Proof.
  induction l as [|a l IH]; cbn; intros H; [repeat constructor|].
  inversion H as [|a' l' Hs Hf]; subst.
  destruct (Z.ltb_spec y a).
  - constructor; [assumption|]. constructor; [lia|]. eapply Forall_impl; [|exact Hf]. cbn; lia.
  - destruct (Z.eqb_spec y a); [assumption|]. constructor; [auto|].
    rewrite Forall_forall in *. intros x Hx. apply In_insert_sorted in Hx. destruct Hx as [->|Hx]; [lia|auto].
Qed.

Lemma candidates_sorted z w : StronglySorted Z.lt (candidates z w).
Proof.
  unfold candidates. induction (filter _ _) as [|x l IH]; cbn; [constructor|]. now apply sorted_insert.
Qed.

Lemma In_candidates z w u : zone_wf z -> (In u (candidates z w) <-> reading z u = w).
Proof.
  intros Hwf. unfold candidates, reading.
  assert (H : forall l, In u (fold_right insert_sorted [] l) <-> In u l).
  { induction l as [|x l IH]; cbn; [tauto|]. rewrite In_insert_sorted, IH. intuition. }
  rewrite H, filter_In, in_map_iff. split.
  - intros [_ He]. apply Z.eqb_eq in He. lia.
  - intros He. split.
    + exists (z_offset z u). split; [lia|apply Hwf].
    + apply Z.eqb_eq. lia.
Qed.

Lemma candidates_one z w u : zone_wf z -> unambiguous z w -> reading z u = w -> candidates z w = [u].
Proof.
  intros Hwf Hu Hr. assert (Hin : In u (candidates z w)) by now apply In_candidates.
  assert (Hs := candidates_sorted z w).
  destruct (candidates z w) as [|a l] eqn:E; [destruct Hin|].
  assert (Ha : a = u). { apply (Hu a u); [|exact Hr]. apply In_candidates; [exact Hwf|]. rewrite E. now left. }
  subst a. destruct l as [|b l]; [reflexivity|].
  assert (Hb : b = u). { apply (Hu b u); [|exact Hr]. apply In_candidates; [exact Hwf|]. rewrite E. right; now left. }
  inversion Hs as [|x y Hs' Hf]; subst. inversion Hf; lia.
Qed.

Lemma candidates_many z w : zone_wf z -> ambiguous z w -> exists a b, a < b /\ classify z (Some w) = LTwo a b
   /\ reading z a = w /\ reading z b = w.
Proof.
  intros Hwf (u1 & u2 & Hne & H1 & H2).
  apply In_candidates in H1; [|exact Hwf]. apply In_candidates in H2; [|exact Hwf].
  assert (Hs := candidates_sorted z w). cbn [classify].
  destruct (candidates z w) as [|a [|b l]] eqn:E; cbn in H1, H2; [tauto|intuition congruence|].
  exists a, (last (b :: l) a). split; [|split; [reflexivity|]].
  - assert (Hl : In (last (b :: l) a) (b :: l)).
    { clear. generalize b. induction l as [|x l IH]; intros b0; [now left|]. right. apply (IH x). }
    inversion Hs as [|x y Hs' Hf]; subst. rewrite Forall_forall in Hf. now apply Hf.
  - split; apply In_candidates; try exact Hwf; rewrite E; [now left|].
    right. clear. generalize b. induction l as [|x l IH]; intros b0; [now left|]. right. apply (IH x).
Qed.

(** A named zone with unambiguous readings. *)
Lemma localize_unambiguous z l :
  zone_wf z ->
  (forall w o, In (Some (w, o)) l -> z_offset z (w - o) = o /\ unambiguous z w) ->
  tz_localize z (map (option_map fst) l) = Ok (map (fun x => match x with Some (w, o) => Some (w - o) | None => None end) l).
Proof.
  intros Hwf H. unfold tz_localize. rewrite !map_length.
  induction l as [|[[w o]|] l IH]; cbn [map List.length localize_classes option_map fst]; [reflexivity| |].
  - destruct (H w o (or_introl eq_refl)) as [Ho Hu]. cbn [classify].
    rewrite (candidates_one z w (w - o) Hwf Hu) by (unfold reading; lia).
    rewrite IH by (intros; apply H; now right). reflexivity.
  - cbn [classify]. rewrite IH by (intros; apply H; now right). reflexivity.
Qed.

Lemma localize_ambiguous_single z w :
  zone_wf z -> ambiguous z w -> tz_localize z [Some w] = Raise AmbiguousTimeError.
Proof.
  intros Hwf H. destruct (candidates_many z w Hwf H) as (a & b & Hab & Hc & _).
  unfold tz_localize. cbn [map List.length]. rewrite Hc. reflexivity.
Qed.

Section TimeLemmas.
  Context {F : Type} {O : Ops F}.
  Variable ne : bool.


  Lemma ctor_faithful t : faithful_times t -> exists tz ws, ctor_times t = Ok (tz, ws, instants t).
  Proof.
    destruct t as [s l|s [nm z|o|z] l|n]; cbn [faithful_times]; try tauto; intros H.
    - exists "UTC"%string, l. apply ctor_times_naive.
    - destruct H as [Hwf H]. do 2 eexists. unfold ctor_times. cbn [walls rbind].
      rewrite (localize_unambiguous z l Hwf H). cbn [rbind instants]. reflexivity.
    - do 2 eexists. unfold ctor_times. cbn [walls rbind]. rewrite tz_localize_utc. cbn [rbind instants].
      f_equal. f_equal. apply map_ext_in. intros [[w o]|] Hin; cbn; [|reflexivity].
      rewrite (H w o Hin). now rewrite Z.sub_0_r.
  Qed.

  Lemma times_utc_faithful uc t lat lon alg refr eng sp :
    faithful_times t -> call (F:=F) ne uc t lat lon alg refr eng = Ok sp -> sp_times_utc sp = instants t.
  Proof.
    intros Hf H. destruct (call_Ok_inv ne _ _ _ _ _ _ _ _ H) as (m & tz & ws & us & [] & ->).
    destruct (ctor_faithful t Hf) as (tz' & ws' & E). cbn [mk_sp sp_times_utc]. congruence.
  Qed.

  (** A naive call with the same instants succeeds iff everything but the constructor's time
      handling is fine. *)
  Lemma call_aware_ctor uc t lat lon alg refr eng sp :
    call (F:=F) ne uc (at_times (instants t)) lat lon alg refr eng = Ok sp ->
    (forall n, t <> TMulti n) ->
    (forall e, ctor_times t = Raise e -> call ne uc t lat lon alg refr eng = Raise e) /\
    (forall tz ws us, ctor_times t = Ok (tz, ws, us) ->
       exists sp', call ne uc t lat lon alg refr eng = Ok sp' /\ same_outputs sp sp' /\
         sp_times_utc sp' = us /\ sp_timezone sp' = tz /\ sp_times sp' = ws).
  Proof.
    intros H Hm. destruct (call_Ok_inv ne _ _ _ _ _ _ _ _ H) as (m & tz & ws & us & [] & ->).
    assert (Hu : to_utc t = Ok (instants t)).
    { destruct (to_utc_instants t) as [[n Hn]|Hu]; [now elim (Hm n)|exact Hu]. }
    split.
    - intros e He. rewrite call_eq, Hu, acc_mod, acc_lonok, acc_latok, He, acc_lat, acc_lon.
      cbn [at_times instants] in acc_shape.
      destruct uc; cbn [shape_cond] in acc_shape; cbn [Nat.eqb andb].
      + now rewrite acc_shape, Nat.eqb_refl.
      + reflexivity.
      + destruct acc_shape as [Ha Hb]. rewrite <- Hb, <- Ha, !Nat.eqb_refl. reflexivity.
    - intros tz' ws' us' He.
      assert (Hacc : accepts ne uc t lat lon alg eng m tz' ws' us') by (constructor; assumption).
      eexists. split; [eapply call_Ok_intro; exact Hacc|].
      cbn [mk_sp sp_times_utc sp_timezone sp_times]. repeat split.
  Qed.

  (** zoneinfo and datetime.timezone objects (no [zone] attribute): the wall clock is kept as UTC. *)
  Lemma no_zone_attr uc s z l lat lon alg refr eng sp :
    call (F:=F) ne uc (TAware s (NoZoneAttr z) l) lat lon alg refr eng = Ok sp ->
    sp_timezone sp = "UTC"%string /\
    sp_times_utc sp = map (fun x => match x with Some (w, o) => Some w | None => None end) l.
  Proof.
    intros H. destruct (call_Ok_inv ne _ _ _ _ _ _ _ _ H) as (m & tz & ws & us & [] & ->).
    unfold ctor_times in acc_ctor. cbn [walls rbind] in acc_ctor. rewrite tz_localize_utc in acc_ctor.
    cbn [rbind] in acc_ctor. injection acc_ctor as <- <- <-. split; [reflexivity|].
    cbn. apply map_ext. intros [[w o]|]; reflexivity.
  Qed.

  Lemma no_zone_attr_wrong uc s z l lat lon alg refr eng sp w o k :
    call (F:=F) ne uc (TAware s (NoZoneAttr z) l) lat lon alg refr eng = Ok sp ->
    nth_error l k = Some (Some (w, o)) -> o <> 0 ->
    nth_error (instants (TAware s (NoZoneAttr z) l)) k = Some (Some (w - o)) /\
    nth_error (sp_times_utc sp) k = Some (Some w) /\ w <> w - o.
  Proof.
    intros H Hk Ho. apply no_zone_attr in H. destruct H as [_ ->]. cbn [instants].
    rewrite !nth_error_map, Hk. cbn. repeat split; lia.
  Qed.

  Lemma pytz_fixed_fails uc s o l lat lon alg refr eng sp :
    call (F:=F) ne uc (at_times (instants (TAware s (PytzFixed o) l))) lat lon alg refr eng = Ok sp ->
    call ne uc (TAware s (PytzFixed o) l) lat lon alg refr eng = Raise TypeError.
  Proof.
    intros H. apply call_aware_ctor in H; [|discriminate]. destruct H as [H _]. now apply H.
  Qed.

  Lemma single_ambiguous_fails uc s nm z w o lat lon alg refr eng sp :
    zone_wf z -> ambiguous z w ->
    call (F:=F) ne uc (at_time (Some (w - o))) lat lon alg refr eng = Ok sp ->
    call ne uc (TAware s (PytzNamed nm z) [Some (w, o)]) lat lon alg refr eng = Raise AmbiguousTimeError.
  Proof.
    intros Hwf Ha H.
    destruct (call_aware_ctor uc (TAware s (PytzNamed nm z) [Some (w, o)]) lat lon alg refr eng sp) as [H1 _].
    - cbn [instants map]. unfold at_time in H. rewrite call_eq in H |- *. exact H.
    - discriminate.
    - apply H1. unfold ctor_times. cbn [walls rbind map option_map fst].
      now rewrite (localize_ambiguous_single z w Hwf Ha).
  Qed.
End TimeLemmas.

(** A concrete named zone: Europe/Berlin in 2024 (UTC+1; UTC+2 from 2024-03-31T01:00Z to
    2024-10-27T01:00Z), in nanoseconds. *)
Definition H1 : Z := 3600 * NS_PER_S.
Definition berlin2024 : zone :=
  {| z_offset u := if (1711846800 * NS_PER_S <=? u) && (u <? 1729990800 * NS_PER_S) then 2 * H1 else H1;
     z_offsets := [H1; 2 * H1] |}.
Lemma berlin_wf : zone_wf berlin2024.
Proof. intros u. cbn -[Z.mul]. destruct (_ && _); [right; now left|now left]. Qed.
(** 2024-10-27T02:30 local is shown at 00:30Z and 01:30Z. *)
Lemma berlin_ambiguous : ambiguous berlin2024 ((1729990800 - 1800) * NS_PER_S + 2 * H1).
Proof.
  exists ((1729990800 - 1800) * NS_PER_S), ((1729990800 + 1800) * NS_PER_S). repeat split; cbv; congruence.
Qed.
(** Noon on 2024-06-21 is shown once. *)
Lemma berlin_unambiguous : unambiguous berlin2024 (1718964000 * NS_PER_S).
Proof.
  intros u1 u2. unfold reading. cbn -[Z.mul Z.add NS_PER_S H1]. unfold H1, NS_PER_S.
  destruct (Z.leb_spec (1711846800 * 1000000000) u1), (Z.ltb_spec u1 (1729990800 * 1000000000)),
           (Z.leb_spec (1711846800 * 1000000000) u2), (Z.ltb_spec u2 (1729990800 * 1000000000)); cbn [andb]; lia.
Qed.
