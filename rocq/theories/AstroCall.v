(** * AstroCall: what a successful call returns, as real numbers *)

From Coq Require Import ZArith QArith Reals Bool List String Lra Lia.
From Verif Require Import Num Arrays Libspa Time Core Usecases Spec UsecaseLemmas GenericLemmas GenericLemmas2 Ext ExtLemmas
  Sky AstroTac AstroSpec Astro AstroCell PsaCell.
Import ListNotations.
Open Scope R_scope.

Lemma call_supported {F} {O : Ops F} ne uc times lat lon alg refr eng sp :
  call ne uc times lat lon alg refr eng = Ok sp -> exists m, In (alg, eng, m) (supported (F := F)).
Proof.
  intros H. destruct (call_Ok_inv ne _ _ _ _ _ _ _ _ H) as (m & tz & ws & us0 & [] & Hsp).
  destruct (module_of_supported ne alg eng _ acc_mod) as (m' & Hin & _). now exists m'.
Qed.

Lemma at_idx_in {F} uc (lats lons : list F) k j i la lo :
  at_idx uc lats lons k j i la lo -> In la lats /\ In lo lons.
Proof. destruct uc; cbn; intros [H1 H2]; split; eauto using nth_error_In. Qed.

Lemma fin_coords E lat lon la lo :
  coords_ok (O := ExtOps E) lat lon -> In (Fin la) lat -> In (Fin lo) lon -> -90 <= la <= 90 /\ -180 <= lo < 180.
Proof.
  intros [H1 H2] Ha Ho. destruct (H1 _ Ha) as [H|[A B]]; [discriminate H|]. destruct (H2 _ Ho) as [H|[C D]]; [discriminate H|].
  cbn -[Q2R Rleb Rltb] in A, B, C, D.
  destruct (Rleb_spec (Q2R (-90)) la) as [A'|]; [|discriminate]. destruct (Rleb_spec la (Q2R 90)) as [B'|]; [|discriminate].
  destruct (Rleb_spec (Q2R (-180)) lo) as [C'|]; [|discriminate]. destruct (Rltb_spec lo (Q2R 180)) as [D'|]; [|discriminate].
  clear - A' B' C' D'. q2. repeat split; lra.
Qed.

Section Call.
  Variable E : Env.
  Variables (ne : bool) (uc : usecase) (times : times_arg) (lat lon : arg ext) (alg : string) (refr : refr_flag) (eng : string) (sp : Sunpos ext).
  Variables (k : nat) (t : Z).
  Hypothesis Hcall : call (O := ExtOps E) ne uc times lat lon alg refr eng = Ok sp.
  Hypothesis Hk : nth_error (instants times) k = Some (Some t).
  Hypothesis Ht : representable t.

  Lemma call_time : exists d eot ecf,
    get (sp_declination sp) [k] = Some (Fin d) /\ get (sp_eot sp) [k] = Some (Fin eot) /\ get (sp_ecf sp) [k] = Some (Fin ecf) /\
    -0.411 <= d <= 0.411 /\ Rabs eot <= 18.1 /\ 0.96 <= ecf <= 1.04.
  Proof.
    destruct (call_supported _ _ _ _ _ _ _ _ _ Hcall) as (m & Hin).
    destruct (dispatch_lemma (O := ExtOps E) ne uc times lat lon alg refr eng sp m k t NaN NaN Hcall Hin Hk) as (H1 & H2 & H3 & _).
    destruct (time_value E alg eng m _ Hin (sec_range t Ht)) as (d & eot & ecf & V1 & V2 & V3 & V).
    exists d, eot, ecf. unfold sec_of in *. rewrite V1 in H3. rewrite V2 in H2. rewrite V3 in H1. auto.
  Qed.

  Variables (j i : nat) (la lo : R).
  Hypothesis Hi : at_idx uc (elems lat) (elems lon) k j i (Fin la) (Fin lo).

  Lemma call_bounds : -90 <= la <= 90 /\ -180 <= lo < 180.
  Proof.
    destruct (at_idx_in _ _ _ _ _ _ _ _ Hi) as [Ha Ho].
    eapply fin_coords; [exact (ok_coords (O := ExtOps E) ne _ _ _ _ _ _ _ _ Hcall)|eassumption..].
  Qed.

  Lemma call_value : exact_for E alg eng -> exists d eot ecf h z a,
    get (sp_declination sp) [k] = Some (Fin d) /\ get (sp_eot sp) [k] = Some (Fin eot) /\ get (sp_ecf sp) [k] = Some (Fin ecf) /\
    get (sp_zenith sp) (idx uc k j i) = Some (if is_True refr then refracted E alg z else Fin z) /\
    get (sp_azimuth sp) (idx uc k j i) = Some (Fin a) /\
    near_turn h (solar_hour_angle t (used E alg lo) eot) (hour_tol alg) /\
    sky_position alg eng (used E alg la * (PI / 180)) d h ecf z a /\
    0 <= z <= PI /\ azimuth_in_turn alg a /\ h = hour_angle_of alg eng (nem E) t (used E alg lo).
  Proof.
    intros Hx. destruct (call_supported _ _ _ _ _ _ _ _ _ Hcall) as (m & Hin). destruct call_bounds as [Ba Bo].
    destruct (dispatch_lemma (O := ExtOps E) ne uc times lat lon alg refr eng sp m k t (Fin la) (Fin lo) Hcall Hin Hk) as (H1 & H2 & H3 & Hc).
    destruct (Hc j i Hi) as [Hz Ha]. clear Hc. fold (sec_of t) in *.
    destruct (time_value E alg eng m _ Hin (sec_range t Ht)) as (d & eot & ecf & V1 & V2 & V3 & V).
    destruct (cell_value E t la lo Ht Ba ltac:(lra) alg eng m d eot ecf Hin Hx V1 V2 V3) as (h & z & a & W0 & W1 & W2 & W3 & W4 & W5).
    exists d, eot, ecf, h, z, a. rewrite V1 in H3. rewrite V2 in H2. rewrite V3 in H1.
    rewrite (dims E alg eng m uc (is_True refr) (sec_of t) (Fin lo) (Fin la) Hin (sec_range t Ht)) in Hz, Ha.
    2,3: intros -> ->; destruct Hx as [Hx|[Hx|[_ [Hx|Hx]]]]; [exact Hx|discriminate Hx..].
    rewrite W5 in Hz, Ha. cbn [fst snd] in Hz, Ha. auto 10.
  Qed.

  (** psa/numpy with an accurate float32. *)
  Lemma call_range : range_ok_for E alg eng -> exists z a,
    get (sp_zenith sp) (idx uc k j i) = Some (if is_True refr then refracted E alg z else Fin z) /\
    get (sp_azimuth sp) (idx uc k j i) = Some (Fin a) /\ 0 <= z <= PI /\ azimuth_in_turn alg a.
  Proof.
    intros [Hx|[Ha [He Hx]]].
    { destruct (call_value Hx) as (d & eot & ecf & h & z & a & H). exists z, a. tauto. }
    destruct (call_supported _ _ _ _ _ _ _ _ _ Hcall) as (m & Hin). assert (Hin' := Hin). cbn [supported In] in Hin'.
    assert (m = py_psa (O := ExtOps E)).
    { rewrite Ha, He in Hin'. destruct Hin' as [H|[H|[H|[H|[H|[H|[H|[]]]]]]]]; try discriminate H. now injection H. }
    subst m. clear Hin'.
    destruct (dispatch_lemma (O := ExtOps E) ne uc times lat lon alg refr eng sp _ k t (Fin la) (Fin lo) Hcall Hin Hk) as (_ & _ & _ & Hc).
    destruct (Hc j i Hi) as [Hz Hz']. clear Hc. fold (sec_of t) in *.
    rewrite (dims E alg eng _ uc (is_True refr) (sec_of t) (Fin lo) (Fin la) Hin (sec_range t Ht)) in Hz, Hz' by (intros C; rewrite Ha in C; discriminate C).
    destruct (range_pypsa E t la lo Ht Hx) as (z & a & R1 & R2 & R3). exists z, a.
    cbn [py_psa lib_cast] in Hz, Hz'. cbn [py_psa] in R3. ext_ops. rewrite !fin_fun in Hz, Hz'.
    cbn [lib_2d lib_time] in Hz, Hz', R3. ext_ops. rewrite R3 in Hz, Hz'. cbn [fst snd] in Hz, Hz'. rewrite Ha. auto.
  Qed.
End Call.
