(** * PropCli: the command line [sunwhere at] (C47-C49, C56-C59) *)

From Coq Require Import ZArith QArith Reals List Bool String Lra Lia FunctionalExtensionality.
From Flocq Require Import Core.Raux Core.Generic_fmt Core.Round_NE.
From Interval Require Import Tactic.
From Verif Require Import Num Arrays Libspa Time Core Usecases Spec UsecaseLemmas GenericLemmas GenericLemmas2 TimeLemmas Ext ExtLemmas Witness
  AstroTac Sky AstroSpec Astro AstroCell AstroCall AstroRefute Float32 PropPipeline PropAstro Sunpos SunposSpec SunposLemmas SunposR SunposCells SkyClose PropSunpos
  Calendar CalendarSpec CalendarLemmas PropCalendar Cli.
Import ListNotations.
Open Scope list_scope.
Open Scope R_scope.

(** ** C47 *)
(** A coordinate text: a number followed by a letter for the sense (positive or negative). *)
Definition denotes (pyfloat : text -> option ext) (pos neg : list Z) (s : text) (v : R) : Prop :=
  exists number letter x, s = number ++ [letter] /\ pyfloat number = Some (Fin x) /\
    (In letter pos /\ v = x \/ In letter neg /\ v = - x).
Lemma fold_case (pos neg : Z) c : (97 <= pos <= 122)%Z -> (97 <= neg <= 122)%Z -> pos <> neg ->
  ((casefold1 c =? pos) || (casefold1 c =? neg))%Z%bool = true ->
  (c = pos \/ c = pos - 32 \/ (c = 383 /\ pos = 115) \/ c = neg \/ c = neg - 32 \/ (c = 383 /\ neg = 115))%Z.
Proof.
  intros Hp Hn Hd. unfold casefold1. destruct ((65 <=? c) && (c <=? 90))%Z%bool eqn:E1.
  - apply andb_prop in E1. rewrite orb_true_iff, !Z.eqb_eq. lia.
  - destruct (c =? 383)%Z eqn:E2; [apply Z.eqb_eq in E2|]; rewrite orb_true_iff, !Z.eqb_eq; lia.
Qed.
Lemma Ok_inj {A} (a b : A) : Ok a = Ok b -> a = b.
Proof. now intros [= ->]. Qed.
Lemma rev_split {A} (s : list A) c r : rev s = c :: r -> s = rev r ++ [c].
Proof. intros H. rewrite <- (rev_involutive s), H. reflexivity. Qed.
Lemma sign_mul (b : bool) x : e_mul (Fin (if b then 1 else -1)) (Fin x) = Fin (if b then x else - x).
Proof. cbn. f_equal. destruct b; ring. Qed.
Lemma le_bounds v lo hi : e_le (Fin lo) (Fin v) && e_le (Fin v) (Fin hi) = true <-> lo <= v <= hi.
Proof. cbn. unfold Rleb. destruct (Rle_dec lo v), (Rle_dec v hi); cbn; intuition (try discriminate; lra). Qed.
Lemma lt_bounds v lo hi : e_le (Fin lo) (Fin v) && e_lt (Fin v) (Fin hi) = true <-> lo <= v < hi.
Proof. cbn. unfold Rleb, Rltb. destruct (Rle_dec lo v), (Rlt_dec v hi); cbn; intuition (try discriminate; lra). Qed.
Lemma bounded_fin x lo hi v : e_le (Fin lo) (e_mul (Fin v) x) && e_le (e_mul (Fin v) x) (Fin hi) = true -> exists r, x = Fin r.
Proof. destruct x; cbn; try discriminate; eauto; destruct (Rlt_dec 0 v); cbn; try discriminate; try rewrite andb_false_r; try discriminate; destruct (Rlt_dec v 0); cbn; try discriminate; rewrite ?andb_false_r; discriminate. Qed.
Lemma bounded_fin' x lo hi v : e_le (Fin lo) (e_mul (Fin v) x) && e_lt (e_mul (Fin v) x) (Fin hi) = true -> exists r, x = Fin r.
Proof. destruct x; cbn; try discriminate; eauto; destruct (Rlt_dec 0 v); cbn; try discriminate; try rewrite andb_false_r; try discriminate; destruct (Rlt_dec v 0); cbn; try discriminate; rewrite ?andb_false_r; discriminate. Qed.

Theorem C47_latitude : forall pyfloat s v,
  parse_latitude pyfloat s = Ok (Fin v) <-> denotes pyfloat [78; 110]%Z [83; 115; 383]%Z s v /\ -90 <= v <= 90.
Proof.
  intros pyfloat s v. split.
  - unfold parse_latitude. destruct (rev s) as [|c r] eqn:Er; [discriminate|]. apply rev_split in Er.
    destruct ((casefold1 c =? 110)%Z || (casefold1 c =? 115)%Z) eqn:Ec; cbn [guard rbind]; [|discriminate].
    destruct (pyfloat (rev r)) as [x|] eqn:Ex; [|discriminate].
    destruct (_ && _) eqn:Eb; cbn [guard rbind]; [|discriminate]. intros Hv. apply Ok_inj in Hv.
    destruct (bounded_fin _ _ _ _ Eb) as (x' & ->). rewrite sign_mul in Hv, Eb. injection Hv as <-. apply le_bounds in Eb.
    split; [|exact Eb]. exists (rev r), c, x'. split; [exact Er|]. split; [exact Ex|].
    apply fold_case in Ec; try lia. destruct Ec as [->|[->|[[-> Hf]|[->|[->|[-> _]]]]]]; try discriminate Hf; cbn; intuition.
  - intros [(num & c & x & -> & Hx & Hc) B]. unfold parse_latitude. rewrite rev_app_distr. cbn [rev app]. rewrite rev_involutive, Hx.
    cbn [In] in Hc. assert (G := proj2 (le_bounds v (-90) 90) B).
    destruct Hc as [[[<-|[<-|[]]] ->]|[[<-|[<-|[<-|[]]]] ->]]; rewrite ?sign_mul; cbn [casefold1 Z.leb Z.eqb Z.compare Pos.compare Pos.compare_cont Pos.eqb andb orb Z.add Pos.add Pos.succ Pos.add_carry guard rbind]; rewrite ?sign_mul, G; reflexivity.
Qed.
Theorem C47_longitude : forall pyfloat s v,
  parse_longitude pyfloat s = Ok (Fin v) <-> denotes pyfloat [69; 101]%Z [87; 119]%Z s v /\ -180 <= v < 180.
Proof.
  intros pyfloat s v. split.
  - unfold parse_longitude. destruct (rev s) as [|c r] eqn:Er; [discriminate|]. apply rev_split in Er.
    destruct ((casefold1 c =? 101)%Z || (casefold1 c =? 119)%Z) eqn:Ec; cbn [guard rbind]; [|discriminate].
    destruct (pyfloat (rev r)) as [x|] eqn:Ex; [|discriminate].
    destruct (_ && _) eqn:Eb; cbn [guard rbind]; [|discriminate]. intros Hv. apply Ok_inj in Hv.
    destruct (bounded_fin' _ _ _ _ Eb) as (x' & ->). rewrite sign_mul in Hv, Eb. injection Hv as <-. apply lt_bounds in Eb.
    split; [|exact Eb]. exists (rev r), c, x'. split; [exact Er|]. split; [exact Ex|].
    apply fold_case in Ec; try lia. destruct Ec as [->|[->|[[-> Hf]|[->|[->|[-> Hf]]]]]]; try discriminate Hf; cbn; intuition.
  - intros [(num & c & x & -> & Hx & Hc) B]. unfold parse_longitude. rewrite rev_app_distr. cbn [rev app]. rewrite rev_involutive, Hx.
    cbn [In] in Hc. assert (G := proj2 (lt_bounds v (-180) 180) B).
    destruct Hc as [[[<-|[<-|[]]] ->]|[[<-|[<-|[]]] ->]]; rewrite ?sign_mul; cbn [casefold1 Z.leb Z.eqb Z.compare Pos.compare Pos.compare_cont Pos.eqb andb orb Z.add Pos.add Pos.succ Pos.add_carry guard rbind]; rewrite ?sign_mul, G; reflexivity.
Qed.
(** Whatever is accepted is a number (no NaN, no infinity). *)
Theorem C47_accepts_numbers : forall pyfloat s x,
  parse_latitude pyfloat s = Ok x \/ parse_longitude pyfloat s = Ok x -> exists v, x = Fin v.
Proof.
  intros pyfloat s x [H|H]; unfold parse_latitude, parse_longitude in H; destruct (rev s) as [|c r]; try discriminate H;
    (destruct (_ || _) in H; cbn [guard rbind] in H; [|discriminate H]);
    (destruct (pyfloat (rev r)) as [y|] eqn:Ey; [|discriminate H]);
    (destruct (_ && _) eqn:Eb in H; cbn [guard rbind] in H; [|discriminate H]); apply Ok_inj in H; subst x.
  - destruct (bounded_fin _ _ _ _ Eb) as (r' & ->). rewrite sign_mul. eauto.
  - destruct (bounded_fin' _ _ _ _ Eb) as (r' & ->). rewrite sign_mul. eauto.
Qed.
(** "5N", "5s", "5W", "5X" with a parser of one-digit numbers. *)
Example C47_example : let digit s := match s with [c] => if ((48 <=? c) && (c <=? 57))%Z then Some (Fin (IZR (c - 48))) else None | _ => None end in
  parse_latitude digit [53; 78]%Z = Ok (Fin 5) /\ parse_latitude digit [53; 115]%Z = Ok (Fin (-5)) /\
  parse_longitude digit [53; 87]%Z = Ok (Fin (-5)) /\ (forall v, parse_longitude digit [53; 88]%Z <> Ok (Fin v)).
Proof.
  cbv zeta. split; [|split; [|split]].
  - apply C47_latitude. split; [|lra]. exists [53%Z], 78%Z, 5. split; [reflexivity|]. split; [reflexivity|]. left. cbn. tauto.
  - apply C47_latitude. split; [|lra]. exists [53%Z], 115%Z, 5. split; [reflexivity|]. split; [reflexivity|]. right. cbn. tauto.
  - apply C47_longitude. split; [|lra]. exists [53%Z], 87%Z, 5. split; [reflexivity|]. split; [reflexivity|]. right. cbn. tauto.
  - intros v H. apply C47_longitude in H. destruct H as [(n & c & x & Hs & _ & Hc) _].
    apply (f_equal (@rev Z)) in Hs. rewrite rev_app_distr in Hs. cbn in Hs. injection Hs as <- _. cbn in Hc. intuition discriminate.
Qed.

(** ** C48: the equation of time as "m:ss.s".  What such a text denotes, in minutes: the sign is that of the
    text of the whole minutes. *)
Definition shown_minutes (d : Z * Z) : R :=
  let (m, ds) := d in if (m <? 0)%Z then IZR m - IZR ds / 600 else IZR m + IZR ds / 600.
Lemma fixed_near n x : (0 <= n)%Z -> Rabs (IZR (fixed n x) / IZR (10 ^ n) - x) <= / 2 / IZR (10 ^ n).
Proof.
  intros Hn. unfold fixed. assert (P : 0 < IZR (10 ^ n)) by (apply IZR_lt; apply Z.pow_pos_nonneg; lia).
  assert (H := Znearest_half (fun k => negb (Z.even k)) (x * IZR (10 ^ n))).
  set (k := ZnearestE (x * IZR (10 ^ n))) in *. fold k in H.
  replace (IZR k / IZR (10 ^ n) - x) with (- ((x * IZR (10 ^ n) - IZR k) / IZR (10 ^ n))) by (field; lra).
  rewrite Rabs_Ropp. unfold Rdiv at 1. rewrite Rabs_mult, (Rabs_right (/ IZR (10 ^ n))).
  2: { apply Rle_ge, Rlt_le, Rinv_0_lt_compat, P. }
  unfold Rdiv. apply Rmult_le_compat_r; [apply Rlt_le, Rinv_0_lt_compat, P|]. exact H.
Qed.
Lemma eot_sec_near e : Rabs (IZR (eot_sec e) / 600 - (Rabs e - IZR (Zfloor (Rabs e)))) <= 0.05 / 60.
Proof.
  unfold eot_sec. assert (H := fixed_near 1 (60 * (Rabs e - IZR (Zfloor (Rabs e)))) ltac:(lia)).
  change (10 ^ 1)%Z with 10%Z in H. apply Rabs_le_inv in H. apply Rabs_le. lra.
Qed.
Theorem C48_eot_display_partial : forall e, 0 <= e \/ e <= -1 ->
  Rabs (shown_minutes (eot_min e, eot_sec e) - e) <= 0.05 / 60.
Proof.
  intros e He. assert (H := eot_sec_near e). unfold shown_minutes, eot_min. destruct He as [He|He].
  - rewrite (Rabs_right e) in H by lra. rewrite Ztrunc_floor by lra.
    assert (0 <= Zfloor e)%Z by (apply Zfloor_lub; exact He). destruct (Zfloor e <? 0)%Z eqn:Eb; [apply Z.ltb_lt in Eb; lia|].
    apply Rabs_le_inv in H. apply Rabs_le. lra.
  - rewrite (Rabs_left1 e) in H by lra. rewrite Ztrunc_ceil by lra.
    assert (Hc : Zceil e = (- Zfloor (- e))%Z) by reflexivity. rewrite Hc, opp_IZR.
    assert (1 <= Zfloor (- e))%Z by (apply Zfloor_lub; lra). destruct (- Zfloor (- e) <? 0)%Z eqn:Eb; [|apply Z.ltb_ge in Eb; lia].
    apply Rabs_le_inv in H. apply Rabs_le. lra.
Qed.
(** Between -1 and 0 minutes the sign is lost: the text is that of the opposite value. *)
Theorem C48_sign_refuted : forall e, -1 < e < 0 ->
  (eot_min e, eot_sec e) = (eot_min (- e), eot_sec (- e)) /\
  2 * Rabs e - 0.05 / 60 <= Rabs (shown_minutes (eot_min e, eot_sec e) - e).
Proof.
  intros e He. assert (Et : Ztrunc e = 0%Z). { rewrite Ztrunc_ceil by lra. apply Zceil_imp. change (0 - 1)%Z with (-1)%Z. lra. }
  assert (Et' : Ztrunc (- e) = 0%Z) by (rewrite Ztrunc_floor by lra; apply Zfloor_imp; change (0 + 1)%Z with 1%Z; lra).
  split; [unfold eot_min, eot_sec; now rewrite Et, Et', Rabs_Ropp|].
  assert (H := eot_sec_near e). rewrite (Rabs_left1 e) in * by lra. unfold shown_minutes, eot_min. rewrite Et. cbn [Z.ltb Z.compare].
  assert (F : Zfloor (- e) = 0%Z) by (apply Zfloor_imp; change (0 + 1)%Z with 1%Z; lra). rewrite F in H.
  apply Rabs_le_inv in H. eapply Rle_trans; [|apply RRle_abs]. lra.
Qed.

(** ** Reports *)
Definition refr_of (refraction : bool) : refr_flag := if refraction then RTrue else RFalse.
(** The wall-clock time the user asks for. *)
Definition asked (now : Z) (machine : zone) (time : cli_time) : Z :=
  match time with CNow => reading machine now | CText w _ => w end.

Lemma item_reads {A} (a : darray A) x : item a = Ok x <-> reads a 0 0 0 x.
Proof.
  unfold item, reads. assert (Ec : at_cell 0 0 0 = (fun _ => 0%nat)) by (apply functional_extensionality; now intros []). rewrite Ec.
  destruct (da_at a (fun _ => 0%nat)); split; congruence.
Qed.
Lemma num_Fin x r : num x = Ok r -> x = Fin r.
Proof. destruct x; cbn; congruence. Qed.
Lemma clock_Some t c : clock t = Ok c -> exists n, t = Some n /\ c = ((n / NS_PER_S) mod 86400)%Z.
Proof. destruct t; cbn; [intros [= <-]; eauto|discriminate]. Qed.
Lemma instant_inv r x : instant r = Ok x -> instant_of r 0 0 0 x.
Proof.
  unfold instant. destruct r as [[a|a]|]; cbn [rbind]; try discriminate. intros H. apply item_reads in H. exists a. now split.
Qed.
Lemma instant_intro r x : instant_of r 0 0 0 x -> instant r = Ok x.
Proof. intros (a & -> & H). cbn. now apply item_reads. Qed.

Lemma localize_raise_inv z w u : zone_wf z -> tz_localize_raise z w = Ok u -> reading z u = w /\ unambiguous z w.
Proof.
  intros Hz. unfold tz_localize_raise. destruct (candidates z w) as [|u' [|]] eqn:Ec; try discriminate. intros [= ->].
  assert (H : forall v, reading z v = w <-> v = u) by (intros v; rewrite <- (In_candidates z w v Hz), Ec; cbn; intuition congruence).
  split; [now apply H|]. intros u1 u2 H1 H2. apply H in H1, H2. congruence.
Qed.
Lemma localize_raise_intro z w u : zone_wf z -> reading z u = w -> unambiguous z w -> tz_localize_raise z w = Ok u.
Proof. intros Hz Hr Hu. unfold tz_localize_raise. now rewrite (candidates_one z w u Hz Hu Hr). Qed.
Lemma localize_raise_none z w u : zone_wf z -> ~ (reading z u = w /\ unambiguous z w) -> tz_localize_raise z w <> Ok u.
Proof. intros Hz H C. apply H. now apply localize_raise_inv. Qed.

Lemma reads_map2_inv {A B C} (f : A -> B -> C) a b k j i z : reads (da_map2 f a b) k j i z -> exists x y, reads a k j i x /\ reads b k j i y /\ z = f x y.
Proof.
  unfold reads, da_map2. cbn [da_at]. destruct (da_at a _) as [x|]; [|discriminate]. destruct (da_at b _) as [y|]; [|discriminate]. intros [= <-]. eauto.
Qed.

Section Report.
Variables (E : Env) (nf : ext).
Notation zenith := (Sunpos.zenith (O := ExtOps E)).
Notation azimuth := (Sunpos.azimuth (O := ExtOps E)).
Notation declination := (Sunpos.declination (O := ExtOps E)).
Notation elevation := (Sunpos.elevation (O := ExtOps E)).
Notation sunrise := (Sunpos.sunrise (O := ExtOps E) nf).
Notation sunset := (Sunpos.sunset (O := ExtOps E) nf).
Notation cli := (at_command E nf).
Notation api u lat lon alg refraction := (call (O := ExtOps E) true Sites (at_times [Some u]) (Scalar lat) (Scalar lon) alg (refr_of refraction) "numexpr").

Definition seconds_of_day (n : Z) : Z := ((n / 1000000000) mod 86400)%Z.

Lemma position_inv now machine time lat lon alg refraction z rp :
  cli now machine time lat lon alg refraction z = Ok rp ->
  exists u sw e d f zen el az r1 s1 r2 s2, let wall := asked now machine time in
    tz_localize_raise z wall = Ok u /\ (forall w o, time <> CText w (Some o)) /\
    call (O := ExtOps E) true Sites (TAware false (NoZoneAttr z) [Some (wall, wall - u)%Z]) (Scalar lat) (Scalar lon) alg (refr_of refraction) "numexpr" = Ok sw /\
    reads (Sunpos.eot sw) 0 0 0 (Fin e) /\ reads (declination sw) 0 0 0 (Fin d) /\ reads (Sunpos.ecf sw) 0 0 0 (Fin f) /\
    reads (zenith sw) 0 0 0 (Fin zen) /\ reads (elevation sw) 0 0 0 (Fin el) /\ reads (azimuth sw) 0 0 0 (Fin az) /\
    instant_of (sunrise sw "utc") 0 0 0 (Some r1) /\ instant_of (sunset sw "utc") 0 0 0 (Some s1) /\
    instant_of (sunrise sw "local") 0 0 0 (Some r2) /\ instant_of (sunset sw "local") 0 0 0 (Some s2) /\
    rp = {| rp_time := wall; rp_declination := fixed 4 d; rp_distance := fixed 4 (1 / sqrt f);
            rp_zenith := fixed 4 zen; rp_elevation := fixed 4 el; rp_azimuth := fixed 4 az;
            rp_sunrise_utc := seconds_of_day r1; rp_sunset_utc := seconds_of_day s1;
            rp_sunrise_local := seconds_of_day r2; rp_sunset_local := seconds_of_day s2;
            rp_eot := (eot_min e, eot_sec e) |}.
Proof.
  unfold at_command. destruct (calculate_position E nf now machine time lat lon alg refraction z) as [rp'|] eqn:Hc; [|discriminate]. intros [= ->].
  unfold calculate_position in Hc. cbv zeta in Hc.
  change (match time with CNow => now + z_offset machine now | CText w _ => w end)%Z with (asked now machine time) in Hc. fold (refr_of refraction) in Hc.
  set (wall := asked now machine time) in *.
  destruct (tz_localize_raise z wall) as [u|] eqn:Eu; cbn [rbind] in Hc; [|discriminate].
  destruct (sites _ _ _ _ _ _ _) as [sw|] eqn:Es in Hc; cbn [rbind] in Hc; [|discriminate].
  destruct (instant (sunrise sw "utc")) as [r1|] eqn:E1; cbn [rbind] in Hc; [|discriminate].
  destruct (instant (sunset sw "utc")) as [s1|] eqn:E2; cbn [rbind] in Hc; [|discriminate].
  destruct (instant (sunrise sw "local")) as [r2|] eqn:E3; cbn [rbind] in Hc; [|discriminate].
  destruct (instant (sunset sw "local")) as [s2|] eqn:E4; cbn [rbind] in Hc; [|discriminate].
  destruct (item (Sunpos.eot sw)) as [xe|] eqn:Xe; cbn [rbind] in Hc; [|discriminate].
  destruct (num xe) as [e|] eqn:Ne; cbn [rbind] in Hc; [|discriminate].
  destruct (guard _ _) eqn:Eg in Hc; cbn [rbind] in Hc; [|discriminate].
  destruct (item (Sunpos.dec (O := ExtOps E) sw)) as [xd|] eqn:Xd; cbn [rbind] in Hc; [|discriminate].
  destruct (num xd) as [d|] eqn:Nd; cbn [rbind] in Hc; [|discriminate].
  destruct (item (Sunpos.ecf sw)) as [xf|] eqn:Xf; cbn [rbind] in Hc; [|discriminate].
  destruct (num xf) as [f|] eqn:Nf; cbn [rbind] in Hc; [|discriminate].
  destruct (item (Sunpos.sza (O := ExtOps E) sw)) as [xz|] eqn:Xz; cbn [rbind] in Hc; [|discriminate].
  destruct (num xz) as [zen|] eqn:Nz; cbn [rbind] in Hc; [|discriminate].
  destruct (item (elevation sw)) as [xl|] eqn:Xl; cbn [rbind] in Hc; [|discriminate].
  destruct (num xl) as [el|] eqn:Nl; cbn [rbind] in Hc; [|discriminate].
  destruct (item (Sunpos.saa (O := ExtOps E) sw)) as [xa|] eqn:Xa; cbn [rbind] in Hc; [|discriminate].
  destruct (num xa) as [az|] eqn:Na; cbn [rbind] in Hc; [|discriminate].
  destruct (clock r1) as [c1|] eqn:C1; cbn [rbind] in Hc; [|discriminate].
  destruct (clock s1) as [c2|] eqn:C2; cbn [rbind] in Hc; [|discriminate].
  destruct (clock r2) as [c3|] eqn:C3; cbn [rbind] in Hc; [|discriminate].
  destruct (clock s2) as [c4|] eqn:C4; cbn [rbind] in Hc; [|discriminate].
  apply Ok_inj in Hc. subst rp.
  apply num_Fin in Ne, Nd, Nf, Nz, Nl, Na. subst. apply item_reads in Xe, Xd, Xf, Xz, Xl, Xa. apply instant_inv in E1, E2, E3, E4.
  apply clock_Some in C1, C2, C3, C4. destruct C1 as (n1 & -> & ->), C2 as (n2 & -> & ->), C3 as (n3 & -> & ->), C4 as (n4 & -> & ->).
  exists u, sw, e, d, f, zen, el, az, n1, n2, n3, n4. cbv zeta. fold wall.
  split; [reflexivity|]. split. { intros w o ->. discriminate Eg. }
  split; [exact Es|]. repeat (split; [assumption|]). reflexivity.
Qed.

(** An aware call with a zoneinfo zone, against the naive call at the same instant. *)
Lemma aware_api z wall u lat lon alg refraction sw :
  call (O := ExtOps E) true Sites (TAware false (NoZoneAttr z) [Some (wall, wall - u)%Z]) (Scalar lat) (Scalar lon) alg (refr_of refraction) "numexpr" = Ok sw ->
  exists sp, api u lat lon alg refraction = Ok sp /\ same_outputs sw sp /\ sp_usecase sw = sp_usecase sp /\
    sp_latitude sw = sp_latitude sp /\ sp_longitude sw = sp_longitude sp /\
    sp_times sp = [Some u] /\ sp_times_utc sp = [Some u] /\ sp_times sw = [Some wall] /\ sp_times_utc sw = [Some wall] /\
    (wall = u -> sw = sp).
Proof.
  intros H. destruct (call_Ok_inv true _ _ _ _ _ _ _ _ H) as (m & tz & ws & us & [] & ->).
  unfold ctor_times in acc_ctor. cbn [walls rbind] in acc_ctor. rewrite tz_localize_utc in acc_ctor. cbn [rbind map option_map fst] in acc_ctor. injection acc_ctor as <- <- <-.
  assert (Hi : instants (TAware false (NoZoneAttr z) [Some (wall, (wall - u)%Z)]) = instants (at_times [Some u])).
  { cbn. do 2 f_equal. lia. }
  assert (Hs : secs (TAware false (NoZoneAttr z) [Some (wall, (wall - u)%Z)]) = secs (at_times [Some u])).
  { unfold secs. now rewrite Hi. }
  assert (A : accepts (O := ExtOps E) true Sites (at_times [Some u]) (Scalar lat) (Scalar lon) alg "numexpr" m "UTC" [Some u] [Some u]).
  { constructor; first [assumption | apply ctor_times_naive | reflexivity]. }
  eexists. split; [apply (call_Ok_intro true _ _ _ _ _ _ _ _ _ _ _ A)|]. rewrite Hs. repeat split. intros ->. reflexivity.
Qed.
Lemma same_reads uc sw sp k j i : sp_usecase sw = uc -> sp_usecase sp = uc -> same_outputs sw sp ->
  (forall x, reads (zenith sw) k j i x <-> reads (zenith sp) k j i x) /\
  (forall x, reads (elevation sw) k j i x <-> reads (elevation sp) k j i x) /\
  (forall x, reads (azimuth sw) k j i x <-> reads (azimuth sp) k j i x) /\
  (forall x, reads (declination sw) k j i x <-> reads (declination sp) k j i x) /\
  (forall x, reads (Sunpos.ecf sw) k j i x <-> reads (Sunpos.ecf sp) k j i x) /\
  (forall x, reads (Sunpos.eot sw) k j i x <-> reads (Sunpos.eot sp) k j i x).
Proof.
  intros H1 H2 (Ea & Eb & Ec & Ed & Ee). unfold reads, Sunpos.zenith, Sunpos.elevation, Sunpos.zenith, Sunpos.azimuth, Sunpos.declination, Sunpos.ecf, Sunpos.eot, raw_zenith, raw_azimuth, raw_declination, dims_zenith.
  rewrite H1, H2, Ea, Eb, Ec, Ed, Ee. repeat split; auto.
Qed.

(** ** C59: the numbers shown are the API's, for the one instant at which the requested zone's clock reads the
    requested time, rounded to four decimals. *)
Theorem C59_report : forall now machine time lat lon alg refraction z rp, zone_wf z ->
  cli now machine time lat lon alg refraction z = Ok rp ->
  exists u sp zd el ad dd f e,
    rp_time rp = asked now machine time /\ reading z u = asked now machine time /\ unambiguous z (asked now machine time) /\
    api u lat lon alg refraction = Ok sp /\
    reads (zenith sp) 0 0 0 (Fin zd) /\ reads (elevation sp) 0 0 0 (Fin el) /\ reads (azimuth sp) 0 0 0 (Fin ad) /\
    reads (declination sp) 0 0 0 (Fin dd) /\ reads (Sunpos.ecf sp) 0 0 0 (Fin f) /\ reads (Sunpos.eot sp) 0 0 0 (Fin e) /\
    Rabs (IZR (rp_zenith rp) / 10000 - zd) <= 0.00005 /\ Rabs (IZR (rp_elevation rp) / 10000 - el) <= 0.00005 /\
    Rabs (IZR (rp_azimuth rp) / 10000 - ad) <= 0.00005 /\ Rabs (IZR (rp_declination rp) / 10000 - dd) <= 0.00005 /\
    Rabs (IZR (rp_distance rp) / 10000 - 1 / sqrt f) <= 0.00005 /\ rp_eot rp = (eot_min e, eot_sec e).
Proof.
  intros now machine time lat lon alg refraction z rp Hz H.
  destruct (position_inv _ _ _ _ _ _ _ _ _ H) as (u & sw & e & d & f & zen & el & az & r1 & s1 & r2 & s2 & Hu & _ & Hsw & Re & Rd & Rf & Rz & Rl & Ra & _ & _ & _ & _ & ->).
  destruct (localize_raise_inv _ _ _ Hz Hu) as [Hr Ha].
  destruct (aware_api _ _ _ _ _ _ _ _ Hsw) as (sp & Hsp & Hso & Huc & _).
  destruct (same_reads _ sw sp 0 0 0 Huc eq_refl Hso) as (K1 & K2 & K3 & K4 & K5 & K6).
  exists u, sp, zen, el, az, d, f, e. cbn [rp_time rp_zenith rp_elevation rp_azimuth rp_declination rp_distance rp_eot].
  split; [reflexivity|]. split; [exact Hr|]. split; [exact Ha|]. split; [exact Hsp|].
  split; [now apply K1|]. split; [now apply K2|]. split; [now apply K3|]. split; [now apply K4|]. split; [now apply K5|]. split; [now apply K6|].
  assert (N : forall x, Rabs (IZR (fixed 4 x) / 10000 - x) <= 0.00005).
  { intros x. assert (B := fixed_near 4 x ltac:(lia)). change (10 ^ 4)%Z with 10000%Z in B. lra. }
  repeat split; apply N.
Qed.

(** ** C49: 'now'.  The machine's clock reading is taken as a reading of the requested zone's clock: the report is that
    of the current instant exactly when both zones have the same offset. *)
Theorem C49_now_partial : forall now machine lat lon alg refraction z rp, zone_wf z ->
  cli now machine CNow lat lon alg refraction z = Ok rp -> z_offset z now = z_offset machine now ->
  exists sp zd ad, api now lat lon alg refraction = Ok sp /\
    reads (zenith sp) 0 0 0 (Fin zd) /\ reads (azimuth sp) 0 0 0 (Fin ad) /\ rp_time rp = reading z now /\
    Rabs (IZR (rp_zenith rp) / 10000 - zd) <= 0.00005 /\ Rabs (IZR (rp_azimuth rp) / 10000 - ad) <= 0.00005.
Proof.
  intros now machine lat lon alg refraction z rp Hz H Ho.
  destruct (C59_report _ _ _ _ _ _ _ _ _ Hz H) as (u & sp & zd & el & ad & dd & f & e & Ht & Hr & Hu & Hsp & Rz & _ & Ra & _ & _ & _ & Bz & _ & Ba & _).
  cbn [asked] in *. assert (Hn : reading z now = reading machine now) by (unfold reading; lia).
  assert (u = now) as -> by now apply Hu. exists sp, zd, ad. rewrite Hn. now repeat split.
Qed.
Theorem C49_now_refuted : forall now machine lat lon alg refraction z rp, zone_wf z ->
  cli now machine CNow lat lon alg refraction z = Ok rp -> z_offset z now <> z_offset machine now ->
  rp_time rp <> reading z now /\
  exists u sp zd ad, u <> now /\ (z = utc_zone -> u = (now + z_offset machine now)%Z) /\ api u lat lon alg refraction = Ok sp /\
    reads (zenith sp) 0 0 0 (Fin zd) /\ reads (azimuth sp) 0 0 0 (Fin ad) /\
    Rabs (IZR (rp_zenith rp) / 10000 - zd) <= 0.00005 /\ Rabs (IZR (rp_azimuth rp) / 10000 - ad) <= 0.00005.
Proof.
  intros now machine lat lon alg refraction z rp Hz H Ho.
  destruct (C59_report _ _ _ _ _ _ _ _ _ Hz H) as (u & sp & zd & el & ad & dd & f & e & Ht & Hr & Hu & Hsp & Rz & _ & Ra & _ & _ & _ & Bz & _ & Ba & _).
  cbn [asked] in *. split; [rewrite Ht; unfold reading; lia|]. exists u, sp, zd, ad.
  split. { intros ->. unfold reading in Hr. lia. }
  split. { intros ->. unfold reading in Hr. cbn in Hr. lia. }
  now repeat split.
Qed.

(** ** C58: a TIME with a UTC offset is never reported: exit status 1. *)
Lemma cli_result now machine time lat lon alg refraction z :
  (exists rp, cli now machine time lat lon alg refraction z = Ok rp) \/ cli now machine time lat lon alg refraction z = Raise SystemExit1.
Proof. unfold at_command. destruct (calculate_position _ _ _ _ _ _ _ _ _ _) as [rp|]; [left; now exists rp|now right]. Qed.
Theorem C58_offset_text_refuted : forall now machine w o lat lon alg refraction z,
  cli now machine (CText w (Some o)) lat lon alg refraction z = Raise SystemExit1.
Proof.
  intros. destruct (cli_result now machine (CText w (Some o)) lat lon alg refraction z) as [(rp & H)|H]; [|exact H].
  destruct (position_inv _ _ _ _ _ _ _ _ _ H) as (u & sw & e & d & f & zen & el & az & r1 & s1 & r2 & s2 & _ & C & _). now elim (C w o).
Qed.
(** Nor is a time that the zone's clock shows twice, or never. *)
Theorem C58_folds_and_gaps : forall now machine time lat lon alg refraction z, zone_wf z ->
  (ambiguous z (asked now machine time) \/ forall u, reading z u <> asked now machine time) ->
  cli now machine time lat lon alg refraction z = Raise SystemExit1.
Proof.
  intros now machine time lat lon alg refraction z Hz Ha.
  destruct (cli_result now machine time lat lon alg refraction z) as [(rp & H)|H]; [|exact H].
  destruct (C59_report _ _ _ _ _ _ _ _ _ Hz H) as (u & sp & zd & el & ad & dd & f & e & _ & Hr & Hu & _).
  destruct Ha as [(u1 & u2 & Hn & H1 & H2)|Ha]; [elim Hn; now apply Hu|now elim (Ha u)].
Qed.

(** ** C56: the sunrise and sunset "in UTC" and "in the requested zone" are always the same time of day ... *)
Theorem C56_same_clock_refuted : forall now machine time lat lon alg refraction z rp,
  cli now machine time lat lon alg refraction z = Ok rp ->
  rp_sunrise_local rp = rp_sunrise_utc rp /\ rp_sunset_local rp = rp_sunset_utc rp.
Proof.
  intros now machine time lat lon alg refraction z rp H.
  destruct (position_inv _ _ _ _ _ _ _ _ _ H) as (u & sw & e & d & f & zen & el & az & r1 & s1 & r2 & s2 & Hu & _ & Hsw & _ & _ & _ & _ & _ & _ & I1 & I2 & I3 & I4 & ->).
  cbn [rp_sunrise_local rp_sunrise_utc rp_sunset_local rp_sunset_utc].
  destruct (aware_api _ _ _ _ _ _ _ _ Hsw) as (sp & _ & _ & _ & _ & _ & _ & _ & Ew & Eu & _).
  assert (K : forall a b c, reads (Sunpos.sunrise_utc (O := ExtOps E) nf sw) 0 0 0 a -> reads (Sunpos.sunrise_local (O := ExtOps E) nf sw) 0 0 0 b -> a = c -> b = c).
  { intros a b c Ra Rb <-. unfold Sunpos.sunrise_local in Rb. apply reads_map2_inv in Rb as (x & y & Rx & Ry & ->).
    assert (x = a) as -> by exact (reads_fun _ _ _ _ _ _ Rx Ra). unfold reads in Ry. cbn [da_at at_cell] in Ry. rewrite Ew, Eu in Ry. cbn in Ry.
    injection Ry as <-. destruct a; cbn; [f_equal; lia|reflexivity]. }
  destruct I1 as (a1 & Q1 & R1), I2 as (a2 & Q2 & R2), I3 as (a3 & Q3 & R3), I4 as (a4 & Q4 & R4).
  cbn in Q1, Q2, Q3, Q4. injection Q1 as <-. injection Q2 as <-. injection Q3 as <-. injection Q4 as <-.
  assert (E3 := K _ _ _ R1 R3 eq_refl). injection E3 as ->. split; [reflexivity|].
  apply reads_map2_inv in R2 as (x2 & y2 & X2 & Y2 & Z2). apply reads_map2_inv in R4 as (x4 & y4 & X4 & Y4 & Z4).
  assert (x4 = x2) as -> by exact (K _ _ _ X2 X4 eq_refl). assert (y4 = y2) as -> by exact (reads_fun _ _ _ _ _ _ Y4 Y2). congruence.
Qed.
(** ... so with a non-zero offset they cannot be both right.  For zones with the offset 0 they are the API's. *)
Theorem C56_sunrise_partial : forall now machine time lat lon alg refraction z rp, zone_wf z ->
  cli now machine time lat lon alg refraction z = Ok rp ->
  z_offset z (asked now machine time) = 0%Z ->
  exists sp r1 s1 r2 s2, api (asked now machine time) lat lon alg refraction = Ok sp /\
    instant_of (sunrise sp "utc") 0 0 0 (Some r1) /\ instant_of (sunset sp "utc") 0 0 0 (Some s1) /\
    instant_of (sunrise sp "local") 0 0 0 (Some r2) /\ instant_of (sunset sp "local") 0 0 0 (Some s2) /\
    rp_sunrise_utc rp = seconds_of_day r1 /\ rp_sunset_utc rp = seconds_of_day s1 /\
    rp_sunrise_local rp = seconds_of_day r2 /\ rp_sunset_local rp = seconds_of_day s2.
Proof.
  intros now machine time lat lon alg refraction z rp Hz H Ho.
  destruct (position_inv _ _ _ _ _ _ _ _ _ H) as (u & sw & e & d & f & zen & el & az & r1 & s1 & r2 & s2 & Hu & _ & Hsw & _ & _ & _ & _ & _ & _ & I1 & I2 & I3 & I4 & ->).
  destruct (localize_raise_inv _ _ _ Hz Hu) as [Hr Ha].
  assert (asked now machine time = u) as Eu. { apply Ha; [unfold reading; lia|exact Hr]. }
  destruct (aware_api _ _ _ _ _ _ _ _ Hsw) as (sp & Hsp & _ & _ & _ & _ & _ & _ & _ & _ & Es). rewrite (Es Eu) in *. rewrite Eu.
  exists sp, r1, s1, r2, s2. now repeat split.
Qed.

(** ** C57: polar day or night: no report at all, exit status 1 *)
Theorem C57_polar_refuted : forall now machine time la lo alg refraction z u sp dd, zone_wf z ->
  reading z u = asked now machine time -> representable u ->
  api u (Fin la) (Fin lo) alg refraction = Ok sp -> reads (declination sp) 0 0 0 (Fin dd) ->
  la <> 90 /\ la <> -90 -> ~ has_horizon_crossing (rad la) (rad dd) ->
  cli now machine time (Fin la) (Fin lo) alg refraction z = Raise SystemExit1.
Proof.
  intros now machine time la lo alg refraction z u sp dd Hz Hr Ht Hsp Hd Hp Hn.
  destruct (cli_result now machine time (Fin la) (Fin lo) alg refraction z) as [(rp & H)|H]; [exfalso|exact H].
  destruct (position_inv _ _ _ _ _ _ _ _ _ H) as (u' & sw & e & d & f & zen & el & az & r1 & s1 & r2 & s2 & Hu & _ & Hsw & _ & _ & _ & _ & _ & _ & I1 & _).
  destruct (localize_raise_inv _ _ _ Hz Hu) as [Hr' Ha]. assert (u' = u) as -> by now apply Ha.
  destruct (aware_api _ _ _ _ _ _ _ _ Hsw) as (sp' & Hsp' & Hso & Huc & _). rewrite Hsp in Hsp'. injection Hsp' as <-.
  destruct (same_reads _ sw sp 0 0 0 Huc eq_refl Hso) as (_ & _ & _ & K4 & _).
  assert (Hcell : evaluated_cell E Sites (TAware false (NoZoneAttr z) [Some (asked now machine time, asked now machine time - u)%Z]) (Scalar (Fin la)) (Scalar (Fin lo)) alg (refr_of refraction) "numexpr" sw 0 0 0 u la lo).
  { split; [split; [exact Hsw|split; [|exact Ht]]|split; reflexivity]. cbn. do 2 f_equal. lia. }
  destruct (C37_sunrise_exists E nf _ _ _ _ _ _ _ _ _ _ _ _ _ _ _ Hcell (proj2 (K4 _) Hd) (or_introl Hp)) as (a & ar & Ea & _ & _ & Hnn).
  destruct (Hnn Hn) as [Rn _]. cbn in Ea. injection Ea as <-.
  assert (Hdl := reads_map (mul (Ops := ExtOps E) (div (Ops := ExtOps E) (lit (Ops := ExtOps E) 2.0) (lit (Ops := ExtOps E) 15.0))) _ 0 0 0 _ Rn).
  ext_ops. rewrite nan_mul_r in Hdl.
  destruct (C40_polar E nf _ _ _ _ _ _ _ _ _ _ _ _ _ _ "utc" Hcell Hdl ltac:(cbn; tauto)) as [(a & Q & R) _].
  destruct I1 as (a' & Q' & R'). rewrite Q in Q'. injection Q' as <-. assert (C := reads_fun _ _ _ _ _ _ R R'). discriminate C.
Qed.
(** Below 66.4 degrees of latitude every time without an offset that the zone shows once is reported. *)
Theorem C57_report_exists : forall now machine w u la lo alg m refraction z, zone_wf z ->
  reading z u = w -> unambiguous z w -> representable u -> In (alg, "numexpr"%string, m) (supported (O := ExtOps E)) ->
  range_ok_for E alg "numexpr" -> (refraction = false \/ alg = "psa"%string \/ alg = "nrel"%string) ->
  -66.4 <= la <= 66.4 -> -180 <= lo < 180 ->
  exists rp, cli now machine (CText w None) (Fin la) (Fin lo) alg refraction z = Ok rp.
Proof.
  intros now machine w u la lo alg m refraction z Hz Hr Ha Ht Hin HE Href Bla Blo.
  destruct (one_cell E Sites u la lo alg (refr_of refraction) "numexpr" m Hin Ht ltac:(lra) Blo) as (sp & Hsp).
  assert (Hi : [Some u] = instants (TAware false (NoZoneAttr z) [Some (w, (w - u)%Z)])) by (cbn; do 2 f_equal; lia).
  destruct (call_aware_ctor (O := ExtOps E) true Sites (TAware false (NoZoneAttr z) [Some (w, (w - u)%Z)]) (Scalar (Fin la)) (Scalar (Fin lo)) alg (refr_of refraction) "numexpr" sp) as [_ Hc].
  { rewrite <- Hi. exact (proj1 (proj1 Hsp)). } { discriminate. }
  assert (Ect : ctor_times (TAware false (NoZoneAttr z) [Some (w, (w - u)%Z)]) = Ok ("UTC"%string, [Some w], [Some w])).
  { unfold ctor_times. cbn [walls rbind]. rewrite tz_localize_utc. reflexivity. }
  destruct (Hc _ _ _ Ect) as (sw & Hsw & _).
  assert (Hcell : evaluated_cell E Sites (TAware false (NoZoneAttr z) [Some (w, w - u)%Z]) (Scalar (Fin la)) (Scalar (Fin lo)) alg (refr_of refraction) "numexpr" sw 0 0 0 u la lo).
  { split; [split; [exact Hsw|split; [|exact Ht]]|split; reflexivity]. rewrite <- Hi. reflexivity. }
  destruct (C37_midlatitudes E nf _ _ _ _ _ _ _ _ _ _ _ _ _ _ Hcell Bla) as (a & ww & dl & _ & _ & Hdl & _).
  destruct (C40_sunrise_sunset_times E nf _ _ _ _ _ _ _ _ _ _ _ _ _ _ _ Hcell Hdl) as (u0 & w0 & tst & rt & ru & rl & st & su & sl & _ & _ & _ & _ & _ & I1 & I2 & I3 & I4 & _).
  destruct (cell_data E _ _ _ _ _ _ _ _ _ _ _ _ _ _ Hcell) as (_ & _ & _ & _ & (dd & Hd & _) & (e & He & _) & _).
  destruct (C25_ecf_bound E _ _ _ _ _ _ _ _ _ _ (proj1 Hcell)) as (f & Hf & _).
  destruct (C20_azimuth_range_partial E _ _ _ _ _ _ _ _ _ _ _ _ _ _ HE Hcell) as (az & Hz' & _).
  assert (exists zr, value (sp_zenith sw) (idx Sites 0 0 0) zr) as (zr & Hzr).
  { destruct Href as [-> | Href].
    - destruct (C18_zenith_range_partial E _ _ _ _ _ _ _ _ _ _ _ _ _ _ HE (eq_refl : is_True (refr_of false) = false) Hcell) as (zr & Hzr & _). now exists zr.
    - destruct refraction.
      + destruct (C19_refracted_range_partial E _ _ _ _ _ _ _ _ _ _ _ _ _ _ Href HE (eq_refl : is_True (refr_of true) = true) Hcell) as (zr & Hzr & _). now exists zr.
      + destruct (C18_zenith_range_partial E _ _ _ _ _ _ _ _ _ _ _ _ _ _ HE (eq_refl : is_True (refr_of false) = false) Hcell) as (zr & Hzr & _). now exists zr. }
  assert (Rz : reads (zenith sw) 0 0 0 (Fin (zr * (180 / PI)))).
  { apply (zenith_raw E Sites _ _ _ _ _ _ sw 0 0 0 Hsw). now rewrite deg_rad. }
  assert (Raz : reads (azimuth sw) 0 0 0 (Fin (az * (180 / PI)))).
  { apply (azimuth_raw E Sites _ _ _ _ _ _ sw 0 0 0 Hsw). now rewrite deg_rad. }
  assert (Rf : reads (Sunpos.ecf sw) 0 0 0 (Fin f)) by exact Hf.
  assert (Rel := proj1 (C32_elevation_cosz E _ _ _ _ _ _ _ _ _ _ _ _ Hsw Rz)).
  eexists. unfold at_command, calculate_position. cbv zeta. rewrite (localize_raise_intro z w u Hz Hr Ha). cbn [rbind].
  change (call (O := ExtOps E) true Sites) with (sites (O := ExtOps E) true) in Hsw. unfold refr_of in Hsw. rewrite Hsw. cbn [rbind].
  rewrite (instant_intro _ _ I1), (instant_intro _ _ I2), (instant_intro _ _ I3), (instant_intro _ _ I4). cbn [rbind].
  unfold Sunpos.dec, Sunpos.sza, Sunpos.saa.
  rewrite (proj2 (item_reads _ _) He), (proj2 (item_reads _ _) Hd), (proj2 (item_reads _ _) Rf), (proj2 (item_reads _ _) Rz), (proj2 (item_reads _ _) Rel), (proj2 (item_reads _ _) Raz).
  cbn [rbind num guard clock]. reflexivity.
Qed.
End Report.

(** ** Concrete commands meeting the hypotheses *)
(** A zone one hour ahead of UTC. *)
Definition plus1 : zone := {| z_offset := fun _ => 3600000000000%Z; z_offsets := [3600000000000%Z] |}.
Lemma plus1_wf : zone_wf plus1. Proof. intros u. cbn. tauto. Qed.
Lemma utc_wf : zone_wf utc_zone. Proof. intros u. cbn. tauto. Qed.
Lemma plus1_once w : unambiguous plus1 w. Proof. intros u v. unfold reading. cbn. lia. Qed.
Lemma utc_once w : unambiguous utc_zone w. Proof. intros u v. unfold reading. cbn. lia. Qed.
Lemma ne_in alg : (alg = "psa" \/ alg = "soltrack" \/ alg = "iqbal" \/ alg = "nrel")%string ->
  exists m, In (alg, "numexpr"%string, m) (supported (O := ExtOps ideal_env)).
Proof. intros [-> |[-> |[-> | ->]]]; eexists; cbn; [right; left|do 3 right; left|do 5 right; left|do 6 right; left]; reflexivity. Qed.
Lemma cli_ok nf now machine w u la lo alg z : zone_wf z -> reading z u = w -> unambiguous z w -> representable u ->
  (alg = "psa" \/ alg = "soltrack" \/ alg = "iqbal" \/ alg = "nrel")%string -> -66.4 <= la <= 66.4 -> -180 <= lo < 180 ->
  exists rp, at_command ideal_env nf now machine (CText w None) (Fin la) (Fin lo) alg false z = Ok rp.
Proof.
  intros Hz Hr Ha Ht Hal B1 B2. destruct (ne_in alg Hal) as (m & Hin).
  exact (C57_report_exists ideal_env nf now machine w u la lo alg m false z Hz Hr Ha Ht Hin (or_introl (or_introl ideal_ideal)) (or_introl eq_refl) B1 B2).
Qed.

(** C49: machine clock one hour ahead of UTC, the default zone: a report is printed, for the wrong instant. *)
Example C49_example : forall nf alg, (alg = "psa" \/ alg = "soltrack" \/ alg = "iqbal" \/ alg = "nrel")%string ->
  exists rp, at_command ideal_env nf w_t plus1 CNow (Fin 40) (Fin (-3)) alg false utc_zone = Ok rp /\
    z_offset utc_zone w_t <> z_offset plus1 w_t.
Proof.
  intros nf alg Hal. destruct (cli_ok nf w_t plus1 (w_t + 3600000000000)%Z (w_t + 3600000000000)%Z 40 (-3) alg utc_zone utc_wf) as (rp & H); auto using utc_once; try lra.
  { unfold representable. cbn. lia. }
  exists rp. split; [|discriminate]. exact H.
Qed.
(** C56: in a zone one hour ahead of UTC the two sunrises shown are the same time of day. *)
Example C56_example : forall nf now machine alg, (alg = "psa" \/ alg = "soltrack" \/ alg = "iqbal" \/ alg = "nrel")%string ->
  exists rp, at_command ideal_env nf now machine (CText (w_t + 3600000000000)%Z None) (Fin 40) (Fin (-3)) alg false plus1 = Ok rp /\
    rp_sunrise_local rp = rp_sunrise_utc rp /\ z_offset plus1 w_t = 3600000000000%Z.
Proof.
  intros nf now machine alg Hal. destruct (cli_ok nf now machine (w_t + 3600000000000)%Z w_t 40 (-3) alg plus1 plus1_wf) as (rp & H); auto using plus1_once; try lra.
  { exact w_t_representable. }
  exists rp. split; [exact H|]. split; [|reflexivity]. now apply (C56_same_clock_refuted _ _ _ _ _ _ _ _ _ _ _ H).
Qed.
(** C48: 13 April 2024, 12:00 UTC: the equation of time of iqbal is about -0.2 min, and shown as positive. *)
Lemma iqbal_time y : (86400 * gregorian y 1 1 <= 1713009600 < 86400 * gregorian (y + 1) 1 1)%Z -> y = 2024%Z.
Proof. unfold gregorian, before_month, jan1. cbn [Z.ltb Z.compare Pos.compare Pos.compare_cont andb]. rewrite !andb_false_r. intros H. Z.div_mod_to_equations. lia. Qed.
Example C48_example : forall nf now machine, exists rp e,
  at_command ideal_env nf now machine (CText 1713009600000000000 None) (Fin 40) (Fin (-3)) "iqbal" false utc_zone = Ok rp /\
  rp_eot rp = (eot_min e, eot_sec e) /\ -0.5 < e < -0.1 /\ 0 <= shown_minutes (rp_eot rp) /\ 0.1 < shown_minutes (rp_eot rp) - e.
Proof.
  intros nf now machine.
  assert (Hrep : representable 1713009600000000000) by (unfold representable; lia).
  destruct (cli_ok nf now machine 1713009600000000000%Z 1713009600000000000%Z 40 (-3) "iqbal" utc_zone utc_wf) as (rp & H); auto using utc_once; try lra.
  destruct (C59_report _ _ _ _ _ _ _ _ _ _ _ utc_wf H) as (u & sp & zd & el & ad & dd & f & e & _ & Hr & _ & Hsp & _ & _ & _ & _ & _ & Re & _ & _ & _ & _ & _ & Ee).
  cbn [asked] in Hr. assert (u = 1713009600000000000)%Z as -> by (unfold reading in Hr; cbn in Hr; lia).
  destruct (C30_iqbal_series ideal_env Sites _ _ _ _ _ _ 0 1713009600000000000 _ gregorian_calendar (conj Hsp (conj eq_refl Hrep))) as (y & By & _ & He & _).
  change (1713009600000000000 / 1000000000)%Z with 1713009600%Z in *. assert (Hy := iqbal_time y By). subst y.
  assert (E1 : e = iqbal_eot (2 * PI * year_day gregorian 2024 1713009600 / 365)).
  { unfold value in He. unfold reads in Re. cbn in Re. cbn in He. rewrite He in Re. now injection Re as <-. }
  assert (E2 : year_day gregorian 2024 1713009600 = 104.5).
  { unfold year_day. change (1713009600 - 86400 * gregorian 2024 1 1)%Z with 8942400%Z. lra. }
  rewrite E2 in E1. assert (Be : -0.5 < e < -0.1) by (rewrite E1; unfold iqbal_eot; split; interval).
  exists rp, e. split; [exact H|]. split; [exact Ee|]. split; [exact Be|]. rewrite Ee.
  assert (Et : Ztrunc e = 0%Z). { rewrite Ztrunc_ceil by lra. apply Zceil_imp. change (0 - 1)%Z with (-1)%Z. lra. }
  unfold shown_minutes, eot_min. rewrite Et. cbn [Z.ltb Z.compare].
  assert (0 <= IZR (eot_sec e) / 600); [|lra]. apply Rmult_le_pos; [|lra]. apply IZR_le. unfold eot_sec, fixed.
  assert (Rabs e - IZR (Zfloor (Rabs e)) >= 0) by (assert (Zf := Zfloor_lb (Rabs e)); lra).
  eapply Z.le_trans; [|apply Znearest_ge_floor]. apply Zfloor_lub. change (IZR 0) with 0. change (10 ^ 1)%Z with 10%Z. nra.
Qed.
(** C57: 80N on 21 June 2024, 10:00 UTC (polar day). *)
Lemma june_time y : (86400 * gregorian y 1 1 <= w_t / 1000000000 < 86400 * gregorian (y + 1) 1 1)%Z -> y = 2024%Z.
Proof. change (w_t / 1000000000)%Z with 1718964000%Z. unfold gregorian, before_month, jan1. cbn [Z.ltb Z.compare Pos.compare Pos.compare_cont andb]. rewrite !andb_false_r. intros H. Z.div_mod_to_equations. lia. Qed.
Example C57_example : forall nf now machine, exists sp dd,
  call (O := ExtOps ideal_env) true Sites (at_times [Some w_t]) (Scalar (Fin 80)) (Scalar (Fin (-3))) "iqbal" (refr_of false) "numexpr" = Ok sp /\
  reads (Sunpos.declination (O := ExtOps ideal_env) sp) 0 0 0 (Fin dd) /\ ~ has_horizon_crossing (rad 80) (rad dd) /\
  at_command ideal_env nf now machine (CText w_t None) (Fin 80) (Fin (-3)) "iqbal" false utc_zone = Raise SystemExit1.
Proof.
  intros nf now machine. destruct (ne_in "iqbal" ltac:(tauto)) as (m & Hin).
  destruct (one_cell ideal_env Sites w_t 80 (-3) "iqbal" (refr_of false) "numexpr" m Hin w_t_representable ltac:(lra) ltac:(lra)) as (sp & Hsp).
  destruct (C30_iqbal_series ideal_env Sites _ _ _ _ _ _ 0 w_t _ gregorian_calendar (proj1 Hsp)) as (y & By & Hd & _).
  assert (Hy := june_time y By). subst y.
  assert (E2 : year_day gregorian 2024 (w_t / 1000000000) = 173 + 10 / 24).
  { unfold year_day. change (w_t / 1000000000 - 86400 * gregorian 2024 1 1)%Z with 14896800%Z. lra. }
  rewrite E2 in Hd. set (d := iqbal_dec _) in Hd. assert (Bd : 0.4 < d < 0.41) by (unfold d, iqbal_dec; split; interval). clearbody d.
  assert (Rd : reads (Sunpos.declination (O := ExtOps ideal_env) sp) 0 0 0 (Fin (d * (180 / PI)))).
  { apply (declination_raw ideal_env sp 0 0 0). now rewrite deg_rad. }
  assert (Hn : ~ has_horizon_crossing (rad 80) (rad (d * (180 / PI)))).
  { rewrite deg_rad. intros (h & Hh). unfold sun_U, rad in Hh.
    assert (B := COS_bound h). assert (0.36 < sin (80 * (PI / 180)) * sin d) by interval.
    assert (0 < cos (80 * (PI / 180)) * cos d < 0.2) by (split; interval). nra. }
  exists sp, (d * (180 / PI)). split; [exact (proj1 (proj1 Hsp))|]. split; [exact Rd|]. split; [exact Hn|].
  apply (C57_polar_refuted ideal_env nf now machine (CText w_t None) 80 (-3) "iqbal" false utc_zone w_t sp (d * (180 / PI)) utc_wf); auto using w_t_representable.
  - exact (proj1 (proj1 Hsp)).
  - lra.
Qed.
