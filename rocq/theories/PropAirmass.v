(** * PropAirmass: air mass grows and irradiance falls as the sun sinks (C88, C89)

    The cells compared may belong to different calls: other times, places, engines, algorithms, with or without refraction. *)
From Coq Require Import ZArith QArith Reals Bool List String Lra Lia.
From Flocq Require Import Core.Raux.
From Interval Require Import Tactic.
From Verif Require Import Num Arrays Libspa Time Core Usecases Spec GenericLemmas GenericLemmas2 TimeLemmas Ext ExtLemmas Witness
  AstroTac Sky SkyClose AstroSpec Astro AstroCell AstroCall Float32 PropAstro Sunpos SunposSpec SunposLemmas SunposR PropSunpos SunposCells AirmassR
  Double DoubleSpec DoublePos PropDouble PropDoublePos SunposD PropSunposD Float64.
Import ListNotations.
Open Scope R_scope.

(** The documented air mass models, and the documented corrections of the irradiance. *)
Definition airmass_models : list string := ["kasten_1965"; "kasten_and_young_1989"; "gueymard_2001"; "gueymard_2003"]%string.
Definition corrections : list string := ["none"; "perez_1990"; "skarveith_1998"; "gonzalez_and_calbo_1999"]%string.
Lemma models_table name : In name airmass_models -> exists c, In (name, c) am_table.
Proof. intros H. destruct H as [<-|[<-|[<-|[<-|[]]]]]; eexists; cbn; tauto. Qed.

(** ** C88 *)
(** Over the reals: never falls, grows strictly from 2 degrees on. *)
Theorem C88_airmass_grows : forall E uc uc' times times' lat lat' lon lon' alg alg' refr refr' eng eng' sp sp' name a a' k k' j j' i i' zd zd' m m',
  call (O := ExtOps E) true uc times lat lon alg refr eng = Ok sp -> call (O := ExtOps E) true uc' times' lat' lon' alg' refr' eng' = Ok sp' ->
  In name airmass_models -> airmass (O := ExtOps E) sp name = Ok a -> airmass (O := ExtOps E) sp' name = Ok a' ->
  reads (zenith (O := ExtOps E) sp) k j i (Fin zd) -> reads (zenith (O := ExtOps E) sp') k' j' i' (Fin zd') ->
  reads a k j i (Fin m) -> reads a' k' j' i' (Fin m') -> 0 <= zd <= zd' -> zd' <= 90 ->
  m <= m' /\ (2 <= zd -> zd < zd' -> m < m').
Proof.
  intros E uc uc' times times' lat lat' lon lon' alg alg' refr refr' eng eng' sp sp' name a a' k k' j j' i i' zd zd' m m' Hc Hc' Hn Ha Ha' Hz Hz' Hm Hm' B B'.
  destruct (models_table name Hn) as (c & Hin).
  destruct (C35_airmass E _ _ _ _ _ _ _ _ _ _ Hc Hin) as (b & Hb & K). rewrite Ha in Hb. injection Hb as <-. destruct (K _ _ _ _ Hz (proj1 B)) as [_ K1]. destruct (K1 ltac:(lra)) as (x & X & Ex & _).
  destruct (C35_airmass E _ _ _ _ _ _ _ _ _ _ Hc' Hin) as (b & Hb & K'). rewrite Ha' in Hb. injection Hb as <-. destruct (K' _ _ _ _ Hz' ltac:(lra)) as [_ K2]. destruct (K2 ltac:(lra)) as (x' & X' & Ex' & _).
  assert (Y := reads_fun _ _ _ _ _ _ Hm X). injection Y as <-. assert (Y := reads_fun _ _ _ _ _ _ Hm' X'). injection Y as <-.
  fold (am c zd) in Ex. fold (am c zd') in Ex'. rewrite Ex, Ex'. split; [now apply (am_mono name)|]. intros H2 H3. assert (S := am_strict name c zd zd' Hin ltac:(lra) B'). lra.
Qed.

(** In binary64. *)
Section Double.
Variable D : Env64.
Notation zenith := (zenith (O := DoubleOps D)).
Notation eth := (Sunpos.eth (O := DoubleOps D)).
Notation airmass := (Sunpos.airmass (O := DoubleOps D)).

Lemma am_read uc times lat lon alg refr eng sp name c a k j i zd m : double_like D -> call (O := DoubleOps D) true uc times lat lon alg refr eng = Ok sp ->
  In (name, c) am_table -> airmass sp name = Ok a -> reads (zenith sp) k j i (Fin zd) -> reads a k j i (Fin m) -> 0 <= zd <= 90 -> Rabs (m - am c zd) <= / 10 ^ 10.
Proof.
  intros HD Hc Hin Ha Hz Hm B. destruct (C75_airmass D _ _ _ _ _ _ _ _ _ _ HD Hc Hin) as (b & Hb & K). rewrite Ha in Hb. injection Hb as <-. destruct (K _ _ _ _ Hz ltac:(lra)) as [_ K1]. destruct (K1 ltac:(lra)) as (x & X & _ & Ex).
  assert (Y := reads_fun _ _ _ _ _ _ Hm X). injection Y as <-. exact Ex.
Qed.
Theorem C88_airmass_grows_double : forall uc uc' times times' lat lat' lon lon' alg alg' refr refr' eng eng' sp sp' name a a' k k' j j' i i' zd zd' m m',
  double_like D -> call (O := DoubleOps D) true uc times lat lon alg refr eng = Ok sp -> call (O := DoubleOps D) true uc' times' lat' lon' alg' refr' eng' = Ok sp' ->
  In name airmass_models -> airmass sp name = Ok a -> airmass sp' name = Ok a' ->
  reads (zenith sp) k j i (Fin zd) -> reads (zenith sp') k' j' i' (Fin zd') ->
  reads a k j i (Fin m) -> reads a' k' j' i' (Fin m') -> 0 <= zd <= zd' -> zd' <= 90 ->
  m <= m' + 2 / 10 ^ 10 /\ (2 <= zd -> zd + 0.0001 <= zd' -> m < m').
Proof.
  intros uc uc' times times' lat lat' lon lon' alg alg' refr refr' eng eng' sp sp' name a a' k k' j j' i i' zd zd' m m' HD Hc Hc' Hn Ha Ha' Hz Hz' Hm Hm' B B'.
  destruct (models_table name Hn) as (c & Hin).
  assert (X := am_read _ _ _ _ _ _ _ _ _ _ _ _ _ _ _ _ HD Hc Hin Ha Hz Hm ltac:(lra)). assert (X' := am_read _ _ _ _ _ _ _ _ _ _ _ _ _ _ _ _ HD Hc' Hin Ha' Hz' Hm' ltac:(lra)).
  apply Rabs_le_inv in X, X'. split; [assert (M := am_mono name c zd zd' Hin B B'); lra|]. intros H2 H3. assert (S := am_strict name c zd zd' Hin ltac:(lra) B'). lra.
Qed.

(** With the sun within 1 degree of the zenith the air mass is 1; it is never above 1 / cos z, and within 0.4% of it above 30 degrees of elevation. *)
Theorem C88_secant : forall uc times lat lon alg refr eng sp name a k j i zd m,
  double_like D -> call (O := DoubleOps D) true uc times lat lon alg refr eng = Ok sp ->
  In name airmass_models -> airmass sp name = Ok a -> reads (zenith sp) k j i (Fin zd) -> reads a k j i (Fin m) ->
  (0 <= zd <= 1 -> 1 <= m <= 1 + / 10 ^ 10) /\ (0 <= zd < 90 -> m <= 1 / cos (rad zd) + / 10 ^ 10) /\ (0 <= zd <= 60 -> 0.996 / cos (rad zd) - / 10 ^ 10 <= m).
Proof.
  intros uc times lat lon alg refr eng sp name a k j i zd m HD Hc Hn Ha Hz Hm. destruct (models_table name Hn) as (c & Hin).
  assert (X := fun B => am_read _ _ _ _ _ _ _ _ _ _ _ _ _ _ _ _ HD Hc Hin Ha Hz Hm B).
  destruct (C75_airmass D _ _ _ _ _ _ _ _ _ _ HD Hc Hin) as (b & Hb & K). rewrite Ha in Hb. injection Hb as <-.
  split; [|split]; intros B; specialize (X ltac:(lra)); apply Rabs_le_inv in X.
  - destruct (K _ _ _ _ Hz ltac:(lra)) as [_ K1]. destruct (K1 ltac:(lra)) as (x & X2 & Bx & _). assert (Y := reads_fun _ _ _ _ _ _ Hm X2). injection Y as <-. rewrite (am_flat name c zd Hin B) in X. lra.
  - assert (S := am_secant name c zd Hin B). lra.
  - assert (S := am_high name c zd Hin B). lra.
Qed.

(** Two models, same zenith angle: within 0.5% down to 5 degrees of elevation, within 6% down to the horizon. *)
Theorem C88_models_agree : forall uc times lat lon alg refr eng sp name name' a a' k j i zd m m',
  double_like D -> call (O := DoubleOps D) true uc times lat lon alg refr eng = Ok sp ->
  In name airmass_models -> In name' airmass_models -> airmass sp name = Ok a -> airmass sp name' = Ok a' ->
  reads (zenith sp) k j i (Fin zd) -> reads a k j i (Fin m) -> reads a' k j i (Fin m') -> 0 <= zd <= 90 ->
  m <= 1.06 * m' + 3 / 10 ^ 10 /\ (zd <= 85 -> m <= 1.005 * m' + 3 / 10 ^ 10).
Proof.
  intros uc times lat lon alg refr eng sp name name' a a' k j i zd m m' HD Hc Hn Hn' Ha Ha' Hz Hm Hm' B. destruct (models_table name Hn) as (c & Hin). destruct (models_table name' Hn') as (c' & Hin').
  assert (X := am_read _ _ _ _ _ _ _ _ _ _ _ _ _ _ _ _ HD Hc Hin Ha Hz Hm B). assert (X' := am_read _ _ _ _ _ _ _ _ _ _ _ _ _ _ _ _ HD Hc Hin' Ha' Hz Hm' B). apply Rabs_le_inv in X, X'.
  destruct (am_agree _ _ _ _ zd Hin Hin' B) as [A1 A2]. split; [lra|]. intros H. specialize (A2 H). lra.
Qed.

(** ** C89: with a solar constant [s], an eccentricity no smaller and the sun no lower, the irradiance is no smaller *)
Lemma eth_read uc times lat lon alg refr eng sp k j i t la lo zd s corr e x f :
  double_like D -> evaluated_cell64 D uc times lat lon alg refr eng sp k j i t la lo -> reads (zenith sp) k j i (Fin zd) -> 0 <= zd <= 90 -> 1 <= s <= 100000 ->
  In corr corrections -> eth sp (Fin s) corr = Ok e -> reads e k j i (Fin x) -> reads (ecf sp) k j i (Fin f) ->
  0.9599 <= f <= 1.0401 /\ 0 <= cor corr zd <= 1.02 /\ Rabs (x - s * f * (cos (rad zd) * cor corr zd)) <= 4 / 10 ^ 11 * s.
Proof.
  intros HD C Hz B Bs Hin He Hx Hf. assert (Hc := proj1 (proj1 C)).
  destruct (C74_eth D _ _ _ _ _ _ _ _ _ _ _ _ _ _ _ _ HD C Hz ltac:(apply Rabs_le; lra) Bs) as (e0 & f' & x0 & He0 & Hx0 & Hf' & Bf & P0 & E0 & _).
  assert (Y := reads_fun _ _ _ _ _ _ Hf Hf'). injection Y as <-. split; [exact Bf|].
  assert (Cz : 0 <= cos (rad zd) <= 1) by (split; [apply (cosd_falls zd zd); lra|apply COS_bound]). rewrite Rmax_right in E0 by lra. apply Rabs_le_inv in E0.
  assert (Sf : 0.9599 * s <= s * f <= 1.0401 * s) by nra. assert (Q : 0 <= s * f * cos (rad zd) <= 1.0401 * s) by nra.
  destruct (C74_corrected_eth D _ _ _ _ _ _ _ _ _ _ _ _ _ _ _ _ HD C Hz B Bs) as (e0' & x0' & a1 & a2 & m1 & m2 & He0' & Hx0' & Ha1 & Hm1 & Ha2 & Hm2 & K).
  rewrite He0 in He0'. injection He0' as <-. assert (Y := reads_fun _ _ _ _ _ _ Hx0 Hx0'). injection Y as <-.
  assert (I1 : In ("kasten_and_young_1989"%string, (0.50572, 0, 96.07995, 1.6364)) am_table) by (cbn; tauto). assert (I2 : In ("gueymard_2003"%string, (0.48353, 0.095846, 96.741, 1.754)) am_table) by (cbn; tauto).
  assert (M1 := am_read _ _ _ _ _ _ _ _ _ _ _ _ _ _ _ _ HD Hc I1 Ha1 Hz Hm1 B). assert (M2 := am_read _ _ _ _ _ _ _ _ _ _ _ _ _ _ _ _ HD Hc I2 Ha2 Hz Hm2 B).
  assert (R1 := am_range _ _ zd I1 B). assert (R2 := am_range _ _ zd I2 B).
  assert (G : forall c cc, 0 <= cc <= 1.02 -> Rabs (c - cc) <= 2 / 10 ^ 11 -> Rabs (x - x0 * c) <= 2 / 10 ^ 12 * x0 + / 10 ^ 25 -> Rabs (x - s * f * (cos (rad zd) * cc)) <= 4 / 10 ^ 11 * s).
  { intros c cc Bc Ec Ex. apply Rabs_le_inv in Ec, Ex. set (q := s * f * cos (rad zd)) in *. replace (s * f * (cos (rad zd) * cc)) with (q * cc) by (unfold q; ring).
    assert (T : - (2.1 / 10 ^ 11 * s) <= q * (c - cc) <= 2.1 / 10 ^ 11 * s) by (split; nra).
    assert (T2 : - (6 / 10 ^ 15 * s) <= (x0 - q) * c <= 6 / 10 ^ 15 * s).
    { assert (-0.1 <= c <= 1.1) by lra. split; nra. }
    replace (x - q * cc) with ((x - x0 * c) + (x0 - q) * c + q * (c - cc)) by ring. apply Rabs_le. lra. }
  assert (Lip : forall g, (forall u v, 1 <= u -> u <= v -> v <= 39.1 -> - 0.2 * (v - u) <= g v - g u <= 0.2 * (v - u)) -> forall m w, 1 <= m -> 1 <= w <= 39 -> Rabs (m - w) <= / 10 ^ 10 -> Rabs (g m - g w) <= 2 / 10 ^ 11).
  { intros g Hg m w Bm Bw E. apply Rabs_le_inv in E. apply Rabs_le. destruct (Rle_dec m w) as [L|L]; [assert (U := Hg m w ltac:(lra) L ltac:(lra))|assert (U := Hg w m ltac:(lra) ltac:(lra) ltac:(lra))]; lra. }
  assert (B1 : 1 <= m1). { destruct (C75_airmass D _ _ _ _ _ _ _ _ _ _ HD Hc I1) as (b & Hb & V). rewrite Ha1 in Hb. injection Hb as <-. destruct (V _ _ _ _ Hz ltac:(lra)) as [_ V1]. destruct (V1 ltac:(lra)) as (y & Y1 & Y2 & _). assert (Y := reads_fun _ _ _ _ _ _ Hm1 Y1). injection Y as <-. lra. }
  assert (B2 : 1 <= m2). { destruct (C75_airmass D _ _ _ _ _ _ _ _ _ _ HD Hc I2) as (b & Hb & V). rewrite Ha2 in Hb. injection Hb as <-. destruct (V _ _ _ _ Hz ltac:(lra)) as [_ V1]. destruct (V1 ltac:(lra)) as (y & Y1 & Y2 & _). assert (Y := reads_fun _ _ _ _ _ _ Hm2 Y1). injection Y as <-. lra. }
  destruct Hin as [<-|[<-|[<-|[<-|[]]]]]; unfold cor; cbn [String.eqb Ascii.eqb Bool.eqb].
  - rewrite He in He0. injection He0 as <-. assert (Y := reads_fun _ _ _ _ _ _ Hx Hx0). injection Y as ->. split; [lra|]. apply (G 1 1); [lra|rewrite Rminus_eq_0, Rabs_R0; lra|]. rewrite Rmult_1_r, Rminus_eq_0, Rabs_R0. lra.
  - destruct (K "perez_1990"%string _ (or_introl eq_refl)) as (_ & e' & x' & He' & Hx' & Ex). rewrite He in He'. injection He' as <-. assert (Y := reads_fun _ _ _ _ _ _ Hx Hx'). injection Y as <-.
    assert (Bp := perez_bounds _ R1). split; [lra|]. apply (G (perez m1)); [lra| |exact Ex]. apply Lip; [|assumption..]. intros u v U V V'. assert (S := perez_slope u v U V V'). lra.
  - destruct (K "skarveith_1998"%string _ (or_intror (or_introl eq_refl))) as (_ & e' & x' & He' & Hx' & Ex). rewrite He in He'. injection He' as <-. assert (Y := reads_fun _ _ _ _ _ _ Hx Hx'). injection Y as <-.
    assert (Bp := skartveit_bounds _ B). split; [lra|]. apply (G (skartveit zd)); [lra|rewrite Rminus_eq_0, Rabs_R0; lra|exact Ex].
  - destruct (K "gonzalez_and_calbo_1999"%string _ (or_intror (or_intror (or_introl eq_refl)))) as (_ & e' & x' & He' & Hx' & Ex). rewrite He in He'. injection He' as <-. assert (Y := reads_fun _ _ _ _ _ _ Hx Hx'). injection Y as <-.
    assert (Bp := gonzalez_bounds _ R2). split; [lra|]. apply (G (gonzalez_calbo m2)); [lra| |exact Ex]. apply Lip; [|assumption..]. intros u v U V V'. exact (gonz_slope u v U V V').
Qed.
Theorem C89_irradiance_falls : forall uc uc' times times' lat lat' lon lon' alg alg' refr refr' eng eng' sp sp' k k' j j' i i' t t' la la' lo lo' zd zd' s corr e e' x x' f f',
  double_like D -> evaluated_cell64 D uc times lat lon alg refr eng sp k j i t la lo -> evaluated_cell64 D uc' times' lat' lon' alg' refr' eng' sp' k' j' i' t' la' lo' ->
  reads (zenith sp) k j i (Fin zd) -> reads (zenith sp') k' j' i' (Fin zd') -> 0 <= zd <= zd' -> zd' <= 90 -> 1 <= s <= 100000 ->
  In corr corrections -> eth sp (Fin s) corr = Ok e -> eth sp' (Fin s) corr = Ok e' -> reads e k j i (Fin x) -> reads e' k' j' i' (Fin x') ->
  reads (ecf sp) k j i (Fin f) -> reads (ecf sp') k' j' i' (Fin f') -> f' <= f ->
  x' <= x + s / 10 ^ 10.
Proof.
  intros uc uc' times times' lat lat' lon lon' alg alg' refr refr' eng eng' sp sp' k k' j j' i i' t t' la la' lo lo' zd zd' s corr e e' x x' f f' HD C C' Hz Hz' B B' Bs Hin He He' Hx Hx' Hf Hf' Hff.
  destruct (eth_read _ _ _ _ _ _ _ _ _ _ _ _ _ _ _ _ _ _ _ _ HD C Hz ltac:(lra) Bs Hin He Hx Hf) as (F1 & P1 & X1).
  destruct (eth_read _ _ _ _ _ _ _ _ _ _ _ _ _ _ _ _ _ _ _ _ HD C' Hz' ltac:(lra) Bs Hin He' Hx' Hf') as (F2 & P2 & X2).
  assert (U := unit_irradiance_falls corr zd zd' B B'). assert (V : 0 <= cos (rad zd') * cor corr zd') by (apply Rmult_le_pos; [apply (cosd_falls zd' zd'); lra|lra]).
  set (p := cos (rad zd) * cor corr zd) in *. set (p' := cos (rad zd') * cor corr zd') in *.
  assert (s * f' * p' <= s * f * p). { rewrite !Rmult_assoc. apply Rmult_le_compat_l; [lra|]. apply Rmult_le_compat; lra. }
  apply Rabs_le_inv in X1, X2. lra.
Qed.
End Double.

(** ** The hypotheses are met: 10:00 UTC on the equator, at 3 and at 43 degrees west *)
Lemma two_cells uc : exists sp sp' zd zd' f,
  evaluated_cell64 float64_env uc (at_times [Some w_t]) (Scalar (Fin 0)) (Scalar (Fin (-3))) "psa" RFalse "numpy" sp 0 0 0 w_t 0 (-3) /\
  evaluated_cell64 float64_env uc (at_times [Some w_t]) (Scalar (Fin 0)) (Scalar (Fin (-43))) "psa" RFalse "numpy" sp' 0 0 0 w_t 0 (-43) /\
  reads (zenith (O := DoubleOps float64_env) sp) 0 0 0 (Fin zd) /\ reads (zenith (O := DoubleOps float64_env) sp') 0 0 0 (Fin zd') /\
  20 <= zd <= 50 /\ 60 <= zd' <= 85 /\ reads (ecf sp) 0 0 0 (Fin f) /\ reads (ecf sp') 0 0 0 (Fin f).
Proof.
  assert (HD := float64_like). assert (P : 3.14159 <= PI <= 3.1416) by (split; interval). assert (Q : 57.29 <= 180 / PI <= 57.3) by (split; interval).
  destruct (cell_cosz64 uc (-3) ltac:(lra)) as (sp & z & d & eot & C & Vz & Bz & Bd & Be & Ec). destruct (cell_cosz64 uc (-43) ltac:(lra)) as (sp' & z' & d' & eot' & C' & Vz' & Bz' & Bd' & Be' & Ec').
  exists sp, sp', (r64 float64_env (z * degc float64_env)), (r64 float64_env (z' * degc float64_env)).
  destruct (cell_data64 _ _ _ _ _ _ _ _ _ _ _ _ _ _ _ HD C) as (_ & _ & _ & _ & _ & _ & (f & Hf & _) & _). exists f.
  apply (zenith_raw64 _ _ _ _ _ _ _ _ _ _ _ _ _ (proj1 (proj1 C))) in Vz. apply (zenith_raw64 _ _ _ _ _ _ _ _ _ _ _ _ _ (proj1 (proj1 C'))) in Vz'.
  split; [exact C|]. split; [exact C'|]. split; [apply (zenith_of _ HD); [apply Rabs_le; lra|exact Vz]|]. split; [apply (zenith_of _ HD); [apply Rabs_le; lra|exact Vz']|].
  assert (G := deg_close64 float64_env z HD ltac:(apply Rabs_le; lra)). assert (G' := deg_close64 float64_env z' HD ltac:(apply Rabs_le; lra)). apply Rabs_le_inv in G, Bd, Be, Ec, G', Bd', Be', Ec'.
  split; [|split; [|split; [exact Hf|]]].
  - assert (K : 0.715 <= cos d * cos ((-30 + -3 + eot / 4) * (PI / 180)) <= 0.89) by (clear - Bd Be; split; interval).
    assert (Z1 : 0.4 <= z). { apply Rnot_lt_le. intros X. assert (0.92 <= cos z) by (assert (Y : -0.0001 <= z <= 0.4) by lra; clear - Y; interval). lra. }
    assert (Z2 : z <= 0.85). { apply Rnot_lt_le. intros X. assert (cos z <= 0.67) by (assert (Y : 0.85 <= z <= 3.15) by lra; clear - Y; interval with (i_bisect z)). lra. }
    set (q := 180 / PI) in *. clearbody q. assert (22 <= z * q <= 49) by nra. lra.
  - assert (K : 0.15 <= cos d' * cos ((-30 + -43 + eot' / 4) * (PI / 180)) <= 0.4) by (clear - Bd' Be'; split; interval).
    assert (Z1 : 1.1 <= z'). { apply Rnot_lt_le. intros X. assert (0.45 <= cos z') by (assert (Y : -0.0001 <= z' <= 1.1) by lra; clear - Y; interval with (i_bisect z')). lra. }
    assert (Z2 : z' <= 1.45). { apply Rnot_lt_le. intros X. assert (cos z' <= 0.13) by (assert (Y : 1.45 <= z' <= 3.15) by lra; clear - Y; interval with (i_bisect z')). lra. }
    set (q := 180 / PI) in *. clearbody q. assert (62 <= z' * q <= 84) by nra. lra.
  - destruct (dispatch_lemma (O := DoubleOps float64_env) true _ _ _ _ _ _ _ sp _ 0 w_t NaN NaN (proj1 (proj1 C)) (or_introl eq_refl) eq_refl) as (H & _).
    destruct (dispatch_lemma (O := DoubleOps float64_env) true _ _ _ _ _ _ _ sp' _ 0 w_t NaN NaN (proj1 (proj1 C')) (or_introl eq_refl) eq_refl) as (H' & _).
    unfold reads in *. rewrite ecf_at in *. rewrite H' , <- H. exact Hf.
Qed.
Example C88_example : forall uc name name', In name airmass_models -> In name' airmass_models ->
  double_like float64_env /\ exists sp sp' zd zd' a a' b m m' w,
    call (O := DoubleOps float64_env) true uc (at_times [Some w_t]) (Scalar (Fin 0)) (Scalar (Fin (-3))) "psa" RFalse "numpy" = Ok sp /\
    call (O := DoubleOps float64_env) true uc (at_times [Some w_t]) (Scalar (Fin 0)) (Scalar (Fin (-43))) "psa" RFalse "numpy" = Ok sp' /\
    airmass (O := DoubleOps float64_env) sp name = Ok a /\ airmass (O := DoubleOps float64_env) sp' name = Ok a' /\ airmass (O := DoubleOps float64_env) sp' name' = Ok b /\
    reads (zenith (O := DoubleOps float64_env) sp) 0 0 0 (Fin zd) /\ reads (zenith (O := DoubleOps float64_env) sp') 0 0 0 (Fin zd') /\
    reads a 0 0 0 (Fin m) /\ reads a' 0 0 0 (Fin m') /\ reads b 0 0 0 (Fin w) /\ 2 <= zd /\ zd + 0.0001 <= zd' /\ zd' <= 85 /\
    m < m' /\ m' <= 1.005 * w + 3 / 10 ^ 10.
Proof.
  intros uc name name' Hn Hn'. assert (HD := float64_like). split; [exact HD|]. destruct (two_cells uc) as (sp & sp' & zd & zd' & f & C & C' & Hz & Hz' & B & B' & _).
  assert (Hc := proj1 (proj1 C)). assert (Hc' := proj1 (proj1 C')). destruct (models_table name Hn) as (c & Hin). destruct (models_table name' Hn') as (c' & Hin').
  destruct (C75_airmass _ _ _ _ _ _ _ _ _ _ _ HD Hc Hin) as (a & Ha & K1). destruct (proj2 (K1 _ _ _ _ Hz ltac:(lra)) ltac:(lra)) as (m & Hm & _).
  destruct (C75_airmass _ _ _ _ _ _ _ _ _ _ _ HD Hc' Hin) as (a' & Ha' & K2). destruct (proj2 (K2 _ _ _ _ Hz' ltac:(lra)) ltac:(lra)) as (m' & Hm' & _).
  destruct (C75_airmass _ _ _ _ _ _ _ _ _ _ _ HD Hc' Hin') as (b & Hb & K3). destruct (proj2 (K3 _ _ _ _ Hz' ltac:(lra)) ltac:(lra)) as (w & Hw & _).
  exists sp, sp', zd, zd', a, a', b, m, m', w. do 10 (split; [assumption|]). split; [lra|]. split; [lra|]. split; [lra|]. split.
  - apply (proj2 (C88_airmass_grows_double _ _ _ _ _ _ _ _ _ _ _ _ _ _ _ _ _ _ _ _ _ _ _ _ _ _ _ _ _ _ HD Hc Hc' Hn Ha Ha' Hz Hz' Hm Hm' ltac:(lra) ltac:(lra))); lra.
  - apply (proj2 (C88_models_agree _ _ _ _ _ _ _ _ _ _ _ _ _ _ _ _ _ _ _ HD Hc' Hn Hn' Ha' Hb Hz' Hm' Hw ltac:(lra))); lra.
Qed.
Example C89_example : forall uc corr, In corr corrections ->
  double_like float64_env /\ exists sp sp' zd zd' e e' x x' f,
    evaluated_cell64 float64_env uc (at_times [Some w_t]) (Scalar (Fin 0)) (Scalar (Fin (-3))) "psa" RFalse "numpy" sp 0 0 0 w_t 0 (-3) /\
    evaluated_cell64 float64_env uc (at_times [Some w_t]) (Scalar (Fin 0)) (Scalar (Fin (-43))) "psa" RFalse "numpy" sp' 0 0 0 w_t 0 (-43) /\
    reads (zenith (O := DoubleOps float64_env) sp) 0 0 0 (Fin zd) /\ reads (zenith (O := DoubleOps float64_env) sp') 0 0 0 (Fin zd') /\ 0 <= zd <= zd' /\ zd' <= 90 /\
    eth (O := DoubleOps float64_env) sp (Fin 1361.1) corr = Ok e /\ eth (O := DoubleOps float64_env) sp' (Fin 1361.1) corr = Ok e' /\
    reads e 0 0 0 (Fin x) /\ reads e' 0 0 0 (Fin x') /\ reads (ecf sp) 0 0 0 (Fin f) /\ reads (ecf sp') 0 0 0 (Fin f) /\ x' <= x + 1361.1 / 10 ^ 10.
Proof.
  intros uc corr Hin. assert (HD := float64_like). split; [exact HD|]. destruct (two_cells uc) as (sp & sp' & zd & zd' & f & C & C' & Hz & Hz' & B & B' & Hf & Hf').
  assert (G : forall sp lo zd, evaluated_cell64 float64_env uc (at_times [Some w_t]) (Scalar (Fin 0)) (Scalar (Fin lo)) "psa" RFalse "numpy" sp 0 0 0 w_t 0 lo ->
    reads (zenith (O := DoubleOps float64_env) sp) 0 0 0 (Fin zd) -> 0 <= zd <= 90 -> exists e x, eth (O := DoubleOps float64_env) sp (Fin 1361.1) corr = Ok e /\ reads e 0 0 0 (Fin x)).
  { intros s lo z Cs Hs Bz. assert (Bs : 1 <= 1361.1 <= 100000) by lra. destruct (C74_corrected_eth _ _ _ _ _ _ _ _ _ _ _ _ _ _ _ _ _ HD Cs Hs Bz Bs) as (e0 & x0 & a1 & a2 & m1 & m2 & He0 & Hx0 & _ & _ & _ & _ & K).
    destruct Hin as [<-|Hin]; [now exists e0, x0|].
    assert (Hc : exists c, In (corr, c) [("perez_1990", perez m1); ("skarveith_1998", skartveit z); ("gonzalez_and_calbo_1999", gonzalez_calbo m2)]%string) by (destruct Hin as [<-|[<-|[<-|[]]]]; eexists; cbn; eauto).
    destruct Hc as (c & Hc). destruct (K _ _ Hc) as (_ & e & x & He & Hx & _). now exists e, x. }
  destruct (G _ _ _ C Hz ltac:(lra)) as (e & x & He & Hx). destruct (G _ _ _ C' Hz' ltac:(lra)) as (e' & x' & He' & Hx').
  exists sp, sp', zd, zd', e, e', x, x', f. do 4 (split; [assumption|]). split; [lra|]. split; [lra|]. do 6 (split; [assumption|]).
  assert (Bs : 1 <= 1361.1 <= 100000) by lra.
  eapply (C89_irradiance_falls float64_env) with (1 := HD) (2 := C) (3 := C') (4 := Hz) (5 := Hz') (8 := Bs) (9 := Hin) (10 := He) (11 := He') (12 := Hx) (13 := Hx') (14 := Hf) (15 := Hf'); lra.
Qed.
