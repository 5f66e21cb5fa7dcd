(** * PropTools: utils/datetime.py (C46), utils/jpl_horizons.py (C50, C51, C61) and the benchmark (C52, C60) *)

From Coq Require Import ZArith QArith Reals List Bool Arith String Lra Lia.
From Flocq Require Import Core.Raux Core.Generic_fmt Core.Round_NE Core.FLT Core.Defs Core.Zaux Core.Float_prop.
From Verif Require Import Num Arrays Libspa Time Core Usecases Spec PipelineLemmas Ext ExtLemmas Witness Calendar CalendarSpec CalendarLemmas CalendarSweep Cli PropCli Tools.
Import ListNotations.
Open Scope list_scope.
Open Scope Z_scope.

(** ** C46: neither function ever returns *)
Theorem C46_refuted : forall F (O : Ops F) ne Result (after : dict_attr (ndarray F) -> res Result) times longitude,
  (exists e, true_solar_time_util ne Result after times longitude = Raise e) /\
  (exists e, universal_time_coordinated ne Result after times longitude = Raise e).
Proof.
  intros F O ne Result after times longitude. unfold true_solar_time_util, universal_time_coordinated, eot_of, evaluate_dict.
  destruct (evaluate _ _ _ _ _ _ _ _) as [s|e]; cbn; split; eauto.
Qed.
(** ... for valid (1-dim or scalar) times because the dict [evaluate] returns has no attribute [eot]. *)
Theorem C46_attribute_error : forall E Result (after : dict_attr (ndarray ext) -> res Result) times longitude,
  (forall n, times <> TMulti n) ->
  true_solar_time_util (O := ExtOps E) true Result after times longitude = Raise AttributeError /\
  universal_time_coordinated (O := ExtOps E) true Result after times longitude = Raise AttributeError.
Proof.
  intros E Result after times longitude Hm.
  assert (H : exists s, evaluate (O := ExtOps E) true times (Scalar (lit (Ops := ExtOps E) 0)) (Scalar (lit (Ops := ExtOps E) 0)) "psa" 1 RTrue "numexpr" = Ok s).
  { rewrite (evaluate_eq (O := ExtOps E) true) by lia. cbn [module_of]. unfold module_of. cbn [module_table String.eqb Ascii.eqb Bool.eqb].
    assert (Hc : exists ts, check_timelatlon (O := ExtOps E) times (Scalar (lit (Ops := ExtOps E) 0)) (Scalar (lit (Ops := ExtOps E) 0)) 1 = Ok (ts, [lit (Ops := ExtOps E) 0], [lit (Ops := ExtOps E) 0])).
    { unfold check_timelatlon. destruct times as [b l|b z l|n]; [| |now elim (Hm n)]; cbn [to_utc rbind];
        eexists; cbn [elems forallb ndim_of andb Nat.eqb negb guard rbind List.length]; unfold lon_ok, lat_ok; ext_ops;
        rewrite ?lit_Fin; cbn [e_isnan fisnan]; unfold fle, flt; cbn; unfold Rleb, Rltb, e_isnan;
        repeat match goal with |- context [Rle_dec ?a ?b] => destruct (Rle_dec a b) as [?|C]; [|exfalso; apply C; clear; unfold Q2R; cbn; lra] end;
        repeat match goal with |- context [Rlt_dec ?a ?b] => destruct (Rlt_dec a b) as [?|C]; [|exfalso; apply C; clear; unfold Q2R; cbn; lra] end; reflexivity. }
    destruct Hc as (ts & ->). cbn [rbind]. eauto. }
  destruct H as (s & H). unfold true_solar_time_util, universal_time_coordinated, eot_of, evaluate_dict. rewrite H. now split.
Qed.
Example C46_example : forall E Result after, true_solar_time_util (O := ExtOps E) true Result after (at_times [Some 0]) (Scalar (Fin 0)) = Raise AttributeError.
Proof. intros. apply C46_attribute_error. discriminate. Qed.

(** ** C50: the monthly windows *)
Lemma np_leap y : np_is_leapyear y = leap y.
Proof.
  unfold np_is_leapyear, leap. destruct (Z.eqb_spec (y mod 4) 0), (Z.eqb_spec (y mod 100) 0), (Z.eqb_spec (y mod 400) 0); cbn; try reflexivity; exfalso; Z.div_mod_to_equations; lia.
Qed.
Lemma date_to_days_gregorian y m d : 1 <= m <= 12 -> date_to_days y m d = gregorian y m d.
Proof.
  intros Hm. unfold date_to_days, gregorian.
  assert (Hj : (if 0 <=? (y - 1970) * 365 then (y - 1970) * 365 + Z.quot (y - 1970 + 1) 4 - Z.quot (y - 1970 + 69) 100 + Z.quot (y - 1970 + 369) 400
    else (y - 1970) * 365 + Z.quot (y - 1970 - 2) 4 - Z.quot (y - 1970 - 30) 100 + Z.quot (y - 1970 - 30) 400) = jan1 y).
  { unfold jan1. destruct (0 <=? (y - 1970) * 365) eqn:Es; [apply Z.leb_le in Es|apply Z.leb_gt in Es].
    - rewrite !Z.quot_div_nonneg by lia. clear Hm.
      replace ((y - 1970 + 1) / 4) with ((y - 1) / 4 - 492) by (Z.div_mod_to_equations; lia).
      replace ((y - 1970 + 69) / 100) with ((y - 1) / 100 - 19) by (Z.div_mod_to_equations; lia).
      replace ((y - 1970 + 369) / 400) with ((y - 1) / 400 - 4) by (Z.div_mod_to_equations; lia). lia.
    - replace (y - 1970 - 2) with (- (1972 - y)) by ring. replace (y - 1970 - 30) with (- (2000 - y)) by ring. rewrite !Z.quot_opp_l by lia.
      rewrite !Z.quot_div_nonneg by lia. clear Hm.
      replace ((1972 - y) / 4) with (492 - (y - 1) / 4) by (Z.div_mod_to_equations; lia).
      replace ((2000 - y) / 100) with (19 - (y - 1) / 100) by (Z.div_mod_to_equations; lia).
      replace ((2000 - y) / 400) with (4 - (y - 1) / 400) by (Z.div_mod_to_equations; lia). lia. }
  cbv zeta. rewrite Hj. unfold np_days_per_month. rewrite np_leap.
  assert (E : fold_right Z.add 0 (firstn (Z.to_nat (m - 1)) [31; if leap y then 29 else 28; 31; 30; 31; 30; 31; 31; 30; 31; 30; 31]) = before_month y m); [|lia].
  unfold before_month. clear Hj. generalize (leap y). intros l.
  assert (m = 1 \/ m = 2 \/ m = 3 \/ m = 4 \/ m = 5 \/ m = 6 \/ m = 7 \/ m = 8 \/ m = 9 \/ m = 10 \/ m = 11 \/ m = 12) as H by lia.
  repeat destruct H as [->|H]; try subst m; destruct l; reflexivity.
Qed.
(** The first day of the month after (y, m). *)
Definition next_month (c : Z -> Z -> Z -> Z) (y m : Z) : Z := if m =? 12 then c (y + 1) 1 1 else c y (m + 1) 1.
Lemma next_month_gregorian y m : 1 <= m <= 12 -> next_month gregorian y m = gregorian y m 1 + month_length y m.
Proof.
  intros Hm. unfold next_month, gregorian. rewrite jan1_next. unfold year_length, before_month, month_length. generalize (jan1 y). intros j.
  assert (m = 1 \/ m = 2 \/ m = 3 \/ m = 4 \/ m = 5 \/ m = 6 \/ m = 7 \/ m = 8 \/ m = 9 \/ m = 10 \/ m = 11 \/ m = 12) as H by lia.
  repeat destruct H as [->|H]; try subst m; destruct (leap y), (leap (y + 1)); cbn; lia.
Qed.
Lemma month_length_range y m : 28 <= month_length y m <= 31.
Proof. unfold month_length. destruct (m =? 2); [destruct (leap y); lia|]. destruct (_ || _)%bool; lia. Qed.
Lemma next_calendar c y m : calendar c -> 1 <= m <= 12 -> next_month c y m = next_month gregorian y m.
Proof.
  intros Hc Hm. unfold next_month. destruct (m =? 12) eqn:Em; [apply (calendar_unique c Hc); lia|].
  apply Z.eqb_neq in Em. apply (calendar_unique c Hc). lia.
Qed.
Lemma gregorian_in_year y m d : valid_date y m d -> jan1 y <= gregorian y m d < jan1 (y + 1).
Proof.
  intros [Hm Hd]. rewrite jan1_next. revert Hd. unfold gregorian, year_length, month_length, before_month. generalize (jan1 y) (leap y). intros j l.
  assert (m = 1 \/ m = 2 \/ m = 3 \/ m = 4 \/ m = 5 \/ m = 6 \/ m = 7 \/ m = 8 \/ m = 9 \/ m = 10 \/ m = 11 \/ m = 12) as H by lia.
  repeat destruct H as [->|H]; try subst m; destruct l; cbn; lia.
Qed.
Lemma jan1_mono y y' : y <= y' -> jan1 y <= jan1 y'.
Proof. intros H. unfold jan1. Z.div_mod_to_equations. lia. Qed.
Lemma before_mono y m m' : 1 <= m < m' -> m' <= 12 -> before_month y m + month_length y m <= before_month y m'.
Proof.
  intros H1 H2. unfold before_month, month_length. generalize (leap y). intros l.
  assert (m = 1 \/ m = 2 \/ m = 3 \/ m = 4 \/ m = 5 \/ m = 6 \/ m = 7 \/ m = 8 \/ m = 9 \/ m = 10 \/ m = 11) as H by lia.
  assert (m' = 2 \/ m' = 3 \/ m' = 4 \/ m' = 5 \/ m' = 6 \/ m' = 7 \/ m' = 8 \/ m' = 9 \/ m' = 10 \/ m' = 11 \/ m' = 12) as H' by lia.
  repeat destruct H as [->|H]; try subst m; repeat destruct H' as [->|H']; try subst m'; try lia; destruct l; cbn; lia.
Qed.
Lemma gregorian_inj y m d y' m' d' : valid_date y m d -> valid_date y' m' d' -> gregorian y m d = gregorian y' m' d' -> (y, m, d) = (y', m', d').
Proof.
  intros V V' E. assert (B := gregorian_in_year _ _ _ V). assert (B' := gregorian_in_year _ _ _ V').
  assert (y = y') as ->.
  { destruct (Z.lt_trichotomy y y') as [C|[C|C]]; [|exact C|].
    - assert (M := jan1_mono (y + 1) y' ltac:(lia)). lia.
    - assert (M := jan1_mono (y' + 1) y ltac:(lia)). lia. }
  destruct V as [V1 V2], V' as [V1' V2']. unfold gregorian in E.
  destruct (Z.lt_trichotomy m m') as [C|[->|C]]; [| |].
  - assert (M := before_mono y' m m' ltac:(lia) ltac:(lia)). lia.
  - f_equal. lia.
  - assert (M := before_mono y' m' m ltac:(lia) ltac:(lia)). lia.
Qed.
Lemma civil_of_gregorian y m d : 1 <= m <= 12 -> 1 <= d <= month_length y m -> civil_of_seconds (86400 * gregorian y m d) = (y, m, d).
Proof.
  intros Hm Hd. destruct (civil_of_seconds _) as [[y' m'] d'] eqn:Ec. rewrite civil_day in Ec. destruct (civil_spec _ _ _ _ Ec) as (Hv & Hg & _).
  apply gregorian_inj; [exact Hv|now split|]. rewrite Hg. rewrite Z.mul_comm. apply Z.div_mul. lia.
Qed.
(** The date (as pandas reads it) five weeks after the first of a month lies in the next month. *)
Lemma replace_next y m : 1 <= m <= 12 -> replace_day1 (window_start y m + 35 * 86400) = 86400 * next_month gregorian y m.
Proof.
  intros Hm. unfold replace_day1, window_start. rewrite date_to_days_gregorian by exact Hm.
  set (s := 86400 * gregorian y m 1 + 35 * 86400).
  destruct (civil_of_seconds s) as [[y' m'] d'] eqn:Ec. rewrite civil_day in Ec. destruct (civil_spec _ _ _ _ Ec) as (Hv & Hg & _).
  destruct Hv as [Hm' Hd']. rewrite date_to_days_gregorian by exact Hm'.
  replace (s mod 86400) with 0 by (unfold s; Z.div_mod_to_equations; lia). rewrite Z.add_0_r. f_equal.
  assert (Es : s / 86400 = gregorian y m 1 + 35) by (unfold s; Z.div_mod_to_equations; lia). rewrite Es in Hg.
  set (y1 := if m =? 12 then y + 1 else y). set (m1 := if m =? 12 then 1 else m + 1).
  assert (Hm1 : 1 <= m1 <= 12) by (unfold m1; destruct (m =? 12) eqn:Em; [lia|apply Z.eqb_neq in Em; lia]).
  assert (N1 : next_month gregorian y m = gregorian y1 m1 1) by (unfold next_month, y1, m1; destruct (m =? 12); reflexivity).
  assert (L := month_length_range y m). assert (L1 := month_length_range y1 m1).
  assert (E1 := next_month_gregorian y m Hm).
  set (dd := gregorian y m 1 + 35 - gregorian y1 m1 1 + 1).
  assert (Hdd : 1 <= dd <= month_length y1 m1) by (unfold dd; lia).
  assert (G : gregorian y1 m1 dd = gregorian y m 1 + 35) by (unfold dd, gregorian; lia).
  (* uniqueness of the date *)
  assert (U : civil_of_seconds (86400 * gregorian y1 m1 dd) = (y1, m1, dd)) by (apply civil_of_gregorian; [exact Hm1|exact Hdd]).
  rewrite G in U. replace (86400 * (gregorian y m 1 + 35)) with s in U by (unfold s; ring). rewrite civil_day in U. rewrite U in Ec. injection Ec as <- <- <-.
  now rewrite N1.
Qed.

Theorem C50_windows : forall c y m, calendar c -> 1 <= m <= 12 ->
  window_start y m = 86400 * c y m 1 /\ window_stop y m + 60 = 86400 * next_month c y m.
Proof.
  intros c y m Hc Hm. rewrite (next_calendar c y m Hc Hm), (calendar_unique c Hc) by lia. unfold window_stop. rewrite replace_next by exact Hm.
  split; [unfold window_start; now rewrite date_to_days_gregorian|ring].
Qed.
(** The service returns one line for every [step] minutes of the window, both ends included. *)
Definition asks (q : request) (minute : Z) : Prop := exists k, 0 <= k /\ minute = q_start q + q_step q * k /\ minute <= q_stop q.
(** The limit: a request is sent exactly if it asks for at most 90024 lines. *)
Theorem C50_limit : forall start stop lon lat step, 0 < step ->
  let q := {| q_start := start / 60; q_stop := stop / 60; q_lon := fixed 6 lon; q_lat := fixed 6 lat; q_step := step |} in
  exists n, 0 <= n /\ (forall t, asks q t <-> exists k, 0 <= k < n /\ t = start / 60 + step * k) /\
    (n <= 90024 -> jpl_request start stop lon lat step = Ok q) /\ (90024 < n -> jpl_request start stop lon lat step = Raise ValueError).
Proof.
  intros start stop lon lat step Hs q. exists (n_times start stop step). split; [|split].
  - unfold n_times. destruct (Z.leb_spec (start / 60) (stop / 60)); [|lia]. assert (0 <= (stop / 60 - start / 60) / step) by (apply Z.div_pos; lia). lia.
  - intros t. unfold asks, q, n_times. cbn [q_start q_stop q_step]. set (a := start / 60). set (b := stop / 60).
    assert (D := Z.div_mod (b - a) step ltac:(lia)). assert (M := Z.mod_pos_bound (b - a) step Hs). set (n := (b - a) / step) in *. split.
    + intros (k & Hk & -> & Ht). exists k. split; [|reflexivity]. destruct (Z.leb_spec a b); [|nia]. split; [exact Hk|]. apply Znot_ge_lt. intros G. nia.
    + intros (k & Hk & ->). exists k. destruct (Z.leb_spec a b); [|lia]. repeat split; try lia. nia.
  - unfold jpl_request, MAX_LINES. destruct (Z.leb_spec (n_times start stop step) 90024); cbn; split; intros; (reflexivity || lia).
Qed.
(** Every request is accepted (at most 3720 of the 90024 lines), for any site; the twelve requests ask for every
    twelfth minute of the year, each exactly once. *)
Theorem C50_requests : forall c y m lon lat, calendar c -> 1 <= m <= 12 ->
  exists q, jpl_request (window_start y m) (window_stop y m) lon lat 12 = Ok q /\
    n_times (window_start y m) (window_stop y m) 12 <= 3720 /\
    forall t, asks q t <-> (t - 1440 * c y 1 1) mod 12 = 0 /\ 1440 * c y m 1 <= t < 1440 * next_month c y m.
Proof.
  intros c y m lon lat Hc Hm. destruct (C50_windows c y m Hc Hm) as [E1 E2].
  rewrite (next_calendar c y m Hc Hm) in *. assert (G := next_month_gregorian y m Hm). rewrite (calendar_unique c Hc y m 1) in * by lia.
  rewrite (calendar_unique c Hc y 1 1) by lia.
  assert (L := month_length_range y m). set (a := gregorian y m 1) in *. set (b := next_month gregorian y m) in *. set (j := gregorian y 1 1).
  assert (D1 : window_start y m / 60 = 1440 * a) by (rewrite E1; Z.div_mod_to_equations; lia).
  assert (D2 : window_stop y m / 60 = 1440 * b - 1) by (replace (window_stop y m) with (86400 * b - 60) by lia; Z.div_mod_to_equations; lia).
  assert (N : n_times (window_start y m) (window_stop y m) 12 <= 3720).
  { unfold n_times. rewrite D1, D2. destruct (1440 * a <=? 1440 * b - 1); [|lia]. Z.div_mod_to_equations. lia. }
  eexists. split.
  { unfold jpl_request. destruct (n_times _ _ _ <=? MAX_LINES) eqn:Eb; [reflexivity|]. apply Z.leb_gt in Eb. unfold MAX_LINES in Eb. lia. }
  split; [exact N|]. intros t. unfold asks. cbn [q_start q_stop q_step]. rewrite D1, D2. split.
  - intros (k & Hk & -> & Ht). split; [|lia]. Z.div_mod_to_equations. lia.
  - intros [Ht Hb]. exists ((t - 1440 * a) / 12). Z.div_mod_to_equations. lia.
Qed.
Theorem C50_year : forall c y t, calendar c ->
  (1440 * c y 1 1 <= t < 1440 * c (y + 1) 1 1 <-> exists m, 1 <= m <= 12 /\ 1440 * c y m 1 <= t < 1440 * next_month c y m) /\
  (forall m m', 1 <= m <= 12 -> 1 <= m' <= 12 -> 1440 * c y m 1 <= t < 1440 * next_month c y m -> 1440 * c y m' 1 <= t < 1440 * next_month c y m' -> m = m').
Proof.
  intros c y t Hc.
  assert (Hc' : forall m, 1 <= m <= 12 -> c y m 1 = gregorian y m 1 /\ next_month c y m = gregorian y m 1 + month_length y m).
  { intros m Hm. split; [apply (calendar_unique c Hc); lia|]. now rewrite (next_calendar c y m Hc Hm), next_month_gregorian. }
  split; [split|].
  - intros H. destruct (civil_of_seconds (60 * t)) as [[y' m] d] eqn:Ec. rewrite civil_day in Ec. destruct (civil_spec _ _ _ _ Ec) as (Hv & Hg & _).
    rewrite !(calendar_unique c Hc) in H by lia. assert (B := gregorian_in_year _ _ _ Hv). rewrite Hg in B.
    assert (J : forall y, gregorian y 1 1 = jan1 y) by (intros z; unfold gregorian, before_month; rewrite andb_false_r; lia). rewrite !J in H.
    assert (y' = y) as ->.
    { destruct (Z.lt_trichotomy y' y) as [C|[C|C]]; [|exact C|]; exfalso.
      - assert (M := jan1_mono (y' + 1) y ltac:(lia)). Z.div_mod_to_equations. lia.
      - assert (M := jan1_mono (y + 1) y' ltac:(lia)). Z.div_mod_to_equations. lia. }
    exists m. destruct Hv as [Hm Hd]. split; [exact Hm|]. destruct (Hc' m Hm) as [-> ->]. unfold gregorian in *. Z.div_mod_to_equations. lia.
  - intros (m & Hm & Ht). destruct (Hc' m Hm) as [E1 E2]. rewrite E1, E2 in Ht.
    rewrite !(calendar_unique c Hc) by lia. assert (J : forall y, gregorian y 1 1 = jan1 y) by (intros z; unfold gregorian, before_month; rewrite andb_false_r; lia). rewrite !J.
    assert (L := month_length_range y m).
    assert (B1 := gregorian_in_year y m 1 ltac:(split; lia)). assert (B2 := gregorian_in_year y m (month_length y m) ltac:(split; lia)). unfold gregorian in *. lia.
  - intros m m' Hm Hm' H H'. destruct (Hc' m Hm) as [E1 E2], (Hc' m' Hm') as [E1' E2']. rewrite E1, E2 in H. rewrite E1', E2' in H'. unfold gregorian in *.
    destruct (Z.lt_trichotomy m m') as [C|[C|C]]; [|exact C|].
    + assert (M := before_mono y m m' ltac:(lia) ltac:(lia)). lia.
    + assert (M := before_mono y m' m ltac:(lia) ltac:(lia)). lia.
Qed.
Example C50_february_december : window_start 2024 2 = 1706745600 /\ window_stop 2024 2 = 1709251140 /\ window_stop 2023 12 = 1704067140.
Proof. repeat split. Qed.

(** ** C51: reading and loading *)
(** The lines strictly between the first start mark and the next end mark. *)
Definition start_mark : line := [36; 36; 83; 79; 69; 10].   (* "$$SOE" and a line feed *)
Definition end_mark : line := [36; 36; 69; 79; 69; 10].     (* "$$EOE" and a line feed *)
Definition data_lines (ls ds : list line) : Prop :=
  exists before after, ls = before ++ start_mark :: ds ++ end_mark :: after /\ ~ In start_mark before /\ ~ In end_mark ds.
Lemma is_line_iff s l : is_line s l = true <-> l = map (fun c => Z.of_nat (Ascii.nat_of_ascii c)) (list_ascii_of_string s).
Proof.
  unfold is_line. generalize (map (fun c => Z.of_nat (Ascii.nat_of_ascii c)) (list_ascii_of_string s)). induction l as [|x l IH]; intros [|y t]; try (split; [discriminate|discriminate || reflexivity]).
  - split; reflexivity.
  - rewrite andb_true_iff, Z.eqb_eq, IH. split; [intros [-> ->]; reflexivity|now intros [= -> ->]].
Qed.
Lemma SOE_iff l : SOE l = true <-> l = start_mark.
Proof. apply is_line_iff. Qed.
Lemma EOE_iff l : EOE l = true <-> l = end_mark.
Proof. apply is_line_iff. Qed.
Lemma no_mark p m ls : (forall l, p l = true <-> l = m) -> (forall l : line, In l ls -> p l = false) <-> ~ In m ls.
Proof.
  intros H. split; [intros K I; assert (X := K _ I); rewrite (proj2 (H m) eq_refl) in X; discriminate X|].
  intros K l I. destruct (p l) eqn:E; [|reflexivity]. apply H in E as ->. contradiction.
Qed.
Lemma after_mark_spec p ls r : after_mark p ls = Ok r <-> exists b s, ls = b ++ s :: r /\ p s = true /\ forall l, In l b -> p l = false.
Proof.
  split.
  - revert r. induction ls as [|l ls IH]; intros r; cbn [after_mark]; [discriminate|]. destruct (p l) eqn:El.
    + intros [= <-]. exists [], l. cbn. tauto.
    + intros H. destruct (IH _ H) as (b & s & -> & Hs & Hb). exists (l :: b), s. cbn. split; [reflexivity|]. split; [exact Hs|]. intros l' [<-|Hl]; auto.
  - intros (b & s & -> & Hs & Hb). induction b as [|l b IH]; cbn [app after_mark]; [now rewrite Hs|]. rewrite (Hb l) by now left. apply IH. intros l' Hl. apply Hb. now right.
Qed.
Lemma before_mark_spec p ls r : before_mark p ls = Ok r <-> exists e a, ls = r ++ e :: a /\ p e = true /\ forall l, In l r -> p l = false.
Proof.
  split.
  - revert r. induction ls as [|l ls IH]; intros r; cbn [before_mark]; [discriminate|]. destruct (p l) eqn:El.
    + intros [= <-]. exists l, ls. cbn. tauto.
    + destruct (before_mark p ls) as [r'|]; cbn [rbind]; [|discriminate]. intros [= <-].
      destruct (IH _ eq_refl) as (e & a & -> & He & Hr). exists e, a. split; [reflexivity|]. split; [exact He|]. intros l' [<-|Hl]; auto.
  - intros (e & a & -> & He & Hr). induction r as [|l r IH]; cbn [app before_mark]; [now rewrite He|]. rewrite (Hr l) by now left. rewrite IH; [reflexivity|]. intros l' Hl. apply Hr. now right.
Qed.
Lemma parse_lines_spec pl ls rs : parse_lines pl ls = Ok rs <-> Forall2 (fun l r => pl l = Some r) ls rs.
Proof.
  split.
  - revert rs. induction ls as [|l ls IH]; intros rs; cbn [parse_lines]; [intros [= <-]; constructor|].
    destruct (pl l) as [r|] eqn:El; [|discriminate]. destruct (parse_lines pl ls) as [rs'|]; cbn [rbind]; [|discriminate]. intros [= <-]. constructor; auto.
  - induction 1 as [|l r ls rs Hl _ IH]; cbn [parse_lines]; [reflexivity|]. now rewrite Hl, IH.
Qed.
(** A whole number of seconds, before the year 2116, is a float64 (in ns). *)
Lemma float64_seconds t : t mod 1000000000 = 0 -> Z.abs t <= 2 ^ 62 -> Ztrunc (float64 (IZR t)) = t.
Proof.
  intros Hm Hb. unfold float64. rewrite round_generic; [apply Ztrunc_IZR|apply valid_rnd_N|].
  assert (Ht : t = (t / 512) * 2 ^ 9) by (change (2 ^ 9) with 512; assert (t mod 512 = 0) by (Z.div_mod_to_equations; lia); Z.div_mod_to_equations; lia).
  rewrite Ht. rewrite mult_IZR. change (IZR (t / 512) * IZR (2 ^ 9))%R with (IZR (Fnum (Float radix2 (t / 512) 9)) * bpow radix2 (Fexp (Float radix2 (t / 512) 9)))%R.
  fold (F2R (Float radix2 (t / 512) 9)).
  destruct (Z.eq_dec (Z.abs t) (2 ^ 62)) as [E62|N62].
  - exfalso. change (2 ^ 62) with 4611686018427387904 in E62. Z.div_mod_to_equations. lia.
  - apply generic_format_FLT. exists (Float radix2 (t / 512) 9); [reflexivity| |cbn; lia].
    cbn [Fnum]. change (radix2 ^ 53) with (2 ^ 53). change (2 ^ 53) with 9007199254740992. change (2 ^ 62) with 4611686018427387904 in *. Z.div_mod_to_equations. lia.
Qed.
(** The table read from a file has one row per data line, in order, at the exact time of the line (times in whole
    seconds before 2116), with the azimuth from south, the zenith angle and the inverse square of the distance; and
    every file with marks and data lines that parse is read. *)
Theorem C51_read : forall parse_line ls ds rs, data_lines ls ds -> Forall2 (fun l r => parse_line l = Some r) ds rs -> ds <> [] ->
  (forall r, In r rs -> w_time r mod 1000000000 = 0 /\ Z.abs (w_time r) <= 2 ^ 62) ->
  exists f, read_jpl_ephemeris_file parse_line ls = Ok f /\ f_aware f = true /\ f_columns f = ["azimuth"; "zenith"; "ecf"]%string /\
    f_index f = map w_time rs /\ f_rows f = map (fun r => [w_az r - 180; 90 - w_el r; / (w_r r * w_r r)]%R) rs.
Proof.
  intros pl ls ds rs (b & a & El & Hb0 & Hd0) Hp Hn Ht.
  assert (Hb := proj2 (no_mark SOE start_mark b SOE_iff) Hb0). assert (Hd := proj2 (no_mark EOE end_mark ds EOE_iff) Hd0).
  set (s := start_mark) in *. set (e := end_mark) in *. assert (Hs : SOE s = true) by reflexivity. assert (He : EOE e = true) by reflexivity. unfold read_jpl_ephemeris_file.
  rewrite (proj2 (after_mark_spec SOE ls (ds ++ e :: a))) by (exists b, s; auto). cbn [rbind].
  rewrite (proj2 (before_mark_spec EOE (ds ++ e :: a) ds)) by (exists e, a; auto). cbn [rbind].
  rewrite (proj2 (parse_lines_spec pl ds rs) Hp). cbn [rbind].
  destruct Hp as [|l r ds' rs' Hl Hp]; [now elim Hn|]. eexists. split; [reflexivity|]. cbn [f_aware f_columns f_index f_rows].
  split; [reflexivity|]. split; [reflexivity|]. split.
  - apply map_ext_in. intros x Hx. destruct (Ht x Hx). now apply float64_seconds.
  - apply map_ext. intros x. do 3 f_equal. unfold Rdiv. rewrite Rmult_1_l. f_equal. ring.
Qed.
(** A file without a start mark followed by an end mark, or with a line that does not parse, is not read. *)
Theorem C51_read_only : forall parse_line ls f, read_jpl_ephemeris_file parse_line ls = Ok f ->
  exists ds rs, data_lines ls ds /\ ds <> [] /\ Forall2 (fun l r => parse_line l = Some r) ds rs.
Proof.
  intros pl ls f. unfold read_jpl_ephemeris_file. destruct (after_mark SOE ls) as [ls1|] eqn:E1; cbn [rbind]; [|discriminate].
  destruct (before_mark EOE ls1) as [ds|] eqn:E2; cbn [rbind]; [|discriminate]. destruct (parse_lines pl ds) as [rs|] eqn:E3; cbn [rbind]; [|discriminate].
  intros H. apply after_mark_spec in E1 as (b & s & -> & Hs & Hb). apply before_mark_spec in E2 as (e & a & -> & He & Hd). apply parse_lines_spec in E3.
  apply SOE_iff in Hs as ->. apply EOE_iff in He as ->. apply (no_mark SOE start_mark b SOE_iff) in Hb. apply (no_mark EOE end_mark ds EOE_iff) in Hd.
  exists ds, rs. split; [exists b, a; auto|]. split; [|exact E3]. intros ->. inversion E3; subst. discriminate H.
Qed.

(** Loading: starting from a directory without the yearly file, no call ever returns a table, whatever the service
    answers; the yearly file is never written; at most one text file (January) is. *)
Lemma read_columns pl ls f : read_jpl_ephemeris_file pl ls = Ok f -> f_columns f = ["azimuth"; "zenith"; "ecf"]%string.
Proof.
  unfold read_jpl_ephemeris_file. destruct (after_mark SOE ls); cbn [rbind]; [|discriminate]. destruct (before_mark EOE _); cbn [rbind]; [|discriminate].
  destruct (parse_lines pl _) as [[|]|]; cbn [rbind]; try discriminate. now intros [= <-].
Qed.
Lemma load_month_raises pl sv s y m lon lat : exists s' e, load_month pl sv s y m lon lat = (s', Raise e) /\
  (forall y', parquet s' y' = parquet s y') /\ (forall y' m', (y', m') <> (y, m) -> txt s' y' m' = txt s y' m') /\
  (txt s y m <> None -> s' = s).
Proof.
  assert (K : forall ls, exists e, (do f <- read_jpl_ephemeris_file pl ls; do f <- drop_column "julian_day" f; Ok (true, f)) = Raise e /\
    (do f <- read_jpl_ephemeris_file pl ls; do f <- drop_column "julian_day" f; Ok (false, f)) = Raise e).
  { intros ls. destruct (read_jpl_ephemeris_file pl ls) as [f|e] eqn:Ef; cbn [rbind]; [|eauto].
    unfold drop_column. rewrite (read_columns _ _ _ Ef). cbn. eauto. }
  unfold load_month. destruct (txt s y m) as [ls|] eqn:Et.
  - destruct (K ls) as (e & _ & K2). rewrite K2. eauto 6.
  - destruct (jpl_request _ _ _ _ _) as [q|e]; [|exists s, e; repeat split; congruence].
    destruct (sv q) as [ls|].
    + destruct (K ls) as (e & K1 & _). rewrite K1. exists (set_txt (send s q) y m (Some ls)), e. split; [reflexivity|]. split; [reflexivity|]. split; [|congruence].
      intros y' m' Hn. cbn. destruct ((y' =? y) && (m' =? m))%bool eqn:Eb; [|reflexivity]. apply andb_prop in Eb. rewrite !Z.eqb_eq in Eb. elim Hn. destruct Eb. congruence.
    + exists (send s q), ValueError. repeat split; congruence.
Qed.
Lemma load_raises pl sv s y lon lat : parquet s y = None ->
  exists s' e, load_jpl_ephemeris pl sv s y lon lat = (s', Raise e) /\ (forall y', parquet s' y' = parquet s y') /\
    (forall y' m', (y', m') <> (y, 1) -> txt s' y' m' = txt s y' m') /\ (txt s y 1 <> None -> s' = s).
Proof.
  intros Hp. destruct (load_month_raises pl sv s y 1 lon lat) as (s' & e & H & H1 & H2 & H3).
  exists s', e. unfold load_jpl_ephemeris. rewrite Hp. cbn [load_months]. rewrite H. auto.
Qed.
(** A history of calls with their arguments, one after another. *)
Fixpoint history (pl : line -> option row) (sv : request -> option (list line)) (s : store) (calls : list (Z * R * R)) : store * list (res frame) :=
  match calls with
  | [] => (s, [])
  | (y, lon, lat) :: cs =>
      let (s1, r) := load_jpl_ephemeris pl sv s y lon lat in
      let (s2, rs) := history pl sv s1 cs in (s2, r :: rs)
  end.
Theorem C51_load_refuted : forall parse_line service calls s, (forall y, parquet s y = None) ->
  let (s', results) := history parse_line service s calls in
  Forall (fun r => exists e, r = Raise e) results /\ (forall y, parquet s' y = None) /\
  (forall y m, m <> 1 -> txt s' y m = txt s y m).
Proof.
  intros pl sv calls. induction calls as [|[[y lon] lat] cs IH]; intros s Hs; cbn [history]; [auto|].
  destruct (load_raises pl sv s y lon lat (Hs y)) as (s1 & e & -> & H1 & H2 & _).
  assert (Hs1 : forall y, parquet s1 y = None) by (intros y'; rewrite H1; apply Hs).
  specialize (IH s1 Hs1). destruct (history pl sv s1 cs) as [s2 rs]. destruct IH as (I1 & I2 & I3).
  split; [constructor; eauto|]. split; [exact I2|]. intros y' m Hm. rewrite I3 by exact Hm. apply H2. congruence.
Qed.
(** Nor does a yearly file with an aware (UTC) index, as this code would write it, help. *)
Theorem C51_aware_refuted : forall parse_line service s y lon lat f, parquet s y = Some f -> f_aware f = true ->
  load_jpl_ephemeris parse_line service s y lon lat = (s, Raise TypeError).
Proof. intros pl sv s y lon lat f H Ha. unfold load_jpl_ephemeris. rewrite H. unfold localize_frame. now rewrite Ha. Qed.

(** ** C61: the files do not name the site: once January is there, no call for any other site asks the service. *)
Theorem C61_site_refuted : forall parse_line service s y lon lat, txt s y 1 <> None ->
  sent (fst (load_jpl_ephemeris parse_line service s y lon lat)) = sent s.
Proof.
  intros pl sv s y lon lat Ht. destruct (parquet s y) eqn:Hp.
  - unfold load_jpl_ephemeris. now rewrite Hp.
  - destruct (load_raises pl sv s y lon lat Hp) as (s' & e & -> & _ & _ & H). now rewrite (H Ht).
Qed.
(** A download leaves that file behind. *)
Example C61_example : forall pl ls lon lat lon' lat',
  let s0 := {| txt := fun _ _ => None; parquet := fun _ => None; sent := [] |} in
  let sv := fun _ : request => Some ls in
  let s1 := fst (load_jpl_ephemeris pl sv s0 2024 lon lat) in
  List.length (sent s1) = 1%nat /\ txt s1 2024 1 = Some ls /\ sent (fst (load_jpl_ephemeris pl sv s1 2024 lon' lat')) = sent s1.
Proof.
  intros pl ls lon lat lon' lat' s0 sv s1.
  assert (H : s1 = set_txt (send s0 {| q_start := 28401120; q_stop := 28445759; q_lon := fixed 6 lon; q_lat := fixed 6 lat; q_step := 12 |}) 2024 1 (Some ls)).
  { unfold s1, load_jpl_ephemeris. cbn [parquet s0 load_months]. 
    assert (Hr : jpl_request (window_start 2024 1) (window_stop 2024 1) lon lat 12 = Ok {| q_start := 28401120; q_stop := 28445759; q_lon := fixed 6 lon; q_lat := fixed 6 lat; q_step := 12 |}) by reflexivity.
    unfold load_month. cbn [txt s0]. rewrite Hr. cbn [sv].
    destruct (read_jpl_ephemeris_file pl ls) as [f|e] eqn:Ef; cbn [rbind]; [|reflexivity].
    unfold drop_column. rewrite (read_columns _ _ _ Ef). reflexivity. }
  split; [now rewrite H|]. split; [now rewrite H|]. apply C61_site_refuted. rewrite H. discriminate.
Qed.

(** ** C52: the azimuth residual *)
Open Scope R_scope.
(** The signed angular difference: m - o plus a whole number of turns, in (-180, 180]. *)
Definition angular_difference (m o x : R) : Prop := (exists k : Z, x = m - o + 360 * IZR k) /\ -180 < x <= 180.
Theorem C52_azimuth_error_partial : forall m o x, -180 <= m <= 180 -> -180 <= o <= 180 -> angular_difference m o x ->
  (-180 < m - o <= 180 -> azimuth_error m o = x) /\
  (Rabs (m - o) >= 330 -> Rabs (azimuth_error m o) = Rabs x).
Proof.
  intros m o x Hm Ho ((k & Hx) & B). unfold azimuth_error. split; intros H.
  - assert (k = 0)%Z as ->.
    { assert (IZR k < 1) by lra. assert (-1 < IZR k) by lra. apply lt_IZR in H0. apply lt_IZR in H1. lia. }
    destruct (Rlt_dec (-330) (m - o)); [|lra]. destruct (Rlt_dec (m - o) 330); lra.
  - unfold Rabs in H. destruct (Rcase_abs (m - o)).
    + assert (k = 1)%Z as ->.
      { assert (IZR k < 2) by lra. assert (0 < IZR k) by lra. apply lt_IZR in H0. apply lt_IZR in H1. lia. }
      destruct (Rlt_dec (-330) (m - o)); [lra|]. destruct (Rlt_dec (-360 - (m - o)) 330); [|lra]. rewrite Hx. unfold Rabs. repeat destruct (Rcase_abs _); lra.
    + assert (k = -1)%Z as ->.
      { assert (IZR k < 0) by lra. assert (-2 < IZR k) by lra. apply lt_IZR in H0. apply lt_IZR in H1. lia. }
      destruct (Rlt_dec (-330) (m - o)); [|lra]. destruct (Rlt_dec (m - o) 330); [lra|]. rewrite Hx. unfold Rabs. repeat destruct (Rcase_abs _); lra.
Qed.
(** Across the north the sign is that of the opposite error (so biases cancel or add wrongly), and between 180 and 330
    degrees nothing is wrapped at all. *)
Theorem C52_sign_refuted : forall m o x, -180 <= m <= 180 -> -180 <= o <= 180 -> angular_difference m o x ->
  (Rabs (m - o) >= 330 -> azimuth_error m o = - x) /\
  (180 < Rabs (m - o) < 330 -> azimuth_error m o = m - o /\ Rabs (azimuth_error m o) > 180).
Proof.
  intros m o x Hm Ho ((k & Hx) & B). unfold azimuth_error. split; intros H.
  - unfold Rabs in H. destruct (Rcase_abs (m - o)).
    + assert (k = 1)%Z as ->.
      { assert (IZR k < 2) by lra. assert (0 < IZR k) by lra. apply lt_IZR in H0. apply lt_IZR in H1. lia. }
      destruct (Rlt_dec (-330) (m - o)); [lra|]. destruct (Rlt_dec (-360 - (m - o)) 330); lra.
    + assert (k = -1)%Z as ->.
      { assert (IZR k < 0) by lra. assert (-2 < IZR k) by lra. apply lt_IZR in H0. apply lt_IZR in H1. lia. }
      destruct (Rlt_dec (-330) (m - o)); [|lra]. destruct (Rlt_dec (m - o) 330); lra.
  - assert (Hd := H). unfold Rabs in Hd. destruct (Rlt_dec (-330) (m - o)); [|destruct (Rcase_abs (m - o)); lra].
    destruct (Rlt_dec (m - o) 330); [|destruct (Rcase_abs (m - o)); lra]. lra.
Qed.
Example C52_example : angular_difference 179.9 (-179.9) (-0.2) /\ azimuth_error 179.9 (-179.9) = 0.2.
Proof.
  split; [split; [exists (-1)%Z; lra|lra]|]. unfold azimuth_error. destruct (Rlt_dec (-330) (179.9 - -179.9)); [|lra]. destruct (Rlt_dec (179.9 - -179.9) 330); lra.
Qed.

(** ** C60: the benchmark's file of downloaded data *)
(** On the equator and on the Greenwich meridian there is no name for it, so no benchmark. *)
Theorem C60_zero_refuted : forall year lat lon, lat = 0 \/ lon = 0 -> bench_filename year lat lon = Raise ZeroDivisionError.
Proof.
  intros year lat lon H. unfold bench_filename, bench_sign. destruct (Req_EM_T lat 0); [reflexivity|]. cbn [rbind]. destruct (Req_EM_T lon 0); [reflexivity|]. destruct H; contradiction.
Qed.
Lemma bench_sign_spec x : x <> 0 -> bench_sign x = Ok (if Rlt_dec 0 x then 1 else 0)%Z.
Proof.
  intros H. unfold bench_sign. destruct (Req_EM_T x 0); [contradiction|]. destruct (Rlt_dec 0 x).
  - rewrite Rabs_right by lra. replace (0.5 * (1 + x / x)) with 1 by (assert (x / x = 1) by (field; exact H); lra). now rewrite (Ztrunc_IZR 1).
  - rewrite Rabs_left by lra. replace (0.5 * (1 + x / - x)) with 0 by (assert (x / - x = -1) by (field; lra); lra). now rewrite (Ztrunc_IZR 0).
Qed.
(** Elsewhere, equal names mean equal years and sites less than 0.0001 degrees apart: cached data belong to the site. *)
Theorem C60_cache_partial : forall year lat lon year' lat' lon' f, bench_filename year lat lon = Ok f -> bench_filename year' lat' lon' = Ok f ->
  year = year' /\ Rabs (lat - lat') <= 0.0001 /\ Rabs (lon - lon') <= 0.0001.
Proof.
  assert (K : forall x x' n, bench_sign x = Ok n -> bench_sign x' = Ok n -> fixed 4 (Rabs x) = fixed 4 (Rabs x') -> Rabs (x - x') <= 0.0001).
  { intros x x' n H H' Hf.
    assert (Nz : x <> 0) by (intros ->; unfold bench_sign in H; destruct (Req_EM_T 0 0); [discriminate|contradiction]).
    assert (Nz' : x' <> 0) by (intros ->; unfold bench_sign in H'; destruct (Req_EM_T 0 0); [discriminate|contradiction]).
    rewrite bench_sign_spec in H, H' by assumption.
    assert (A := fixed_near 4 (Rabs x) ltac:(lia)). assert (A' := fixed_near 4 (Rabs x') ltac:(lia)). rewrite Hf in A. change (10 ^ 4)%Z with 10000%Z in *.
    apply Rabs_le_inv in A, A'. destruct (Rlt_dec 0 x), (Rlt_dec 0 x'); try congruence.
    - rewrite (Rabs_right x) in * by lra. rewrite (Rabs_right x') in * by lra. apply Rabs_le. lra.
    - rewrite (Rabs_left x) in * by lra. rewrite (Rabs_left x') in * by lra. apply Rabs_le. lra. }
  intros year lat lon year' lat' lon' f. unfold bench_filename.
  destruct (bench_sign lat) as [n|] eqn:E1; cbn [rbind]; [|discriminate]. destruct (bench_sign lon) as [e|] eqn:E2; cbn [rbind]; [|discriminate]. intros [= <-].
  destruct (bench_sign lat') as [n'|] eqn:E1'; cbn [rbind]; [|discriminate]. destruct (bench_sign lon') as [e'|] eqn:E2'; cbn [rbind]; [|discriminate].
  intros [= Hy Ha Hn Ho He]. subst n' e'. split; [congruence|]. split; [eapply K|eapply K]; eauto.
Qed.
(** Its request is always within the line limit. *)
Theorem C60_request : forall year lat lon, exists q, bench_request year lat lon = Ok q.
Proof.
  intros year lat lon. unfold bench_request, jpl_request. rewrite !date_to_days_gregorian by lia.
  assert (J : (forall y, gregorian y 1 1 = jan1 y)%Z) by (intros z; unfold gregorian, before_month; rewrite andb_false_r; lia). rewrite !J, jan1_next.
  assert (L : (365 <= year_length year <= 366)%Z) by (unfold year_length; destruct (leap year); lia).
  assert (B : (n_times (86400 * jan1 year) (86400 * (jan1 year + year_length year)) 12 <=? MAX_LINES = true)%Z).
  { apply Z.leb_le. unfold n_times, MAX_LINES. destruct (_ <=? _)%Z; Z.div_mod_to_equations; lia. }
  rewrite B. cbn [guard rbind]. eauto.
Qed.
Example C60_example : exists f, bench_filename 2024 36.949 (-3.822) = Ok f /\ b_ns f = 1%Z /\ b_ew f = 0%Z.
Proof.
  unfold bench_filename. rewrite !bench_sign_spec by lra. cbn [rbind]. eexists. split; [reflexivity|]. cbn. destruct (Rlt_dec 0 36.949), (Rlt_dec 0 (-3.822)); split; try reflexivity; lra.
Qed.
