(** * PropChart: the solar chart (C62-C67) *)

From Coq Require Import ZArith QArith List Bool Arith String Reals Lia Lra.
From Verif Require Import Num Arrays Libspa Time Core Usecases Spec UsecaseLemmas GenericLemmas GenericLemmas2 TimeLemmas Ext ExtLemmas Witness PropPipeline
  Sunpos SunposSpec SunposLemmas Calendar CalendarSpec CalendarLemmas CalendarSweep Cli Tools PropTools Chart ChartLemmas.
Import ListNotations.
Open Scope list_scope.
Open Scope Z_scope.

(** ** Calendar *)
Definition in_year (cal : Z -> Z -> Z -> Z) (y w : Z) : Prop := cal y 1 1 * NS_PER_DAY <= w < cal (y + 1) 1 1 * NS_PER_DAY.
Lemma midnight_cal cal y m d : calendar cal -> 1 <= m <= 12 -> midnight y m d = cal y m d * NS_PER_DAY.
Proof. intros Hc Hm. unfold midnight. now rewrite date_to_days_gregorian, (calendar_unique cal Hc). Qed.
Lemma jan1_mono y y' : y <= y' -> jan1 y <= jan1 y'.
Proof.
  intros H. replace y' with (y + Z.of_nat (Z.to_nat (y' - y))) by lia. generalize (Z.to_nat (y' - y)). induction n; [rewrite Z.add_0_r; lia|].
  replace (y + Z.of_nat (S n)) with (y + Z.of_nat n + 1) by lia. rewrite jan1_next. unfold year_length. destruct (leap _); lia.
Qed.
Lemma jan1_cal cal y : calendar cal -> cal y 1 1 = jan1 y.
Proof. intros Hc. rewrite (calendar_unique cal Hc) by lia. unfold gregorian, before_month. cbn. rewrite andb_false_r. lia. Qed.
Lemma year_of_jan1 w : jan1 (year_of w) <= w / NS_PER_DAY < jan1 (year_of w + 1).
Proof.
  unfold year_of. rewrite civil_day. unfold civil_of_day, floor_s.
  assert (E : w / NS_PER_S / 86400 = w / NS_PER_DAY) by (rewrite Z.div_div by (unfold NS_PER_S; lia); reflexivity). rewrite E.
  destruct (days_to_yearsdays _) as [y yd] eqn:Ey. apply ytd_spec in Ey. destruct (month_loop _ _ _). rewrite jan1_next. lia.
Qed.
Lemma year_of_in cal y w : calendar cal -> in_year cal y w -> year_of w = y.
Proof.
  intros Hc [H1 H2]. rewrite (jan1_cal _ _ Hc) in H1. rewrite (jan1_cal _ _ Hc) in H2. assert (J := year_of_jan1 w).
  assert (B1 : jan1 y <= w / NS_PER_DAY) by (apply Z.div_le_lower_bound; unfold NS_PER_DAY, NS_PER_S in *; lia).
  assert (B2 : w / NS_PER_DAY < jan1 (y + 1)) by (apply Z.div_lt_upper_bound; unfold NS_PER_DAY, NS_PER_S in *; lia).
  destruct (Z.lt_trichotomy (year_of w) y) as [L|[E|L]]; [|exact E|].
  - assert (M := jan1_mono (year_of w + 1) y ltac:(lia)). lia.
  - assert (M := jan1_mono (y + 1) (year_of w) ltac:(lia)). lia.
Qed.
Lemma days_of_year_cal cal y : calendar cal -> Z.of_nat (days_of_year y) = cal (y + 1) 1 1 - cal y 1 1.
Proof. intros Hc. rewrite !(jan1_cal _ _ Hc), jan1_next. unfold days_of_year, year_length. rewrite np_leap. destruct (leap y); lia. Qed.

(** ** Loops *)
Lemma Ok_eq {A} (a b : A) : Ok a = Ok b -> a = b.
Proof. now intros [= ->]. Qed.
Lemma each_In {F} {A} (f : A -> res (list (drawn F))) l r x : each f l = Ok r -> In x r -> exists a q, In a l /\ f a = Ok q /\ In x q.
Proof.
  revert r. induction l as [|a l IH]; cbn [each]; intros r.
  - intros [= <-] [].
  - destruct (f a) as [q|] eqn:Ef; [|discriminate]. cbn [rbind]. destruct (each f l) as [r'|]; [|discriminate]. intros [= <-] H.
    apply in_app_or in H as [H|H]; [exists a, q; cbn; auto|]. destruct (IH r' eq_refl H) as (b & q' & Hb & Hq). exists b, q'. cbn. tauto.
Qed.
Lemma each_all {F} {A} (f : A -> res (list (drawn F))) l r a : each f l = Ok r -> In a l -> exists q, f a = Ok q /\ forall x, In x q -> In x r.
Proof.
  revert r. induction l as [|b l IH]; cbn [each]; intros r; [intros _ []|].
  destruct (f b) as [q|] eqn:Ef; [|discriminate]. cbn [rbind]. destruct (each f l) as [r'|]; [|discriminate]. intros [= <-] [<-|H].
  - exists q. split; [exact Ef|]. intros x Hx. apply in_or_app. now left.
  - destruct (IH r' eq_refl H) as (q' & H1 & H2). exists q'. split; [exact H1|]. intros x Hx. apply in_or_app. right. auto.
Qed.
Lemma each_ok {F} {A} (f : A -> res (list (drawn F))) l : (forall a, In a l -> exists q, f a = Ok q) -> exists r, each f l = Ok r.
Proof.
  induction l as [|a l IH]; cbn [each]; intros H; [eauto|]. destruct (H a (or_introl eq_refl)) as [q ->]. cbn [rbind].
  destruct IH as [r ->]; [|cbn [rbind]; eauto]. intros b Hb. apply H. now right.
Qed.

Section Curves.
  Context {F : Type} {O : Ops F}.
  Variables (z : zone) (lat lon : F).
  Hypothesis Hz : zone_wf z.
  Lemma local_curve start n step c : sunpath lat lon (as_local z (local_range z start n step)) = Ok c ->
    exists us, clock_instants z (every start n step) us /\ shows lat lon us c.
  Proof.
    intros H. destruct (local_range_spec z start n step Hz) as (us & H1 & H2). exists us. split; [exact H1|].
    apply (sunpath_shows lat lon _ us c H). now rewrite instants_local, H2, back.
  Qed.
  Lemma utc_curve start n step c : sunpath lat lon (as_utc (local_range z start n step)) = Ok c ->
    exists us, clock_instants z (every start n step) us /\ shows lat lon us c.
  Proof.
    intros H. destruct (local_range_spec z start n step Hz) as (us & H1 & H2). exists us. split; [exact H1|].
    apply (sunpath_shows lat lon _ us c H). now rewrite instants_utc, H2, back.
  Qed.
  Lemma naive_curve start n step c : sunpath lat lon (as_naive (local_range z start n step)) = Ok c ->
    exists us, clock_instants z (every start n step) us /\ shows lat lon (map (reading z) us) c.
  Proof.
    intros H. destruct (local_range_spec z start n step Hz) as (us & H1 & H2). exists us. split; [exact H1|].
    apply (sunpath_shows lat lon _ _ c H). rewrite instants_naive, H2, !map_map. reflexivity.
  Qed.

  (** The parts of a grid. *)
  Variables (w : Z) (days months hours minutes : option (list Z)) (is ie : bool) (g : list (drawn F)).
  Hypothesis Hg : draw_solar_grid z lat lon w days months hours minutes is ie = Ok g.
  Let year := year_of w.
  Definition grid_hours : list (Z * Z) := list_prod (or_default hours (map Z.of_nat (seq 0 24))) (or_default minutes [0]).
  Definition grid_days : list (Z * Z) :=
    add_day (add_day (list_prod (or_default days [15]) (or_default months [1; 2; 3; 4; 5; 7; 8; 9; 10; 11])) (21, 6)) (21, 12).
  Lemma grid_parts : exists a b c d, g = a ++ b ++ c ++ d /\
    (if is then exists k, sunpath lat lon (as_utc (local_range z (midnight year 6 21) 720 (2 * MINUTE))) = Ok k /\ a = [Solstice k] else a = []) /\
    (if ie then exists k, sunpath lat lon (as_utc (local_range z (midnight year 12 21) 720 (2 * MINUTE))) = Ok k /\ b = [Equinox k] else b = []) /\
    each (draw_hour z lat lon year) grid_hours = Ok c /\ each (draw_day z lat lon year) grid_days = Ok d.
  Proof.
    revert Hg. unfold draw_solar_grid. destruct (tz_localize_raise z w) as [u0|]; [|discriminate]. cbn [rbind]. fold year. fold grid_hours. fold grid_days.
    intros H.
    match type of H with rbind ?x _ = _ => destruct x as [a|] eqn:Ha; [|discriminate H] end. cbn [rbind] in H.
    match type of H with rbind ?x _ = _ => destruct x as [b|] eqn:Hb; [|discriminate H] end. cbn [rbind] in H.
    destruct (each (draw_hour z lat lon year) grid_hours) as [c|] eqn:Ec; [|discriminate H]. cbn [rbind] in H.
    destruct (each (draw_day z lat lon year) grid_days) as [d|] eqn:Ed; [|discriminate H]. injection H as <-.
    exists a, b, c, d. split; [reflexivity|]. split; [|split; [|split; reflexivity]].
    - clear - Ha. destruct is; [|now injection Ha as <-]. destruct (sunpath _ _ _) as [k|] in *; [|discriminate Ha]. injection Ha as <-. eauto.
    - clear - Hb. destruct ie; [|now injection Hb as <-]. destruct (sunpath _ _ _) as [k|] in *; [|discriminate Hb]. injection Hb as <-. eauto.
  Qed.
  Lemma hour_shape q hm x : draw_hour z lat lon year hm = Ok q -> In x q ->
    (exists c, x = HourLine (fst hm) (snd hm) c) \/ (exists az al, x = HourLabel (fst hm) (snd hm) az al).
  Proof.
    destruct hm as [h m]. unfold draw_hour. destruct (sunpath _ _ _) as [c|]; [|discriminate]. cbn [rbind]. destruct (tz_localize_raise _ _) as [u|]; [|discriminate]. cbn [rbind].
    destruct (sunpath _ _ _) as [p|]; [|discriminate]. cbn [rbind]. destruct (cv_azimuth p) as [|az [|]]; try discriminate. destruct (cv_altitude p) as [|al [|]]; try discriminate.
    intros [= <-] [<-|H]; [left; eauto|]. destruct (fle _ al); [|destruct H]. destruct H as [<-|[]]. right; eauto.
  Qed.
  Lemma day_shape q dm x : draw_day z lat lon year dm = Ok q -> In x q -> exists c, x = DayPath (fst dm) (snd dm) c.
  Proof.
    destruct dm as [d m]. unfold draw_day. destruct (parse_slashes _ _ _); [|discriminate]. cbn [rbind]. destruct (sunpath _ _ _); [|discriminate]. intros [= <-] [<-|[]]. eauto.
  Qed.
  Lemma in_solstice c : In (Solstice c) g -> is = true /\ sunpath lat lon (as_utc (local_range z (midnight year 6 21) 720 (2 * MINUTE))) = Ok c.
  Proof.
    destruct grid_parts as (a & b & h & d & -> & Ha & Hb & Hh & Hd). rewrite !in_app_iff. intros [H|[H|[H|H]]].
    - destruct is; [|subst a; destruct H]. destruct Ha as (k & Hk & ->). destruct H as [[= <-]|[]]. auto.
    - destruct ie; [|subst b; destruct H]. destruct Hb as (k & Hk & ->). destruct H as [[=]|[]].
    - destruct (each_In _ _ _ _ Hh H) as (hm & q & _ & Hq & Hx). destruct (hour_shape _ _ _ Hq Hx) as [[? [=]]|(? & ? & [=])].
    - destruct (each_In _ _ _ _ Hd H) as (dm & q & _ & Hq & Hx). destruct (day_shape _ _ _ Hq Hx) as [? [=]].
  Qed.
  Lemma in_equinox c : In (Equinox c) g -> ie = true /\ sunpath lat lon (as_utc (local_range z (midnight year 12 21) 720 (2 * MINUTE))) = Ok c.
  Proof.
    destruct grid_parts as (a & b & h & d & -> & Ha & Hb & Hh & Hd). rewrite !in_app_iff. intros [H|[H|[H|H]]].
    - destruct is; [|subst a; destruct H]. destruct Ha as (k & Hk & ->). destruct H as [[=]|[]].
    - destruct ie; [|subst b; destruct H]. destruct Hb as (k & Hk & ->). destruct H as [[= <-]|[]]. auto.
    - destruct (each_In _ _ _ _ Hh H) as (hm & q & _ & Hq & Hx). destruct (hour_shape _ _ _ Hq Hx) as [[? [=]]|(? & ? & [=])].
    - destruct (each_In _ _ _ _ Hd H) as (dm & q & _ & Hq & Hx). destruct (day_shape _ _ _ Hq Hx) as [? [=]].
  Qed.
  Lemma in_hour x : In x g -> (forall c, x <> Solstice c) -> (forall c, x <> Equinox c) -> (forall a b c, x <> DayPath a b c) ->
    exists hm q, In hm grid_hours /\ draw_hour z lat lon year hm = Ok q /\ In x q.
  Proof.
    intros Hx N1 N2 N3. destruct grid_parts as (a & b & h & d & -> & Ha & Hb & Hh & Hd). rewrite !in_app_iff in Hx. destruct Hx as [H|[H|[H|H]]].
    - destruct is; [|subst a; destruct H]. destruct Ha as (k & Hk & ->). destruct H as [<-|[]]. now elim (N1 k).
    - destruct ie; [|subst b; destruct H]. destruct Hb as (k & Hk & ->). destruct H as [<-|[]]. now elim (N2 k).
    - exact (each_In _ _ _ _ Hh H).
    - destruct (each_In _ _ _ _ Hd H) as (dm & q & _ & Hq & Hx). destruct (day_shape _ _ _ Hq Hx) as [c ->]. now elim (N3 (fst dm) (snd dm) c).
  Qed.
  Lemma in_day a0 b0 c0 : In (DayPath a0 b0 c0) g -> exists q, In (a0, b0) grid_days /\ draw_day z lat lon year (a0, b0) = Ok q /\ In (DayPath a0 b0 c0) q.
  Proof.
    intros Hx. destruct grid_parts as (a & b & h & d & -> & Ha & Hb & Hh & Hd). rewrite !in_app_iff in Hx. destruct Hx as [H|[H|[H|H]]].
    - destruct is; [|subst a; destruct H]. destruct Ha as (k & Hk & ->). destruct H as [[=]|[]].
    - destruct ie; [|subst b; destruct H]. destruct Hb as (k & Hk & ->). destruct H as [[=]|[]].
    - destruct (each_In _ _ _ _ Hh H) as (hm & q & _ & Hq & Hx). destruct (hour_shape _ _ _ Hq Hx) as [[? [=]]|(? & ? & [=])].
    - destruct (each_In _ _ _ _ Hd H) as ([d0 m0] & q & Hin & Hq & Hx). destruct (day_shape _ _ _ Hq Hx) as [c E]. cbn [fst snd] in E. injection E as -> -> ->. eauto.
  Qed.
End Curves.

(** ** C62: the solstice curves and the user's day are the sun's positions on those dates, by the zone's clock *)
Theorem C62_solstices : forall F (O : Ops F) z lat lon cal y w days months hours minutes is ie (g : list (drawn F)),
  zone_wf z -> calendar cal -> in_year cal y w ->
  draw_solar_grid z lat lon w days months hours minutes is ie = Ok g ->
  (is = true -> exists c, In (Solstice c) g) /\ (ie = true -> exists c, In (Equinox c) g) /\
  (forall c, In (Solstice c) g -> is = true /\ exists us, clock_instants z (every (cal y 6 21 * NS_PER_DAY) 720 (2 * MINUTE)) us /\ shows lat lon us c) /\
  (forall c, In (Equinox c) g -> ie = true /\ exists us, clock_instants z (every (cal y 12 21 * NS_PER_DAY) 720 (2 * MINUTE)) us /\ shows lat lon us c).
Proof.
  intros F O z lat lon cal y w days months hours minutes is ie g Hz Hc Hy Hg. assert (Ey := year_of_in cal y w Hc Hy).
  repeat apply conj.
  - intros ->. destruct (grid_parts z lat lon w _ _ _ _ _ _ g Hg) as (a & b & h & d & -> & (k & _ & ->) & _). exists k. now left.
  - intros ->. destruct (grid_parts z lat lon w _ _ _ _ _ _ g Hg) as (a & b & h & d & -> & _ & (k & _ & ->) & _). exists k. rewrite !in_app_iff. right. left. now left.
  - intros c H. apply (in_solstice z lat lon w _ _ _ _ _ _ g Hg) in H as [H1 H2]. split; [exact H1|]. rewrite Ey, (midnight_cal cal) in H2 by (assumption || lia).
    exact (utc_curve z lat lon Hz _ _ _ _ H2).
  - intros c H. apply (in_equinox z lat lon w _ _ _ _ _ _ g Hg) in H as [H1 H2]. split; [exact H1|]. rewrite Ey, (midnight_cal cal) in H2 by (assumption || lia).
    exact (utc_curve z lat lon Hz _ _ _ _ H2).
Qed.
(** The user's day: the 288 five-minute readings of the date of the reading given, and the user's instant itself. *)
Theorem C62_user_path : forall F (O : Ops F) z lat lon w (p : list (drawn F)),
  zone_wf z -> draw_solar_path z lat lon (UserText w None) = Ok p ->
  exists u day line point, p = [UserPath day; UserAnalemma line; UserPoint point] /\ shown_once z w u /\
    (exists us, clock_instants z (every (w / NS_PER_DAY * NS_PER_DAY) 288 (5 * MINUTE)) us /\ shows lat lon us day) /\
    shows lat lon [u] point.
Proof.
  intros F O z lat lon w p Hz. unfold draw_solar_path. destruct (tz_localize_raise z w) as [u|] eqn:Eu; [|discriminate]. cbn [rbind].
  destruct (sunpath _ _ _) as [day|] eqn:E1; [|discriminate]. cbn [rbind]. destruct (sunpath _ _ (as_naive _)) as [line|] eqn:E2; [|discriminate]. cbn [rbind].
  destruct (sunpath _ _ (as_utc _)) as [pt|] eqn:E3; [|discriminate]. intros [= <-]. exists u, day, line, pt. split; [reflexivity|].
  assert (Ho : shown_once z w u). { apply once_candidates; [exact Hz|]. unfold tz_localize_raise in Eu. destruct (candidates z w) as [|v [|]]; try discriminate Eu. now injection Eu as ->. }
  split; [exact Ho|]. split.
  - replace (w - w mod NS_PER_DAY) with (w / NS_PER_DAY * NS_PER_DAY) in E1 by (pose proof (Z.div_mod w NS_PER_DAY); unfold NS_PER_DAY, NS_PER_S in *; lia). exact (local_curve z lat lon Hz _ _ _ _ E1).
  - apply (sunpath_shows lat lon _ [u] pt E3). rewrite instants_utc. cbn. f_equal. f_equal. lia.
Qed.

(** ** C63: the hour lines.  The curve drawn for a label h:m consists of the positions when UTC, not the zone's clock, reads h:m. *)
Definition hour_readings (cal : Z -> Z -> Z -> Z) (y h m : Z) : list Z :=
  every (cal y 1 1 * NS_PER_DAY + (60 * h + m) * MINUTE) (Z.to_nat (cal (y + 1) 1 1 - cal y 1 1)) NS_PER_DAY.
Lemma hour_line_inv F (O : Ops F) z lat lon y h m (q : list (drawn F)) : draw_hour z lat lon y (h, m) = Ok q ->
  exists line u az al, sunpath lat lon (as_naive (local_range z (midnight y 1 1 + (60 * h + m) * MINUTE) (days_of_year y) NS_PER_DAY)) = Ok line /\
    tz_localize_raise z (midnight y 6 21 + (60 * h + m) * MINUTE) = Ok u /\
    sunpath lat lon (as_local z [((midnight y 6 21 + (60 * h + m) * MINUTE), (midnight y 6 21 + (60 * h + m) * MINUTE - u))]) = Ok {| cv_azimuth := [az]; cv_altitude := [al] |} /\
    q = HourLine h m line :: (if fle (lit 0) al then [HourLabel h m az al] else []).
Proof.
  unfold draw_hour. cbv zeta.
  match goal with |- rbind ?x _ = _ -> _ => destruct x as [c|] eqn:E1; [|discriminate] end. cbn [rbind].
  match goal with |- rbind ?x _ = _ -> _ => destruct x as [u|] eqn:E2; [|discriminate] end. cbn [rbind].
  match goal with |- rbind ?x _ = _ -> _ => destruct x as [p|] eqn:E3; [|discriminate] end. cbn [rbind].
  destruct p as [azs als]. cbn [cv_azimuth cv_altitude].
  destruct azs as [|az [|]]; try discriminate. destruct als as [|al [|]]; try discriminate. intros E. apply Ok_eq in E. subst q. exists c, u, az, al. auto.
Qed.
Theorem C63_hour_lines_refuted : forall F (O : Ops F) z lat lon cal y w days months hours minutes is ie (g : list (drawn F)) h m c,
  zone_wf z -> calendar cal -> in_year cal y w ->
  draw_solar_grid z lat lon w days months hours minutes is ie = Ok g -> In (HourLine h m c) g ->
  exists us, clock_instants z (hour_readings cal y h m) us /\ shows lat lon (map (fun u => u + z_offset z u) us) c.
Proof.
  intros F O z lat lon cal y w days months hours minutes is ie g h m c Hz Hc Hy Hg Hx. assert (Ey := year_of_in cal y w Hc Hy).
  destruct (in_hour z lat lon w _ _ _ _ _ _ g Hg _ Hx) as ([h' m'] & q & _ & Hq & Hx'); try discriminate. rewrite Ey in Hq.
  apply hour_line_inv in Hq as (line & u & az & al & H1 & _ & _ & ->). destruct Hx' as [[= -> -> ->]|Hx']; [|destruct (fle _ al); cbn in Hx'; intuition discriminate].
  apply (naive_curve z lat lon Hz) in H1. destruct H1 as (us & H1 & H2). exists us. split; [|exact H2].
  unfold hour_readings. rewrite <- (days_of_year_cal cal y Hc), Nat2Z.id, <- (midnight_cal cal) by (assumption || lia). exact H1.
Qed.
(** They are right if the zone's offset is zero at all those instants; the labels are right in every zone. *)
Theorem C63_hour_lines_partial : forall F (O : Ops F) z lat lon cal y w days months hours minutes is ie (g : list (drawn F)),
  zone_wf z -> calendar cal -> in_year cal y w ->
  draw_solar_grid z lat lon w days months hours minutes is ie = Ok g ->
  (forall h m c, In (HourLine h m c) g -> (forall r u, In r (hour_readings cal y h m) -> shown_once z r u -> z_offset z u = 0) ->
     exists us, clock_instants z (hour_readings cal y h m) us /\ shows lat lon us c) /\
  (forall h m az al, In (HourLabel h m az al) g -> exists u, shown_once z (cal y 6 21 * NS_PER_DAY + (60 * h + m) * MINUTE) u /\ position_at lat lon u az al /\ fle (lit 0) al = true).
Proof.
  intros F O z lat lon cal y w days months hours minutes is ie g Hz Hc Hy Hg. split.
  - intros h m c Hx H0. destruct (C63_hour_lines_refuted F O z lat lon cal y w days months hours minutes is ie g h m c Hz Hc Hy Hg Hx) as (us & H1 & H2). exists us. split; [exact H1|].
    replace (map (fun u => u + z_offset z u) us) with us in H2; [exact H2|]. clear H2. revert H0. generalize dependent (hour_readings cal y h m). intros rs H1 H0.
    induction H1 as [|r u ws us Ho H1 IH|r ws us Hn H1 IH]; [reflexivity| |].
    + cbn [map]. rewrite <- IH by (intros r' u' Hr; apply H0; now right). f_equal. rewrite (H0 r u (or_introl eq_refl) Ho). lia.
    + apply IH. intros r' u' Hr. apply H0. now right.
  - intros h m az al Hx. assert (Ey := year_of_in cal y w Hc Hy).
    destruct (in_hour z lat lon w _ _ _ _ _ _ g Hg _ Hx) as ([h' m'] & q & _ & Hq & Hx'); try discriminate. rewrite Ey in Hq.
    apply hour_line_inv in Hq as (line & u & az' & al' & _ & H2 & H3 & ->). destruct Hx' as [[=]|Hx']. destruct (fle (lit 0) al') eqn:El; [|destruct Hx']. destruct Hx' as [[= -> -> -> ->]|[]].
    exists u. rewrite (midnight_cal cal) in H2, H3 by (assumption || lia). split; [|split; [|exact El]].
    + apply once_candidates; [exact Hz|]. unfold tz_localize_raise in H2. destruct (candidates z _) as [|v [|]]; try discriminate H2. now injection H2 as ->.
    + apply (sunpath_shows lat lon _ [u]) in H3; [|rewrite instants_local; cbn; f_equal; f_equal; lia]. destruct H3 as [H3 _]. cbn in H3. inversion H3; subst. assumption.
Qed.

(** ** C64: the dates of the day curves *)
Lemma parse_swap cal a b y start : calendar cal -> parse_slashes a b y = Ok start ->
  (a <= 12 /\ start = cal y a b * NS_PER_DAY) \/ (12 < a /\ start = cal y b a * NS_PER_DAY).
Proof.
  intros Hc. unfold parse_slashes. destruct (Z.leb_spec a 12) as [L|L].
  - destruct (_ && _) eqn:E; [|discriminate]. intros [= <-]. left. split; [exact L|]. apply midnight_cal; [exact Hc|].
    repeat (apply andb_prop in E as [E ?]). rewrite !Z.leb_le in *. lia.
  - destruct (_ && _) eqn:E; [|discriminate]. intros [= <-]. right. split; [exact L|]. apply midnight_cal; [exact Hc|].
    repeat (apply andb_prop in E as [E ?]). rewrite !Z.leb_le in *. lia.
Qed.
Lemma day_curve F (O : Ops F) z lat lon cal y w days months hours minutes is ie (g : list (drawn F)) d m c :
  zone_wf z -> calendar cal -> in_year cal y w ->
  draw_solar_grid z lat lon w days months hours minutes is ie = Ok g -> In (DayPath d m c) g ->
  exists us, clock_instants z (every ((if d <=? 12 then cal y d m else cal y m d) * NS_PER_DAY) 288 (5 * MINUTE)) us /\ shows lat lon us c.
Proof.
  intros Hz Hc Hy Hg Hx. assert (Ey := year_of_in cal y w Hc Hy).
  destruct (in_day z lat lon w _ _ _ _ _ _ g Hg _ _ _ Hx) as (q & _ & Hq & Hx'). rewrite Ey in Hq. unfold draw_day in Hq.
  destruct (parse_slashes d m y) as [start|] eqn:Ep; [|discriminate Hq]. cbn [rbind] in Hq. destruct (sunpath _ _ _) as [k|] eqn:Ek; [|discriminate Hq]. cbn [rbind] in Hq.
  apply Ok_eq in Hq. subst q. destruct Hx' as [[= ->]|[]]. apply (local_curve z lat lon Hz) in Ek.
  destruct (parse_swap cal d m y start Hc Ep) as [[L ->]|[L ->]]; [apply Z.leb_le in L|apply Z.leb_gt in L]; rewrite L; exact Ek.
Qed.
(** A curve labelled day/month shows that day if the day is above 12 (or equals the month) ... *)
Theorem C64_days_partial : forall F (O : Ops F) z lat lon cal y w days months hours minutes is ie (g : list (drawn F)) d m c,
  zone_wf z -> calendar cal -> in_year cal y w ->
  draw_solar_grid z lat lon w days months hours minutes is ie = Ok g -> In (DayPath d m c) g ->
  12 < d \/ d = m ->
  exists us, clock_instants z (every (cal y m d * NS_PER_DAY) 288 (5 * MINUTE)) us /\ shows lat lon us c.
Proof.
  intros F O z lat lon cal y w days months hours minutes is ie g d m c Hz Hc Hy Hg Hx Hd.
  destruct (day_curve F O z lat lon cal y w days months hours minutes is ie g d m c Hz Hc Hy Hg Hx) as (us & H). exists us.
  destruct (Z.leb_spec d 12); [|exact H]. destruct Hd as [|<-]; [lia|exact H].
Qed.
(** ... and otherwise the day with day and month exchanged. *)
Theorem C64_swapped_refuted : forall F (O : Ops F) z lat lon cal y w days months hours minutes is ie (g : list (drawn F)) d m c,
  zone_wf z -> calendar cal -> in_year cal y w ->
  draw_solar_grid z lat lon w days months hours minutes is ie = Ok g -> In (DayPath d m c) g ->
  d <= 12 ->
  exists us, clock_instants z (every (cal y d m * NS_PER_DAY) 288 (5 * MINUTE)) us /\ shows lat lon us c.
Proof.
  intros F O z lat lon cal y w days months hours minutes is ie g d m c Hz Hc Hy Hg Hx Hd.
  destruct (day_curve F O z lat lon cal y w days months hours minutes is ie g d m c Hz Hc Hy Hg Hx) as (us & H). exists us.
  apply Z.leb_le in Hd. rewrite Hd in H. exact H.
Qed.
(** Which days are drawn: every combination of the given days and months, and the two solstices; by default the 15th of the
    other months, so that all default curves are right. *)
Lemma in_add_day l d x : In x (add_day l d) <-> In x l \/ x = d.
Proof.
  unfold add_day. destruct (existsb _ l) eqn:E.
  - split; [auto|]. intros [H| ->]; [exact H|]. apply existsb_exists in E as (e & He & Ee). apply andb_prop in Ee as [E1 E2]. apply Z.eqb_eq in E1, E2.
    destruct e, d; cbn in *; subst. exact He.
  - rewrite in_app_iff. cbn. intuition.
Qed.
(** The elements [v] of a list argument, or of its default if the argument is missing or empty. *)
Definition asked (x : option (list Z)) (default : list Z) (v : Z) : Prop :=
  (exists l, x = Some l /\ In v l) \/ ((x = None \/ x = Some []) /\ In v default).
Lemma asked_or_default x d v : In v (or_default x d) <-> asked x d v.
Proof.
  unfold asked. destruct x as [[|a l]|]; cbn [or_default].
  - split; [right; auto|intros [(l & [= <-] & [])|[_ H]]; exact H].
  - split; [left; eauto|intros [(k & [= <-] & H)|[[H|H] _]]; [exact H|discriminate H|discriminate H]].
  - split; [right; auto|intros [(l & [=] & _)|[_ H]]; exact H].
Qed.
Theorem C64_which_days : forall F (O : Ops F) z lat lon w days months hours minutes is ie (g : list (drawn F)) d m,
  draw_solar_grid z lat lon w days months hours minutes is ie = Ok g ->
  ((exists c, In (DayPath d m c) g) <->
   (asked days [15] d /\ asked months [1; 2; 3; 4; 5; 7; 8; 9; 10; 11] m) \/ (d, m) = (21, 6) \/ (d, m) = (21, 12)).
Proof.
  intros F O z lat lon w days months hours minutes is ie g d m Hg.
  transitivity (In (d, m) (grid_days days months)).
  2:{ unfold grid_days. rewrite !in_add_day, in_prod_iff, !asked_or_default. tauto. }
  split.
  - intros [c Hx]. destruct (in_day z lat lon w _ _ _ _ _ _ g Hg _ _ _ Hx) as (q & H & _). exact H.
  - intros H. destruct (grid_parts z lat lon w _ _ _ _ _ _ g Hg) as (a & b & h & e & -> & _ & _ & _ & He).
    destruct (each_all _ _ _ _ He H) as (q & Hq & Hin). unfold draw_day in Hq. destruct (parse_slashes d m _) as [start|]; [|discriminate Hq]. cbn [rbind] in Hq.
    destruct (sunpath _ _ _) as [k|]; [|discriminate Hq]. apply Ok_eq in Hq. exists k. rewrite !in_app_iff. right. right. right. apply Hin. rewrite <- Hq. now left.
Qed.
Theorem C64_default_days : forall F (O : Ops F) z lat lon cal y w hours minutes is ie (g : list (drawn F)) d m c,
  zone_wf z -> calendar cal -> in_year cal y w ->
  draw_solar_grid z lat lon w None None hours minutes is ie = Ok g -> In (DayPath d m c) g ->
  exists us, clock_instants z (every (cal y m d * NS_PER_DAY) 288 (5 * MINUTE)) us /\ shows lat lon us c.
Proof.
  intros F O z lat lon cal y w hours minutes is ie g d m c Hz Hc Hy Hg Hx.
  apply (C64_days_partial F O z lat lon cal y w None None hours minutes is ie g d m c Hz Hc Hy Hg Hx). left.
  assert (H := proj1 (C64_which_days F O z lat lon w None None hours minutes is ie g d m Hg) (ex_intro _ c Hx)).
  rewrite <- asked_or_default in H. cbn in H. destruct H as [[[<-|[]] _]|[[= -> ->]|[= -> ->]]]; lia.
Qed.
(** Which hours have a line: every combination of the given hours and minutes; by default the 24 full hours. *)
Theorem C63_which_hours : forall F (O : Ops F) z lat lon w days months hours minutes is ie (g : list (drawn F)) h m,
  draw_solar_grid z lat lon w days months hours minutes is ie = Ok g ->
  ((exists c, In (HourLine h m c) g) <->
   asked hours [0; 1; 2; 3; 4; 5; 6; 7; 8; 9; 10; 11; 12; 13; 14; 15; 16; 17; 18; 19; 20; 21; 22; 23] h /\ asked minutes [0] m).
Proof.
  intros F O z lat lon w days months hours minutes is ie g h m Hg.
  transitivity (In (h, m) (grid_hours hours minutes)).
  2:{ unfold grid_hours. rewrite in_prod_iff, !asked_or_default. reflexivity. }
  split.
  - intros [c Hx]. destruct (in_hour z lat lon w _ _ _ _ _ _ g Hg _ Hx) as (hm & q & H & Hq & Hx'); try discriminate.
    destruct (hour_shape z lat lon w q hm _ Hq Hx') as [[c' E]|(az & al & E)]; [|discriminate E]. injection E as -> -> _. destruct hm. exact H.
  - intros H. destruct (grid_parts z lat lon w _ _ _ _ _ _ g Hg) as (a & b & hh & e & -> & _ & _ & He & _).
    destruct (each_all _ _ _ _ He H) as (q & Hq & Hin). apply hour_line_inv in Hq as (line & u & az & al & _ & _ & _ & ->).
    exists line. rewrite !in_app_iff. right. right. left. apply Hin. now left.
Qed.

(** ** C65: for which sites there is a chart *)
Theorem C65_sites : forall E (lat lon : ext),
  (chart_init (O := ExtOps E) lat lon = Ok tt <-> exists a b, lat = Fin a /\ lon = Fin b /\ (-90 < a < 90)%R /\ (-180 <= b < 180)%R) /\
  (chart_init (O := ExtOps E) lat lon = Ok tt \/ chart_init (O := ExtOps E) lat lon = Raise AssertionError).
Proof.
  intros E lat lon. unfold chart_init. ext_ops. unfold guard. split.
  - split.
    + destruct lat as [| | |a], lon as [| | |b]; cbn; unfold Rltb, Rleb; repeat (destruct (Rlt_dec _ _) || destruct (Rle_dec _ _)); cbn; try discriminate; intros _.
      exists a, b. repeat split; try reflexivity; q2; lra.
    + intros (a & b & -> & -> & Ha & Hb). cbn. unfold Rltb, Rleb. repeat (destruct (Rlt_dec _ _) || destruct (Rle_dec _ _)); cbn; try reflexivity; exfalso; q2; lra.
  - destruct (_ && _); cbn; [|auto]. destruct (_ && _); cbn; [|auto]. destruct (_ && _); cbn; [|auto]. destruct (_ && _); cbn; auto.
Qed.

(** ** C66: when [make_solar_chart] makes a chart *)
(** Without a date and time (its default) it never does. *)
Theorem C66_default_refuted : forall F (O : Ops F) z lat lon now machine,
  exists e, make_solar_chart (F := F) z lat lon now machine NoTime = Raise e.
Proof.
  intros F O z lat lon now machine. unfold make_solar_chart. destruct (chart_init lat lon) as [u|e]; cbn [rbind]; [|eauto].
  destruct (draw_solar_grid _ _ _ _ _ _ _ _ _ _) as [g|e]; cbn [rbind]; [|eauto]. cbn. eauto.
Qed.
(** Nor with a date and time text that has a UTC offset, or that the zone's clock does not show exactly once. *)
Theorem C66_times_refuted : forall F (O : Ops F) z lat lon now machine w off,
  zone_wf z -> off <> None \/ (forall u, ~ shown_once z w u) ->
  exists e, make_solar_chart (F := F) z lat lon now machine (UserText w off) = Raise e.
Proof.
  intros F O z lat lon now machine w off Hz H. unfold make_solar_chart. destruct (chart_init lat lon) as [u|e]; cbn [rbind]; [|eauto].
  destruct off as [o|]; [cbn [rbind]; eauto|]. destruct H as [H|H]; [now elim H|].
  destruct (draw_solar_grid _ _ _ _ _ _ _ _ _ _) as [g|e]; cbn [rbind]; [|eauto]. unfold draw_solar_path, tz_localize_raise.
  destruct (candidates z w) as [|u0 [|]] eqn:E; cbn [rbind]; [eauto| |eauto]. exfalso. apply (H u0). now apply once_candidates.
Qed.
Lemma init_coords F (O : Ops F) (lat lon : F) t : chart_init lat lon = Ok t -> coords_ok [lat] [lon].
Proof.
  unfold chart_init, guard. destruct (_ && _); cbn; [|discriminate]. destruct (_ && _); cbn; [|discriminate].
  destruct (_ && _) eqn:E1; cbn; [|discriminate]. destruct (fle (lit (-180)) lon && _) eqn:E2; cbn; [|discriminate]. intros _.
  apply andb_prop in E1, E2. split; intros x [<-|[]]; right; tauto.
Qed.
Lemma days_in_length y m : 1 <= m <= 12 -> days_in y m = month_length y m.
Proof.
  intros H. unfold days_in, np_days_per_month, month_length. rewrite np_leap.
  assert (C : m = 1 \/ m = 2 \/ m = 3 \/ m = 4 \/ m = 5 \/ m = 6 \/ m = 7 \/ m = 8 \/ m = 9 \/ m = 10 \/ m = 11 \/ m = 12) by lia.
  repeat destruct C as [->|C]; try subst m; reflexivity.
Qed.
Lemma parse_ok d m y : 12 < d -> 1 <= m <= 12 -> d <= 28 -> exists s, parse_slashes d m y = Ok s.
Proof.
  intros Hd Hm Hl. unfold parse_slashes. destruct (Z.leb_spec d 12); [lia|]. rewrite days_in_length by exact Hm.
  assert (28 <= month_length y m) by (unfold month_length; destruct (m =? 2), (leap y), ((m =? 4) || (m =? 6) || (m =? 9) || (m =? 11)); lia).
  replace ((1 <=? m) && (m <=? 12) && (1 <=? d) && (d <=? month_length y m)) with true; [eauto|].
  symmetry. rewrite !andb_true_iff, !Z.leb_le. lia.
Qed.
(** Otherwise it does, for a site the chart accepts, if the zone's clock shows each full hour of 21 June exactly once: all the
    curves of C62-C64 and C67. *)
Theorem C66_made : forall F (O : Ops F) z (lat lon : F) now machine cal y w u,
  zone_wf z -> calendar cal -> in_year cal y w -> shown_once z w u ->
  (forall h, 0 <= h < 24 -> exists v, shown_once z (cal y 6 21 * NS_PER_DAY + 60 * h * MINUTE) v) ->
  chart_init lat lon = Ok tt ->
  exists g p, make_solar_chart z lat lon now machine (UserText w None) = Ok (g ++ p) /\
    draw_solar_grid z lat lon w None None None None true true = Ok g /\ draw_solar_path z lat lon (UserText w None) = Ok p /\
    (exists c, In (Solstice c) g) /\ (exists c, In (Equinox c) g) /\ (forall h, 0 <= h < 24 -> exists c, In (HourLine h 0 c) g).
Proof.
  intros F O z lat lon now machine cal y w u Hz Hc Hy Hw Hh Hi. assert (Ey := year_of_in cal y w Hc Hy).
  assert (Hco := init_coords F O lat lon tt Hi).
  assert (P1 : forall l, exists c, sunpath lat lon (as_local z l) = Ok c) by (intros l; apply sunpath_ok; try discriminate; exact Hco).
  assert (P2 : forall l, exists c, sunpath lat lon (as_utc l) = Ok c) by (intros l; apply sunpath_ok; try discriminate; exact Hco).
  assert (P3 : forall l, exists c, sunpath lat lon (as_naive l) = Ok c) by (intros l; apply sunpath_ok; try discriminate; exact Hco).
  assert (R : forall r v, shown_once z r v -> tz_localize_raise z r = Ok v).
  { intros r v Hv. apply (once_candidates z r v Hz) in Hv. unfold tz_localize_raise. now rewrite Hv. }
  assert (DH : forall h, 0 <= h < 24 -> exists q, draw_hour z lat lon y (h, 0) = Ok q).
  { intros h Hr. unfold draw_hour. destruct (P3 (local_range z (midnight y 1 1 + (60 * h + 0) * MINUTE) (days_of_year y) NS_PER_DAY)) as [c ->]. cbn [rbind].
    destruct (Hh h Hr) as [v Hv]. rewrite (midnight_cal cal y 6 21) by (assumption || lia).
    replace ((60 * h + 0) * MINUTE) with (60 * h * MINUTE) by ring. rewrite (R _ _ Hv). cbn [rbind].
    match goal with |- context[as_local z ?l] => destruct (P1 l) as [p Hp] end. rewrite Hp. cbn [rbind].
    apply (sunpath_shows lat lon _ [v]) in Hp; [|rewrite instants_local; cbn; f_equal; f_equal; lia]. destruct Hp as (_ & L1 & L2).
    destruct (cv_azimuth p) as [|az [|]]; try discriminate L1. destruct (cv_altitude p) as [|al [|]]; try discriminate L2. eauto. }
  assert (DD : forall dm, In dm (grid_days None None) -> exists q, draw_day z lat lon y dm = Ok q).
  { intros [d m] Hin. unfold grid_days in Hin. rewrite !in_add_day, in_prod_iff in Hin.
    assert (B : 12 < d /\ 1 <= m <= 12 /\ d <= 28). { cbn in Hin. destruct Hin as [[[[<-|[]] Hm]|[= -> ->]]|[= -> ->]]; lia. }
    unfold draw_day. destruct (parse_ok d m y) as [s ->]; try tauto. cbn [rbind]. destruct (P1 (local_range z s 288 (5 * MINUTE))) as [c ->]. cbn [rbind]. eauto. }
  assert (G : exists g, draw_solar_grid z lat lon w None None None None true true = Ok g).
  { unfold draw_solar_grid. rewrite (R _ _ Hw). cbn [rbind]. rewrite Ey.
    destruct (P2 (local_range z (midnight y 6 21) 720 (2 * MINUTE))) as [a ->]. cbn [rbind].
    destruct (P2 (local_range z (midnight y 12 21) 720 (2 * MINUTE))) as [b ->]. cbn [rbind].
    destruct (each_ok (draw_hour z lat lon y) (list_prod (or_default None (map Z.of_nat (seq 0 24))) (or_default None [0]))) as [hs ->].
    { intros [h m] Hin. apply in_prod_iff in Hin as [H1 [<-|[]]]. apply in_map_iff in H1 as (k & <- & Hk). apply in_seq in Hk. apply DH. lia. }
    cbn [rbind]. change (add_day (add_day (list_prod (or_default None [15]) (or_default None [1; 2; 3; 4; 5; 7; 8; 9; 10; 11])) (21, 6)) (21, 12)) with (grid_days None None).
    destruct (each_ok (draw_day z lat lon y) (grid_days None None) DD) as [ds ->]. cbn [rbind]. eauto. }
  destruct G as [g Hg].
  assert (U : exists p, draw_solar_path z lat lon (UserText w None) = Ok p).
  { unfold draw_solar_path. rewrite (R _ _ Hw). cbn [rbind]. match goal with |- context[as_local z ?l] => destruct (P1 l) as [a ->] end. cbn [rbind].
    match goal with |- context[as_naive ?l] => destruct (P3 l) as [b ->] end. cbn [rbind]. match goal with |- context[as_utc ?l] => destruct (P2 l) as [c ->] end. cbn [rbind]. eauto. }
  destruct U as [p Hp]. exists g, p. split; [unfold make_solar_chart; rewrite Hi; cbn [rbind]; rewrite Hg; cbn [rbind]; rewrite Hp; reflexivity|].
  split; [exact Hg|]. split; [exact Hp|].
  destruct (C62_solstices F O z lat lon cal y w _ _ _ _ _ _ g Hz Hc Hy Hg) as (S1 & S2 & _). split; [exact (S1 eq_refl)|]. split; [exact (S2 eq_refl)|].
  intros h Hr. destruct (grid_parts z lat lon w _ _ _ _ _ _ g Hg) as (a & b & hs & e & -> & _ & _ & He & _).
  assert (Hin : In (h, 0) (grid_hours None None)).
  { unfold grid_hours. apply in_prod_iff. split; [|now left]. apply in_map_iff. exists (Z.to_nat h). rewrite in_seq. lia. }
  destruct (each_all _ _ _ _ He Hin) as (q & Hq & Hq'). apply hour_line_inv in Hq as (line & v & az & al & _ & _ & _ & ->).
  exists line. rewrite !in_app_iff. right. right. left. apply Hq'. now left.
Qed.

(** ** C67: the user's analemma *)
(** The sun's positions at the user's time of day in UTC, on the days from 1 January of the user's year in UTC, as many as the
    user's year has in the zone; without the UTC readings that the zone's clock would not show exactly once. *)
Definition utc_analemma (cal : Z -> Z -> Z -> Z) (y yu u : Z) : list Z :=
  every (cal yu 1 1 * NS_PER_DAY + u mod NS_PER_DAY) (Z.to_nat (cal (y + 1) 1 1 - cal y 1 1)) NS_PER_DAY.
Lemma user_analemma F (O : Ops F) z lat lon cal y yu w u day line pt :
  zone_wf z -> calendar cal -> in_year cal y w -> shown_once z w u -> in_year cal yu u ->
  draw_solar_path (F := F) z lat lon (UserText w None) = Ok [UserPath day; UserAnalemma line; UserPoint pt] ->
  exists us, clock_instants z (utc_analemma cal y yu u) us /\ shows lat lon (map (reading z) us) line.
Proof.
  intros Hz Hc Hy Hw Hu. unfold draw_solar_path. assert (Hcand := proj1 (once_candidates z w u Hz) Hw). unfold tz_localize_raise. rewrite Hcand. cbn [rbind].
  destruct (sunpath _ _ _) as [d|] eqn:E1; [|discriminate]. cbn [rbind]. destruct (sunpath _ _ (as_naive _)) as [l|] eqn:E2; [|discriminate]. cbn [rbind].
  destruct (sunpath _ _ (as_utc _)) as [p|] eqn:E3; [|discriminate]. intros E. apply Ok_eq in E. injection E as <- <- <-.
  rewrite (year_of_in cal y w Hc Hy) in E2. unfold jan1_same_clock in E2. rewrite (year_of_in cal yu u Hc Hu), (midnight_cal cal) in E2 by (assumption || lia).
  unfold utc_analemma. rewrite <- (days_of_year_cal cal y Hc), Nat2Z.id. exact (naive_curve z lat lon Hz _ _ _ _ E2).
Qed.
Lemma analemma_In z ws us x : zone_wf z -> clock_instants z ws us -> (In x (map (reading z) us) <-> In x ws /\ exists u, shown_once z x u).
Proof.
  intros Hz H. induction H as [|w u ws us Ho H IH|w ws us Hn H IH]; cbn [map In].
  - tauto.
  - rewrite IH. assert (Er : reading z u = w) by exact (proj1 Ho). split.
    2:{ intros [[E|E] Hx]; [left; congruence|right; auto]. }
    intros [E|[E Hx]]; [|split; [right; exact E|exact Hx]]. split; [left; congruence|]. exists u. replace x with w by congruence. exact Ho.
  - rewrite IH. split; [tauto|]. intros [[<-|H1] (u & Hu)]; [now elim (Hn u)|eauto].
Qed.
(** The user's point is among the instants of the user's analemma if the UTC reading of the instant is a reading the zone's
    clock shows exactly once, and the local and the UTC year are equally long (or it is not the 366th day) ... *)
Theorem C67_analemma_partial : forall F (O : Ops F) z lat lon cal y yu w u day line pt,
  zone_wf z -> calendar cal -> in_year cal y w -> shown_once z w u -> in_year cal yu u ->
  draw_solar_path (F := F) z lat lon (UserText w None) = Ok [UserPath day; UserAnalemma line; UserPoint pt] ->
  (exists v, shown_once z u v) -> u < (cal yu 1 1 + (cal (y + 1) 1 1 - cal y 1 1)) * NS_PER_DAY ->
  exists us, shows lat lon us line /\ In u us.
Proof.
  intros F O z lat lon cal y yu w u day line pt Hz Hc Hy Hw Hu Hp Hv Hl.
  destruct (user_analemma F O z lat lon cal y yu w u day line pt Hz Hc Hy Hw Hu Hp) as (us & H1 & H2). exists (map (reading z) us). split; [exact H2|].
  apply (analemma_In z _ us u Hz H1). split; [|exact Hv]. unfold utc_analemma, every. apply in_map_iff.
  destruct Hu as [Hu1 Hu2]. assert (DM := Z.div_mod u NS_PER_DAY ltac:(unfold NS_PER_DAY, NS_PER_S; lia)).
  assert (MB := Z.mod_pos_bound u NS_PER_DAY ltac:(unfold NS_PER_DAY, NS_PER_S; lia)).
  exists (Z.to_nat (u / NS_PER_DAY - cal yu 1 1)). rewrite in_seq. unfold NS_PER_DAY, NS_PER_S in *. lia.
Qed.
(** ... and is not when the local year is over in the zone but the (leap) year has its last day in UTC. *)
Theorem C67_analemma_refuted : forall F (O : Ops F) z lat lon cal y yu w u day line pt,
  zone_wf z -> calendar cal -> in_year cal y w -> shown_once z w u -> in_year cal yu u ->
  draw_solar_path (F := F) z lat lon (UserText w None) = Ok [UserPath day; UserAnalemma line; UserPoint pt] ->
  leap y = false -> (cal yu 1 1 + 365) * NS_PER_DAY <= u ->
  exists us, shows lat lon us line /\ (forall v, In v us -> v < u).
Proof.
  intros F O z lat lon cal y yu w u day line pt Hz Hc Hy Hw Hu Hp Hl Hd.
  destruct (user_analemma F O z lat lon cal y yu w u day line pt Hz Hc Hy Hw Hu Hp) as (us & H1 & H2). exists (map (reading z) us). split; [exact H2|].
  intros v Hv. apply (analemma_In z _ us v Hz H1) in Hv as [Hv _]. unfold utc_analemma, every in Hv. apply in_map_iff in Hv as (i & <- & Hi). apply in_seq in Hi.
  rewrite (jan1_cal cal (y + 1) Hc), (jan1_cal cal y Hc), jan1_next in Hi. unfold year_length in Hi. rewrite Hl in Hi.
  assert (DM := Z.div_mod u NS_PER_DAY ltac:(unfold NS_PER_DAY, NS_PER_S; lia)).
  assert (MB := Z.mod_pos_bound u NS_PER_DAY ltac:(unfold NS_PER_DAY, NS_PER_S; lia)).
  unfold NS_PER_DAY, NS_PER_S in *. lia.
Qed.

(** ** Examples: Berlin and its chart of 21 June 2024, 12:00 *)
Lemma berlin_summer w : 1712000000 * NS_PER_S <= w <= 1729000000 * NS_PER_S -> shown_once berlin2024 w (w - 2 * H1).
Proof.
  intros H. split.
  - unfold reading. cbn -[Z.mul Z.add NS_PER_S H1 Z.sub]. unfold H1, NS_PER_S in *.
    destruct (Z.leb_spec (1711846800 * 1000000000) (w - 2 * (3600 * 1000000000))), (Z.ltb_spec (w - 2 * (3600 * 1000000000)) (1729990800 * 1000000000)); cbn [andb]; lia.
  - intros u1 u2. unfold reading. cbn -[Z.mul Z.add NS_PER_S H1]. unfold H1, NS_PER_S in *.
    destruct (Z.leb_spec (1711846800 * 1000000000) u1), (Z.ltb_spec u1 (1729990800 * 1000000000)),
             (Z.leb_spec (1711846800 * 1000000000) u2), (Z.ltb_spec u2 (1729990800 * 1000000000)); cbn [andb]; lia.
Qed.
Lemma ex_coords E : chart_init (O := ExtOps E) (Fin 52.5) (Fin 13.4) = Ok tt.
Proof. apply C65_sites. exists 52.5%R, 13.4%R. repeat split; lra. Qed.
Lemma ex_year : in_year gregorian 2024 (1718971200 * NS_PER_S).
Proof. split; vm_compute; congruence. Qed.
Example C66_example : forall E now machine, exists g p,
  make_solar_chart (O := ExtOps E) berlin2024 (Fin 52.5) (Fin 13.4) now machine (UserText (1718971200 * NS_PER_S) None) = Ok (g ++ p) /\
  draw_solar_grid (O := ExtOps E) berlin2024 (Fin 52.5) (Fin 13.4) (1718971200 * NS_PER_S) None None None None true true = Ok g /\
  (exists c, In (HourLine 12 0 c) g).
Proof.
  intros E now machine.
  destruct (C66_made ext (ExtOps E) berlin2024 (Fin 52.5) (Fin 13.4) now machine gregorian 2024 (1718971200 * NS_PER_S) (1718971200 * NS_PER_S - 2 * H1)
    berlin_wf gregorian_calendar ex_year) as (g & p & H1' & H2 & _ & _ & _ & H3).
  - apply berlin_summer. unfold NS_PER_S. lia.
  - intros h Hh. eexists. apply berlin_summer. change (gregorian 2024 6 21) with 19895. unfold NS_PER_DAY, MINUTE, NS_PER_S. lia.
  - apply ex_coords.
  - exists g, p. split; [exact H1'|]. split; [exact H2|]. apply H3. lia.
Qed.
(** The line labelled 12 in Berlin: in the summer its positions are those of 12:00 UTC, which is 14:00 on Berlin's clocks. *)
Example C63_example : In (gregorian 2024 6 21 * NS_PER_DAY + 60 * 12 * MINUTE) (hour_readings gregorian 2024 12 0) /\
  shown_once berlin2024 (gregorian 2024 6 21 * NS_PER_DAY + 60 * 12 * MINUTE) (gregorian 2024 6 21 * NS_PER_DAY + 60 * 10 * MINUTE) /\
  gregorian 2024 6 21 * NS_PER_DAY + 60 * 10 * MINUTE + z_offset berlin2024 (gregorian 2024 6 21 * NS_PER_DAY + 60 * 10 * MINUTE) = gregorian 2024 6 21 * NS_PER_DAY + 60 * 12 * MINUTE.
Proof.
  split; [|split; [|reflexivity]].
  - unfold hour_readings, every. apply in_map_iff. exists (Z.to_nat (gregorian 2024 6 21 - gregorian 2024 1 1)). split; [reflexivity|]. apply in_seq.
    change (gregorian 2024 6 21 - gregorian 2024 1 1) with 172. change (gregorian (2024 + 1) 1 1 - gregorian 2024 1 1) with 366. lia.
  - replace (gregorian 2024 6 21 * NS_PER_DAY + 60 * 10 * MINUTE) with (gregorian 2024 6 21 * NS_PER_DAY + 60 * 12 * MINUTE - 2 * H1) by reflexivity.
    apply berlin_summer. split; vm_compute; congruence.
Qed.
(** 5 March asked for: drawn as 3 May. *)
Example C64_example : parse_slashes 5 3 2024 = Ok (gregorian 2024 5 3 * NS_PER_DAY) /\ gregorian 2024 5 3 <> gregorian 2024 3 5.
Proof. split; [reflexivity|]. vm_compute. congruence. Qed.
(** 00:30 on 1 January 2025 one hour east of Greenwich: 23:30 UTC on the 366th day of 2024. *)
Definition plus1 : zone := {| z_offset _ := H1; z_offsets := [H1] |}.
Example C67_example : let w := gregorian 2025 1 1 * NS_PER_DAY + 30 * MINUTE in let u := w - H1 in
  zone_wf plus1 /\ in_year gregorian 2025 w /\ shown_once plus1 w u /\ in_year gregorian 2024 u /\
  (exists day line pt, draw_solar_path (O := ExtOps ideal_env) plus1 (Fin 52.5) (Fin 13.4) (UserText w None) = Ok [UserPath day; UserAnalemma line; UserPoint pt]) /\
  leap 2025 = false /\ (gregorian 2024 1 1 + 365) * NS_PER_DAY <= u.
Proof.
  intros w u. assert (Hz : zone_wf plus1) by (intros v; now left).
  assert (Ho : forall r, shown_once plus1 r (r - H1)) by (intros r; split; [unfold reading; cbn -[H1]; lia|intros a b; unfold reading; cbn -[H1]; lia]).
  assert (Hy : in_year gregorian 2025 w) by (split; vm_compute; congruence).
  split; [exact Hz|]. split; [exact Hy|]. split; [apply Ho|]. split; [split; vm_compute; congruence|]. split; [|split; [reflexivity|vm_compute; congruence]].
  destruct (C66_made ext (ExtOps ideal_env) plus1 (Fin 52.5) (Fin 13.4) 0 plus1 gregorian 2025 w u Hz gregorian_calendar Hy (Ho w)) as (g & p & _ & _ & H3 & _).
  - intros h _. eexists. apply Ho.
  - apply ex_coords.
  - destruct (C62_user_path ext (ExtOps ideal_env) plus1 (Fin 52.5) (Fin 13.4) w p Hz H3) as (u' & day & line & pt & -> & _). exists day, line, pt. exact H3.
Qed.
