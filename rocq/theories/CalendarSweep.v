(** * CalendarSweep: NumPy's day-number-to-date conversion, for every day *)

From Coq Require Import ZArith List Bool Lia.
From Verif Require Import Calendar CalendarSpec CalendarLemmas.
Import ListNotations.
Open Scope Z_scope.

(** A year as NumPy's routine composes it. *)
Lemma year_parts q c a b : 0 <= c <= 3 -> 0 <= a <= 24 -> 0 <= b <= 3 ->
  let y := 400 * q + 100 * c + 4 * a + b + 2000 in
  y mod 4 = b /\ y mod 100 = 4 * a + b /\ y mod 400 = 100 * c + 4 * a + b.
Proof.
  intros Hc Ha Hb y. unfold y. repeat split; symmetry.
  - apply (Z.mod_unique _ _ (100 * q + 25 * c + a + 500)); lia.
  - apply (Z.mod_unique _ _ (4 * q + c + 20)); lia.
  - apply (Z.mod_unique _ _ (q + 5)); lia.
Qed.
Lemma jan1_parts q c a b : 0 <= c <= 3 -> 0 <= a <= 24 -> 0 <= b <= 3 ->
  jan1 (400 * q + 100 * c + 4 * a + b + 2000) =
    146097 * q + 36524 * c + 1461 * a + 365 * b + 10957
    + (if b =? 0 then 0 else 1) - (if (4 * a + b) =? 0 then 0 else 1) + (if (100 * c + 4 * a + b) =? 0 then 0 else 1).
Proof.
  intros Hc Ha Hb. unfold jan1.
  assert (E4 : (400 * q + 100 * c + 4 * a + b + 2000 - 1) / 4 = 100 * q + 25 * c + a + 500 - (if b =? 0 then 1 else 0)).
  { destruct (Z.eqb_spec b 0); symmetry; [apply (Z.div_unique _ _ _ 3)|apply (Z.div_unique _ _ _ (b - 1))]; lia. }
  assert (E100 : (400 * q + 100 * c + 4 * a + b + 2000 - 1) / 100 = 4 * q + c + 20 - (if (4 * a + b) =? 0 then 1 else 0)).
  { destruct (Z.eqb_spec (4 * a + b) 0); symmetry; [apply (Z.div_unique _ _ _ 99)|apply (Z.div_unique _ _ _ (4 * a + b - 1))]; lia. }
  assert (E400 : (400 * q + 100 * c + 4 * a + b + 2000 - 1) / 400 = q + 5 - (if (100 * c + 4 * a + b) =? 0 then 1 else 0)).
  { destruct (Z.eqb_spec (100 * c + 4 * a + b) 0); symmetry; [apply (Z.div_unique _ _ _ 399)|apply (Z.div_unique _ _ _ (100 * c + 4 * a + b - 1))]; lia. }
  rewrite E4, E100, E400. destruct (b =? 0), (4 * a + b =? 0), (100 * c + 4 * a + b =? 0); lia.
Qed.
Lemma leap_parts q c a b : 0 <= c <= 3 -> 0 <= a <= 24 -> 0 <= b <= 3 ->
  leap (400 * q + 100 * c + 4 * a + b + 2000) = (b =? 0) && negb (4 * a + b =? 0) || (100 * c + 4 * a + b =? 0).
Proof. intros Hc Ha Hb. destruct (year_parts q c a b Hc Ha Hb) as (E1 & E2 & E3). unfold leap. now rewrite E1, E2, E3. Qed.

(** The year and the day of the year (from 0). *)
Lemma ytd_parts q c a b yd y : 0 <= c <= 3 -> 0 <= a <= 24 -> 0 <= b <= 3 -> y = 400 * q + 100 * c + 4 * a + b + 2000 -> forall D,
  146097 * q + 36524 * c + 1461 * a + 365 * b + 10957 + yd
    + (if b =? 0 then 0 else 1) - (if (4 * a + b) =? 0 then 0 else 1) + (if (100 * c + 4 * a + b) =? 0 then 0 else 1) = D ->
  0 <= yd < (if (b =? 0) && negb (4 * a + b =? 0) || (100 * c + 4 * a + b =? 0) then 366 else 365) ->
  jan1 y + yd = D /\ 0 <= yd < year_length y.
Proof. intros Hc Ha Hb -> D HD Hyd. unfold year_length. rewrite jan1_parts, leap_parts by assumption. split; [|exact Hyd]. rewrite <- HD. ring. Qed.
Ltac eqs := repeat match goal with |- context[?x =? 0] => destruct (Z.eqb_spec x 0) end; cbn [andb orb negb]; try lia.
Lemma ytd_spec D y yd : days_to_yearsdays D = (y, yd) -> jan1 y + yd = D /\ 0 <= yd < year_length y.
Proof.
  unfold days_to_yearsdays. change days_per_400years with 146097. cbv zeta.
  assert (E := Z.div_mod (D - (365 * 30 + 7)) 146097 ltac:(lia)). assert (B := Z.mod_pos_bound (D - (365 * 30 + 7)) 146097 ltac:(lia)).
  revert E B. generalize ((D - (365 * 30 + 7)) / 146097) ((D - (365 * 30 + 7)) mod 146097). intros q d E B.
  destruct (Z.leb_spec 366 d) as [H1|H1].
  2:{ intros Hp; apply pair_equal_spec in Hp as [Hy Hd]; subst yd; apply (ytd_parts q 0 0 0); try lia; eqs. }
  assert (E1 := Z.div_mod (d - 1) 36524 ltac:(lia)). assert (B1 := Z.mod_pos_bound (d - 1) 36524 ltac:(lia)).
  change (100 * 365 + 25 - 1) with 36524.
  revert E1 B1. generalize ((d - 1) / 36524) ((d - 1) mod 36524). intros c e E1 B1.
  destruct (Z.leb_spec 365 e) as [H2|H2].
  2:{ intros Hp; apply pair_equal_spec in Hp as [Hy Hd]; subst yd; apply (ytd_parts q c 0 0); try lia; eqs. }
  assert (E2 := Z.div_mod (e + 1) 1461 ltac:(lia)). assert (B2 := Z.mod_pos_bound (e + 1) 1461 ltac:(lia)).
  change (4 * 365 + 1) with 1461.
  revert E2 B2. generalize ((e + 1) / 1461) ((e + 1) mod 1461). intros a f E2 B2.
  destruct (Z.leb_spec 366 f) as [H3|H3].
  2:{ intros Hp; apply pair_equal_spec in Hp as [Hy Hd]; subst yd; apply (ytd_parts q c a 0); try lia; eqs. }
  assert (E3 := Z.div_mod (f - 1) 365 ltac:(lia)). assert (B3 := Z.mod_pos_bound (f - 1) 365 ltac:(lia)).
  revert E3 B3. generalize ((f - 1) / 365) ((f - 1) mod 365). intros b g E3 B3.
  intros Hp; apply pair_equal_spec in Hp as [Hy Hd]; subst yd; apply (ytd_parts q c a b); try lia; eqs.
Qed.

(** The month and the day. *)
Lemma bisextile_leap y : bisextile y = leap y /\ np_is_leapyear y = leap y.
Proof.
  unfold bisextile, leap, np_is_leapyear. split; [reflexivity|].
  destruct (Z.eqb_spec (y mod 4) 0), (Z.eqb_spec (y mod 100) 0), (Z.eqb_spec (y mod 400) 0); cbn; auto; exfalso; Z.div_mod_to_equations; lia.
Qed.
Lemma civil_spec D y m d : civil_of_day D = (y, m, d) -> valid_date y m d /\ gregorian y m d = D /\ day_of_year y m d = D - jan1 y + 1.
Proof.
  unfold civil_of_day. destruct (days_to_yearsdays D) as [y' yd] eqn:E. apply ytd_spec in E as [E B].
  destruct (bisextile_leap y') as [Eb El]. unfold np_days_per_month. rewrite El.
  destruct (month_loop _ 1 yd) as [m' d'] eqn:Em. intros [= <- <- <-].
  unfold valid_date, gregorian, day_of_year, month_length, before_month. rewrite Eb.
  unfold year_length in B. revert E B Em. generalize (jan1 y') (leap y'). clear. intros j l E B Em.
  cbn [month_loop] in Em.
  destruct l; cbv iota in *;
  repeat (match type of Em with (if ?a <? ?b then _ else _) = _ => destruct (Z.ltb_spec a b) end;
    [apply pair_equal_spec in Em as [Hm Hd]; vm_compute in Hm; subst m'; cbn; unfold Pos.to_nat; cbn; lia|]); exfalso; lia.
Qed.
