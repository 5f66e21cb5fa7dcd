(** * CalendarLemmas: NumPy's calendar conversions are the Gregorian calendar *)

From Coq Require Import ZArith List Bool Lia.
From Verif Require Import Calendar CalendarSpec.
Import ListNotations.
Open Scope Z_scope.

(** A closed form of the day number. *)
Definition jan1 (y : Z) : Z := 365 * (y - 1970) + ((y - 1) / 4 - (y - 1) / 100 + (y - 1) / 400) - 477.
Definition before_month (y m : Z) : Z :=
  match m with 1 => 0 | 2 => 31 | 3 => 59 | 4 => 90 | 5 => 120 | 6 => 151 | 7 => 181 | 8 => 212 | 9 => 243 | 10 => 273 | 11 => 304 | 12 => 334 | _ => 0 end + (if leap y && (2 <? m) then 1 else 0).
Definition gregorian (y m d : Z) : Z := jan1 y + before_month y m + d - 1.

Lemma leap_mod y : leap (y + 400) = leap y.
Proof.
  unfold leap. replace ((y + 400) mod 4) with (y mod 4) by (Z.div_mod_to_equations; lia).
  replace ((y + 400) mod 100) with (y mod 100) by (Z.div_mod_to_equations; lia).
  replace ((y + 400) mod 400) with (y mod 400) by (Z.div_mod_to_equations; lia). reflexivity.
Qed.
Lemma leap_spec y : leap y = true <-> (y mod 4 = 0 /\ y mod 100 <> 0) \/ y mod 400 = 0.
Proof.
  unfold leap. destruct (Z.eqb_spec (y mod 4) 0), (Z.eqb_spec (y mod 100) 0), (Z.eqb_spec (y mod 400) 0); cbn; intuition congruence.
Qed.
Lemma jan1_next y : jan1 (y + 1) = jan1 y + year_length y.
Proof.
  unfold jan1, year_length. assert (H := leap_spec y). destruct (leap y).
  - assert (Hl := proj1 H eq_refl). clear H. Z.div_mod_to_equations. lia.
  - assert (Hl : ~ ((y mod 4 = 0 /\ y mod 100 <> 0) \/ y mod 400 = 0)) by (intros C; apply H in C; discriminate). clear H. Z.div_mod_to_equations. lia.
Qed.
Lemma gregorian_calendar : calendar gregorian.
Proof.
  constructor.
  - reflexivity.
  - intros. unfold gregorian. lia.
  - intros y m Hm. assert (m = 1 \/ m = 2 \/ m = 3 \/ m = 4 \/ m = 5 \/ m = 6 \/ m = 7 \/ m = 8 \/ m = 9 \/ m = 10 \/ m = 11) as H by lia.
    unfold gregorian, before_month, month_length. generalize (jan1 y) (leap y). intros j l.
    repeat destruct H as [->|H]; try subst m; destruct l; cbn; lia.
  - intros y. unfold gregorian. rewrite jan1_next. unfold before_month, year_length. change (jan1 y) with (jan1 y). generalize (jan1 y). intros j. destruct (leap y), (leap (y + 1)); cbn; lia.
Qed.

(** Any calendar agrees with the closed form on valid dates. *)
Lemma calendar_day c y m (H : calendar c) : forall d, c y m d = c y m 1 + (d - 1).
Proof.
  assert (Hp : forall n : nat, c y m (1 + Z.of_nat n) = c y m 1 + Z.of_nat n).
  { induction n; [rewrite Z.add_0_r; lia|]. replace (1 + Z.of_nat (S n)) with (1 + Z.of_nat n + 1) by lia. rewrite (cal_day _ H), IHn. lia. }
  assert (Hn : forall n : nat, c y m (1 - Z.of_nat n) = c y m 1 - Z.of_nat n).
  { induction n; [rewrite Z.sub_0_r; lia|]. assert (E := cal_day _ H y m (1 - Z.of_nat (S n))).
    replace (1 - Z.of_nat (S n) + 1) with (1 - Z.of_nat n) in E by lia. lia. }
  intros d. destruct (Z.le_gt_cases 1 d).
  - specialize (Hp (Z.to_nat (d - 1))). rewrite Z2Nat.id in Hp by lia. replace (1 + (d - 1)) with d in Hp by lia. lia.
  - specialize (Hn (Z.to_nat (1 - d))). rewrite Z2Nat.id in Hn by lia. replace (1 - (1 - d)) with d in Hn by lia. lia.
Qed.
Lemma calendar_unique c : calendar c -> forall y m d, 1 <= m <= 12 -> c y m d = gregorian y m d.
Proof.
  intros H y m d Hm.
  assert (Hmo : forall y, c y 1 1 = gregorian y 1 1 -> forall n : nat, (n <= 11)%nat -> c y (1 + Z.of_nat n) 1 = gregorian y (1 + Z.of_nat n) 1).
  { intros y0 H0. induction n; intros Hle; [now rewrite Z.add_0_r|].
    replace (1 + Z.of_nat (S n)) with (1 + Z.of_nat n + 1) by lia. rewrite (cal_month _ H), (cal_month _ gregorian_calendar) by lia.
    rewrite (calendar_day c _ _ H), (calendar_day gregorian _ _ gregorian_calendar), IHn by lia. reflexivity. }
  assert (Hy12 : forall y, c y 1 1 = gregorian y 1 1 -> c y 12 31 = gregorian y 12 31).
  { intros y0 H0. specialize (Hmo y0 H0 11%nat (le_n _)). change (1 + Z.of_nat 11) with 12 in Hmo.
    rewrite (calendar_day c _ _ H), (calendar_day gregorian _ _ gregorian_calendar), Hmo. reflexivity. }
  assert (Hlen : forall y, c (y + 1) 1 1 - c y 1 1 = gregorian (y + 1) 1 1 - gregorian y 1 1).
  { intros y0. rewrite (cal_year _ H), (cal_year _ gregorian_calendar), (calendar_day c _ _ H), (calendar_day gregorian _ _ gregorian_calendar).
    assert (Hd : forall n : nat, (n <= 11)%nat -> c y0 (1 + Z.of_nat n) 1 - c y0 1 1 = gregorian y0 (1 + Z.of_nat n) 1 - gregorian y0 1 1).
    { induction n; intros Hle; [rewrite Z.add_0_r; lia|].
      replace (1 + Z.of_nat (S n)) with (1 + Z.of_nat n + 1) by lia. rewrite (cal_month _ H), (cal_month _ gregorian_calendar) by lia.
      rewrite (calendar_day c _ _ H), (calendar_day gregorian _ _ gregorian_calendar). specialize (IHn ltac:(lia)). lia. }
    specialize (Hd 11%nat (le_n _)). change (1 + Z.of_nat 11) with 12 in Hd. lia. }
  assert (H0 : c 1970 1 1 = gregorian 1970 1 1) by (rewrite (cal_epoch _ H), (cal_epoch _ gregorian_calendar); reflexivity).
  assert (Hy : c y 1 1 = gregorian y 1 1).
  { assert (Hp : forall n : nat, c (1970 + Z.of_nat n) 1 1 = gregorian (1970 + Z.of_nat n) 1 1).
    { induction n; [now rewrite Z.add_0_r|]. replace (1970 + Z.of_nat (S n)) with (1970 + Z.of_nat n + 1) by lia. specialize (Hlen (1970 + Z.of_nat n)). lia. }
    assert (Hn : forall n : nat, c (1970 - Z.of_nat n) 1 1 = gregorian (1970 - Z.of_nat n) 1 1).
    { induction n; [now rewrite Z.sub_0_r|]. specialize (Hlen (1970 - Z.of_nat (S n))).
      replace (1970 - Z.of_nat (S n) + 1) with (1970 - Z.of_nat n) in Hlen by lia. lia. }
    destruct (Z.le_gt_cases 1970 y).
    - specialize (Hp (Z.to_nat (y - 1970))). rewrite Z2Nat.id in Hp by lia. now replace (1970 + (y - 1970)) with y in Hp by lia.
    - specialize (Hn (Z.to_nat (1970 - y))). rewrite Z2Nat.id in Hn by lia. now replace (1970 - (1970 - y)) with y in Hn by lia. }
  rewrite (calendar_day c _ _ H), (calendar_day gregorian _ _ gregorian_calendar).
  specialize (Hmo y Hy (Z.to_nat (m - 1)) ltac:(lia)). rewrite Z2Nat.id in Hmo by lia. replace (1 + (m - 1)) with m in Hmo by lia. lia.
Qed.

(** ** NumPy's day-number-to-date conversion *)
Definition civil_of_day (D : Z) : Z * Z * Z :=
  let '(y, yd) := days_to_yearsdays D in
  let '(m, d) := month_loop (np_days_per_month y) 1 yd in (y, m, d).
Lemma civil_day s : civil_of_seconds s = civil_of_day (s / 86400).
Proof. reflexivity. Qed.
