(** * SmoothI: how fast the results of iqbal change *)
From Coq Require Import ZArith QArith Reals Bool List String Lra Lia.
From Flocq Require Import Core.Raux.
Set Warnings "-ambiguous-paths".
From Coquelicot Require Import Coquelicot.
From Interval Require Import Tactic.
From Verif Require Import Num Ext ExtLemmas Sky SkyClose AstroTac AstroSpec IqbalR CalendarSpec CalendarLemmas Almanac AlmanacR AlmanacSky AlmanacPos SmoothR.
Open Scope R_scope.

(** A periodic function with bounded derivative. *)
Lemma periodic_lip (f f' : R -> R) (b x y : R) (k : Z) : (forall z, is_derive f z (f' z)) -> (forall z k, f' (z - 2 * PI * IZR k) = f' z) -> (forall z k, f (z - 2 * PI * IZR k) = f z) ->
  (forall z, -3.1416 <= z <= 3.1416 -> Rabs (f' z) <= b) -> Rabs (f x - f y) <= b * Rabs (x - y - 2 * PI * IZR k).
Proof.
  intros Hd Hp' Hp Hb. assert (Hb' : forall z, Rabs (f' z) <= b) by (intros z; apply (i_reduce f' (fun v => Rabs v <= b)); assumption).
  assert (W : forall x y, Rabs (f x - f y) <= b * Rabs (x - y)).
  { assert (W : forall x y, x < y -> Rabs (f y - f x) <= b * (y - x)).
    { intros u v H. destruct (MVT_cor2 f f' u v H) as (z & Hz & _); [intros z _; apply is_derive_Reals, Hd|]. rewrite Hz, Rabs_mult, (Rabs_pos_eq (v - u)) by lra. apply Rmult_le_compat_r; [lra|apply Hb']. }
    intros u v. destruct (Rtotal_order u v) as [H|[->|H]].
    - specialize (W u v H). rewrite Rabs_minus_sym, (Rabs_left1 (u - v)) by lra. lra.
    - rewrite !Rminus_eq_0, Rabs_R0. lra.
    - specialize (W v u H). rewrite (Rabs_pos_eq (u - v)) by lra. lra. }
  rewrite <- (Hp x k). replace (x - y - 2 * PI * IZR k) with (x - 2 * PI * IZR k - y) by ring. apply W.
Qed.
Ltac per := intros; rewrite ?mul_2kpi, ?cos_2kpi, ?sin_2kpi; reflexivity.
Lemma iqbal_dec_lip x y k : Rabs (iqbal_dec x - iqbal_dec y) <= 0.402 * Rabs (x - y - 2 * PI * IZR k).
Proof.
  apply (periodic_lip iqbal_dec (fun a => 0.399912 * sin a + 0.070257 * cos a + 2 * 0.006758 * sin (2 * a) + 2 * 0.000907 * cos (2 * a) + 3 * 0.002697 * sin (3 * a) + 3 * 0.001480 * cos (3 * a))).
  - intros z. unfold iqbal_dec. auto_derive; [exact I|]. ring.
  - per.
  - unfold iqbal_dec. per.
  - intros z Hz. interval with (i_bisect z, i_autodiff z).
Qed.
Lemma iqbal_eot_lip x y k : Rabs (iqbal_eot x - iqbal_eot y) <= 28.9 * Rabs (x - y - 2 * PI * IZR k).
Proof.
  apply (periodic_lip iqbal_eot (fun a => - (0.58688718 * sin a) - 7.34538133 * cos a + 2 * 3.31493999 * sin (2 * a) - 2 * 9.35366541 * cos (2 * a) + 3 * 0.08151750 * sin (3 * a) - 3 * 0.30892409 * cos (3 * a) + 4 * 0.13532889 * sin (4 * a) - 4 * 0.17336220 * cos (4 * a))).
  - intros z. unfold iqbal_eot. auto_derive; [exact I|]. ring.
  - per.
  - unfold iqbal_eot. per.
  - intros z Hz. interval with (i_bisect z, i_autodiff z).
Qed.
Lemma iqbal_ecf_lip x y k : Rabs (iqbal_ecf x - iqbal_ecf y) <= 0.034 * Rabs (x - y - 2 * PI * IZR k).
Proof.
  apply (periodic_lip iqbal_ecf (fun a => - (0.0333572253 * sin a) + 0.00199417932 * cos a - 2 * 0.000697434604 * sin (2 * a) + 2 * 0.000114828177 * cos (2 * a) - 3 * 0.0000174028675 * sin (3 * a) + 3 * 0.0000113778023 * cos (3 * a))).
  - intros z. unfold iqbal_ecf. auto_derive; [exact I|]. ring.
  - per.
  - unfold iqbal_ecf. per.
  - intros z Hz. interval with (i_bisect z, i_autodiff z).
Qed.
Lemma hor_lip phi d h phi' d' h' e : near_turn h h' e -> dist (hor phi d h) (hor phi' d' h') <= Rabs (phi - phi') + Rabs (d - d') + e.
Proof.
  intros H. eapply Rle_trans; [apply (dist_tri _ (hor phi d' h'))|]. assert (A := dist_hor phi d h d' h' e H).
  assert (L : forall f, hor f d' h' = look f (cos d' * cos h', cos d' * sin h', sin d')) by (intros f; unfold hor, look, sun_S, sun_W, sun_U; apply (f_equal2 pair); [apply (f_equal2 pair)|]; ring).
  assert (B : dist (hor phi d' h') (hor phi' d' h') <= Rabs (phi - phi')).
  { rewrite !L. eapply Rle_trans; [apply (look_lip phi phi' _ _ _ (turn_abs _ _ _ (Rle_refl _)))|].
    - cbn. pose proof (sc1 d') as S1. pose proof (sc1 h') as S2. right. transitivity (cos d' * cos d' * (sin h' * sin h' + cos h' * cos h') + sin d' * sin d'); [ring|]. rewrite S2. lra.
    - replace (dist _ _) with 0; [lra|]. unfold dist, norm. replace (dot _ _) with 0 by (cbn; ring). now rewrite sqrt_0. }
  lra.
Qed.
(** The year of an instant. *)
Lemma year_step c y : calendar c -> (c (y + 1) 1 1 = c y 1 1 + year_length y)%Z.
Proof. intros Hc. rewrite !(calendar_unique c Hc) by lia. unfold gregorian, before_month. cbn [Z.ltb Z.compare Pos.compare Pos.compare_cont]. rewrite !andb_false_r, jan1_next. lia. Qed.
Lemma year_mono c y n : calendar c -> (0 <= n)%Z -> (c y 1 1 + 365 * n <= c (y + n) 1 1)%Z.
Proof.
  intros Hc Hn. revert n Hn. apply natlike_ind; [replace (y + 0)%Z with y by lia; lia|]. intros n Hn IH. replace (y + Z.succ n)%Z with (y + n + 1)%Z by lia. rewrite (year_step c _ Hc). unfold year_length. destruct (leap _); lia.
Qed.
Lemma year_unique c y y' s : calendar c -> (86400 * c y 1 1 <= s < 86400 * c (y + 1) 1 1)%Z -> (86400 * c y' 1 1 <= s < 86400 * c (y' + 1) 1 1)%Z -> y = y'.
Proof.
  intros Hc H H'. destruct (Z.lt_total y y') as [L|[L|L]]; [exfalso|exact L|exfalso].
  - assert (M := year_mono c (y + 1) (y' - y - 1) Hc ltac:(lia)). replace (y + 1 + (y' - y - 1))%Z with y' in M by lia. lia.
  - assert (M := year_mono c (y' + 1) (y - y' - 1) Hc ltac:(lia)). replace (y' + 1 + (y - y' - 1))%Z with y in M by lia. lia.
Qed.
