(** * TopoDist: two topocentric directions are as close as the geocentric ones *)

From Coq Require Import ZArith Reals Bool List String Lra Lia.
From Flocq Require Import Core.Raux.
From Interval Require Import Tactic.
From Verif Require Import Num Ext Sky SkyClose AstroTac AstroSpec Almanac AlmanacPos TopoSpec.
Open Scope R_scope.

Lemma reduced_unique phi u u' : 0 <= cos phi ->
  0 <= cos u -> 0 <= sin u * sin phi -> 0.99664719 * sin phi * cos u = sin u * cos phi ->
  0 <= cos u' -> 0 <= sin u' * sin phi -> 0.99664719 * sin phi * cos u' = sin u' * cos phi ->
  cos u = cos u' /\ sin u = sin u'.
Proof.
  intros Hp A1 A2 A3 B1 B2 B3. assert (P := sc1 phi). assert (U := sc1 u). assert (V := sc1 u').
  set (A := 0.99664719) in *. assert (PA : 0 < A) by (unfold A; lra). clearbody A.
  set (cp := cos phi) in *. set (sp := sin phi) in *. set (cu := cos u) in *. set (su := sin u) in *. set (cu' := cos u') in *. set (su' := sin u') in *.
  clearbody cp sp cu su cu' su'. clear phi u u'.
  destruct Hp as [Hp|<-].
  - assert (X : su * cu' = su' * cu).
    { apply (Rmult_eq_reg_r cp); [|lra]. replace (su * cu' * cp) with ((su * cp) * cu') by ring. replace (su' * cu * cp) with ((su' * cp) * cu) by ring. rewrite <- A3, <- B3. ring. }
    assert (Q : cu * cu = cu' * cu').
    { transitivity (cu * cu * (su' * su' + cu' * cu')); [rewrite V; ring|]. transitivity ((su * su + cu * cu) * (cu' * cu')); [|rewrite U; ring].
      replace (cu * cu * (su' * su' + cu' * cu')) with ((su' * cu) * (su' * cu) + cu * cu * (cu' * cu')) by ring. rewrite <- X. ring. }
    assert (E : cu = cu') by (apply Rsqr_inj; assumption). split; [exact E|].
    assert (Pc : 0 < cu). { destruct A1 as [L|L]; [exact L|]. rewrite <- L in A3. assert (su = 0) by (apply (Rmult_eq_reg_r cp); lra). subst. nra. }
    rewrite <- E in X. apply (Rmult_eq_reg_r cu); lra.
  - assert (Psp : sp <> 0) by nra. assert (Ek : forall c, A * sp * c = 0 -> c = 0).
    { intros c H. apply Rmult_integral in H. destruct H as [H|H]; [|exact H]. apply Rmult_integral in H. destruct H; [lra|contradiction]. }
    assert (C : cu = 0) by (apply Ek; lra). assert (C' : cu' = 0) by (apply Ek; lra). subst. split; [reflexivity|].
    assert (S2 : (su - su') * (su + su') = 0) by nra. apply Rmult_integral in S2. destruct S2 as [S2|S2]; [lra|].
    assert (su' = - su) by lra. subst su'. assert (su * sp = 0) by lra. assert (su <> 0) by nra. exfalso. apply Rmult_integral in H. tauto.
Qed.

Lemma sx_range e : 0.95 <= e <= 1.05 -> 0 <= sin (8.794 / 3600 * sqrt e * (PI / 180)) <= 0.00005.
Proof.
  intros B. assert (0.97 <= sqrt e <= 1.03).
  { split; [apply Rsqr_incr_0_var; [|apply sqrt_pos]|apply Rsqr_incr_0_var; [|lra]]; rewrite Rsqr_sqrt by lra; unfold Rsqr; lra. }
  generalize dependent (sqrt e). intros q Hq. split; interval.
Qed.
Lemma sx_lip e e' : 0.95 <= e <= 1.05 -> 0.95 <= e' <= 1.05 ->
  Rabs (sin (8.794 / 3600 * sqrt e * (PI / 180)) - sin (8.794 / 3600 * sqrt e' * (PI / 180))) <= 0.0001 * Rabs (e - e').
Proof.
  intros B B'. eapply Rle_trans; [apply sin_lip|].
  assert (S := sqrt_sqrt e ltac:(lra)). assert (S' := sqrt_sqrt e' ltac:(lra)). assert (P : 0.9 <= sqrt e) by (apply Rsqr_incr_0_var; [|apply sqrt_pos]; rewrite Rsqr_sqrt by lra; unfold Rsqr; lra).
  assert (P' : 0.9 <= sqrt e') by (apply Rsqr_incr_0_var; [|apply sqrt_pos]; rewrite Rsqr_sqrt by lra; unfold Rsqr; lra).
  set (a := sqrt e) in *. set (b := sqrt e') in *. rewrite <- S, <- S'.
  replace (8.794 / 3600 * a * (PI / 180) - 8.794 / 3600 * b * (PI / 180)) with (8.794 / 3600 * (PI / 180) * (a - b)) by ring.
  replace (a * a - b * b) with ((a + b) * (a - b)) by ring. rewrite !Rabs_mult. assert (K : Rabs (8.794 / 3600) * Rabs (PI / 180) <= 0.00005) by interval.
  rewrite (Rabs_pos_eq (a + b)) by lra. pose proof (Rabs_pos (a - b)). pose proof (Rabs_pos (8.794 / 3600)). pose proof (Rabs_pos (PI / 180)).
  eapply Rle_trans; [apply Rmult_le_compat_r; [assumption|exact K]|]. nra.
Qed.

(** Unit vectors [p], [q] with rho p and rho' q within [e] of each other. *)
Lemma unit_close rho rho' p q e : dot p p = 1 -> dot q q = 1 -> 0.9999 <= rho -> 0.9999 <= rho' -> 0 <= e ->
  (let '(a, b, c) := p in let '(x, y, z) := q in (rho * a - rho' * x) * (rho * a - rho' * x) + (rho * b - rho' * y) * (rho * b - rho' * y) + (rho * c - rho' * z) * (rho * c - rho' * z)) <= e * e ->
  dist p q <= 1.001 * e.
Proof.
  intros P Q R R' He H. apply norm_le; [lra|]. rewrite <- norm_sq. fold (dist p q). rewrite dist_unit by assumption.
  destruct p as [[a b] c], q as [[x y] z]. cbn in *. set (k := a * x + b * y + c * z).
  assert (X : rho * rho + rho' * rho' - 2 * (rho * rho') * k <= e * e).
  { eapply Rle_trans; [|exact H]. right. unfold k. replace (rho * rho) with (rho * rho * (a * a + b * b + c * c)) by (rewrite P; ring).
    replace (rho' * rho') with (rho' * rho' * (x * x + y * y + z * z)) by (rewrite Q; ring). ring. }
  assert (K : k <= 1). { unfold k. pose proof (pow2_ge_0 (a - x)). pose proof (pow2_ge_0 (b - y)). pose proof (pow2_ge_0 (c - z)). nra. }
  clearbody k. clear - X R R' K He. pose proof (pow2_ge_0 (rho - rho')). assert (M : 0.9998 <= rho * rho') by nra.
  assert (2 * (rho * rho') * (1 - k) <= e * e) by nra. assert (0.9998 * (1 - k) <= rho * rho' * (1 - k)) by (apply Rmult_le_compat_r; lra). nra.
Qed.

Lemma topo_rho d h sx u rho d' h' : 0 <= sx <= 0.00005 -> 0 < rho ->
  rho * (cos d' * cos h') = cos d * cos h - sx * cos u -> rho * (cos d' * sin h') = cos d * sin h -> rho * sin d' = sin d - sx * (0.99664719 * sin u) ->
  0.9999 <= rho.
Proof.
  intros Hs Hr K1 K2 K3. assert (N : rho * rho = (rho * (cos d' * cos h')) ^ 2 + (rho * (cos d' * sin h')) ^ 2 + (rho * sin d') ^ 2).
  { pose proof (sc1 d') as A. pose proof (sc1 h') as B. transitivity (rho * rho * (sin d' * sin d' + cos d' * cos d' * (sin h' * sin h' + cos h' * cos h'))); [rewrite B, Rmult_1_r, A; ring|ring]. }
  rewrite K1, K2, K3 in N. pose proof (sc1 d) as A. pose proof (sc1 h) as B.
  assert (M : (cos d * cos h) ^ 2 + (cos d * sin h) ^ 2 + (sin d) ^ 2 = 1).
  { transitivity (sin d * sin d + cos d * cos d * (sin h * sin h + cos h * cos h)); [ring|rewrite B, Rmult_1_r; exact A]. }
  (* Cauchy-Schwarz, by hand *)
  set (X := cos d * cos h) in *. set (Y := cos d * sin h) in *. set (Z := sin d) in *.
  assert (C1 := sc1 u). set (c := cos u) in *. set (w := sin u) in *.
  assert (G : X * c + Z * (0.99664719 * w) <= 1).
  { pose proof (pow2_ge_0 (X - c)). pose proof (pow2_ge_0 (Z - 0.99664719 * w)). assert (c ^ 2 + (0.99664719 * w) ^ 2 <= 1) by nra. nra. }
  assert (rho * rho >= 1 - 2 * sx). { assert (0 <= (sx * c) ^ 2) by apply pow2_ge_0. assert (0 <= (sx * (0.99664719 * w)) ^ 2) by apply pow2_ge_0. assert (0 <= sx * (1 - (X * c + Z * (0.99664719 * w)))) by nra. nra. }
  nra.
Qed.

Lemma topo_dist phi d h e d1 h1 f g e' f1 g1 a b c : 0 <= cos phi ->
  topocentric phi d h e d1 h1 -> topocentric phi f g e' f1 g1 -> 0.95 <= e <= 1.05 -> 0.95 <= e' <= 1.05 ->
  Rabs (d - f) <= a -> near_turn h g b -> Rabs (e - e') <= c ->
  dist (hor phi d1 h1) (hor phi f1 g1) <= 1.001 * (a + b + 0.0001 * c).
Proof.
  intros Hp (u & rho & H) (u' & rho' & H') Be Be' Ha Hb Hc. cbv zeta in H, H'.
  destruct H as (U1 & U2 & U3 & R1 & R2 & K1 & K2 & K3). destruct H' as (U1' & U2' & U3' & R1' & R2' & K1' & K2' & K3').
  destruct (reduced_unique phi u u' Hp U1 U2 U3 U1' U2' U3') as [Ec Es]. rewrite <- Ec in K1'. rewrite <- Es in K3'.
  assert (S := sx_range e Be). assert (S' := sx_range e' Be'). assert (SL := sx_lip e e' Be Be').
  set (sx := sin (8.794 / 3600 * sqrt e * (PI / 180))) in *. set (sx' := sin (8.794 / 3600 * sqrt e' * (PI / 180))) in *.
  assert (Q := topo_rho d h sx u rho d1 h1 S R1 K1 K2 K3). assert (Q' := topo_rho f g sx' u rho' f1 g1 S' R1' K1' K2' K3').
  assert (Db := dist_hor phi d h f g b Hb).
  assert (Pab : 0 <= a + b) by (pose proof (norm_pos (sub (hor phi d h) (hor phi f g))); fold (dist (hor phi d h) (hor phi f g)) in *; lra).
  assert (Pc : 0 <= c) by (pose proof (Rabs_pos (e - e')); lra).
  apply (unit_close rho rho'); [apply hor_unit|apply hor_unit|assumption|assumption|lra|].
  (* rho V1 - rho' V1' = (V - V') - (sx - sx') P *)
  set (q := sx - sx') in *. set (e1 := cos phi * cos u + sin phi * (0.99664719 * sin u)). set (e2 := sin phi * cos u - cos phi * (0.99664719 * sin u)).
  assert (EN : e1 * e1 + e2 * e2 <= 1).
  { unfold e1, e2. pose proof (sc1 phi) as Sp. pose proof (sc1 u). 
    apply Rle_trans with ((sin phi * sin phi + cos phi * cos phi) * (cos u * cos u + 0.99664719 * 0.99664719 * (sin u * sin u))); [right; ring|]. rewrite Sp. nra. }
  cbn.
  assert (ES : rho * sun_S phi d1 h1 - rho' * sun_S phi f1 g1 = (sun_S phi d h - sun_S phi f g) - q * e2).
  { unfold sun_S, q, e2. replace (rho * (sin phi * cos d1 * cos h1 - cos phi * sin d1)) with (sin phi * (rho * (cos d1 * cos h1)) - cos phi * (rho * sin d1)) by ring.
    replace (rho' * (sin phi * cos f1 * cos g1 - cos phi * sin f1)) with (sin phi * (rho' * (cos f1 * cos g1)) - cos phi * (rho' * sin f1)) by ring. rewrite K1, K3, K1', K3'. ring. }
  assert (EW : rho * sun_W phi d1 h1 - rho' * sun_W phi f1 g1 = sun_W phi d h - sun_W phi f g) by (unfold sun_W; rewrite K2, K2'; ring).
  assert (EU : rho * sun_U phi d1 h1 - rho' * sun_U phi f1 g1 = (sun_U phi d h - sun_U phi f g) - q * e1).
  { unfold sun_U, q, e1. replace (rho * (sin phi * sin d1 + cos phi * cos d1 * cos h1)) with (sin phi * (rho * sin d1) + cos phi * (rho * (cos d1 * cos h1))) by ring.
    replace (rho' * (sin phi * sin f1 + cos phi * cos f1 * cos g1)) with (sin phi * (rho' * sin f1) + cos phi * (rho' * (cos f1 * cos g1))) by ring. rewrite K1, K3, K1', K3'. ring. }
  rewrite ES, EW, EU.
  assert (Dn : dist (hor phi d h) (hor phi f g) <= a + b) by lra. 
  assert (Dn2 : norm (q * e2, 0, q * e1) <= 0.0001 * c).
  { apply norm_le; [lra|]. cbn. assert (Rabs q <= 0.0001 * c) by nra. apply Rabs_le_inv in H. assert (q * q <= 0.0001 * c * (0.0001 * c)) by nra. 
    replace (q * e2 * (q * e2) + 0 * 0 + q * e1 * (q * e1)) with (q * q * (e1 * e1 + e2 * e2)) by ring. assert (0 <= q * q) by nra. nra. }
  assert (T := dist_tri (sub (hor phi d h) (hor phi f g)) (0, 0, 0) (q * e2, 0, q * e1)).
  assert (N : norm (sub (sub (hor phi d h) (hor phi f g)) (q * e2, 0, q * e1)) <= a + b + 0.0001 * c).
  { unfold dist in T, Dn. assert (Z1 : sub (sub (hor phi d h) (hor phi f g)) (0, 0, 0) = sub (hor phi d h) (hor phi f g)) by (cbn; rewrite !Rminus_0_r; reflexivity).
    rewrite Z1 in T. assert (Z2 : norm (sub (0, 0, 0) (q * e2, 0, q * e1)) = norm (q * e2, 0, q * e1)) by (unfold norm; f_equal; cbn; ring). rewrite Z2 in T. lra. }
  apply norm_ge in N. cbn in N. rewrite !Rminus_0_r in N. exact N.
Qed.
