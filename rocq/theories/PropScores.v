(** * PropScores: the scores printed by the benchmark (C70) and the columns it rates (C71) *)

From Coq Require Import ZArith QArith Reals List Bool Arith Ascii String Lra Lia Permutation Sorted.
From Verif Require Import Num Arrays Libspa Time Core Usecases Spec PipelineLemmas PropPipeline Ext Witness Cli Tools PropTools Scores.
Import ListNotations.
Open Scope char_scope.
Open Scope string_scope.
Open Scope list_scope.
Open Scope R_scope.

(** ** Lists of reals *)
Lemma total_app a b : total (a ++ b) = total a + total b.
Proof. induction a; cbn; lra. Qed.
Lemma total_scale (f : R -> R) k l : total (map (fun x => f x * k) l) = total (map f l) * k.
Proof. induction l; cbn; [lra|]. rewrite IHl. lra. Qed.
Lemma total_const c l : total (map (fun _ : R => c) l) = count l * c.
Proof. induction l; unfold count in *; cbn [map total List.length]; [cbn; lra|]. rewrite S_INR, IHl. lra. Qed.
Lemma total_sub (f g : R -> R) l : total (map (fun x => f x - g x) l) = total (map f l) - total (map g l).
Proof. induction l; cbn; [lra|]. lra. Qed.
Lemma total_plus (f g : R -> R) l : total (map (fun x => f x + g x) l) = total (map f l) + total (map g l).
Proof. induction l; cbn; [lra|]. lra. Qed.
Lemma total_nonneg (f : R -> R) l : (forall x, 0 <= f x) -> 0 <= total (map f l).
Proof. intros H. induction l; cbn; [lra|]. pose proof (H a). lra. Qed.
Lemma count_pos l : l <> [] -> 1 <= count l.
Proof. destruct l; [contradiction|]. intros _. unfold count. cbn [List.length]. rewrite S_INR. pose proof (pos_INR (List.length l)). lra. Qed.
(** Sum of squared deviations. *)
Lemma total_dev l m : total (map (fun x => (x - m) ^ 2) l) = total (map (fun x => x ^ 2) l) - 2 * m * total l + count l * m ^ 2.
Proof.
  induction l; unfold count in *; cbn [map total List.length]; [cbn; lra|]. rewrite S_INR, IHl. nra.
Qed.
Lemma total_abs l : Rabs (total l) <= total (map Rabs l).
Proof. induction l; cbn; [rewrite Rabs_R0; lra|]. eapply Rle_trans; [apply Rabs_triang|]. lra. Qed.
Lemma cauchy l : total l ^ 2 <= count l * total (map (fun x => x ^ 2) l).
Proof.
  destruct l as [|x l']; [cbn; unfold count; cbn; lra|]. set (l := x :: l').
  assert (C := count_pos l ltac:(discriminate)).
  pose proof (total_nonneg (fun x => (x - total l / count l) ^ 2) l ltac:(intros; apply pow2_ge_0)) as H.
  rewrite total_dev in H.
  assert (count l * (total l / count l) = total l) by (field; lra).
  assert (0 <= count l * (total (map (fun x => x ^ 2) l) - 2 * (total l / count l) * total l + count l * (total l / count l) ^ 2)) by (apply Rmult_le_pos; lra).
  replace (count l * (total (map (fun x => x ^ 2) l) - 2 * (total l / count l) * total l + count l * (total l / count l) ^ 2))
    with (count l * total (map (fun x => x ^ 2) l) - 2 * (count l * (total l / count l)) * total l + (count l * (total l / count l)) ^ 2) in H1 by ring.
  rewrite H0 in H1. lra.
Qed.

(** ** Sorting and quantiles *)
Lemma insert_perm x l : Permutation (x :: l) (insert x l).
Proof. induction l; cbn; [reflexivity|]. destruct (Rle_dec x a); [reflexivity|]. rewrite perm_swap. now constructor. Qed.
Lemma sort_perm l : Permutation l (sort l).
Proof. induction l; cbn; [reflexivity|]. rewrite <- insert_perm. now constructor. Qed.
Lemma insert_sorted x l : StronglySorted Rle l -> StronglySorted Rle (insert x l).
Proof.
  induction 1 as [|a l S IH H]; cbn; [repeat constructor|]. destruct (Rle_dec x a).
  - constructor; [constructor; assumption|]. constructor; [assumption|]. eapply Forall_impl; [|exact H]. intros; cbn in *; lra.
  - constructor; [assumption|]. eapply Permutation_Forall; [apply insert_perm|]. constructor; [lra|assumption].
Qed.
Lemma sort_sorted l : StronglySorted Rle (sort l).
Proof. induction l; cbn; [constructor|now apply insert_sorted]. Qed.
Lemma sorted_nth l : StronglySorted Rle l -> forall i j, (i <= j < List.length l)%nat -> nth i l 0 <= nth j l 0.
Proof.
  induction 1 as [|a l S IH H]; intros i j Hij; cbn [List.length] in Hij; [lia|]. destruct i, j; cbn [nth]; try lra; try lia.
  - rewrite Forall_forall in H. apply H, nth_In. lia.
  - apply IH. lia.
Qed.
Lemma filter_firstn (f : R -> bool) i l : (i <= List.length l)%nat -> (forall x, In x (firstn i l) -> f x = true) -> (i <= List.length (filter f l))%nat.
Proof.
  intros Hi H. rewrite <- (firstn_skipn i l), filter_app, app_length.
  assert (E : filter f (firstn i l) = firstn i l).
  { revert H. generalize (firstn i l). induction l0; intros H; cbn; [reflexivity|]. rewrite (H a) by now left. f_equal. apply IHl0. intros; apply H. now right. }
  rewrite E, firstn_length. lia.
Qed.
Lemma filter_skipn (f : R -> bool) i l : (forall x, In x (skipn i l) -> f x = true) -> (List.length l - i <= List.length (filter f l))%nat.
Proof.
  intros H. rewrite <- (firstn_skipn i l) at 2. rewrite filter_app, app_length.
  assert (E : filter f (skipn i l) = skipn i l).
  { revert H. generalize (skipn i l). induction l0; intros H; cbn; [reflexivity|]. rewrite (H a) by now left. f_equal. apply IHl0. intros; apply H. now right. }
  rewrite E, skipn_length. lia.
Qed.
Lemma filter_perm (f : R -> bool) l l' : Permutation l l' -> List.length (filter f l) = List.length (filter f l').
Proof. induction 1; cbn; try lia; repeat (destruct (f _)); cbn; lia. Qed.
Lemma In_firstn_nth i (l : list R) x : In x (firstn i l) -> exists j, (j < i)%nat /\ (j < List.length l)%nat /\ x = nth j l 0.
Proof.
  intros H. apply (In_nth _ _ 0) in H. destruct H as (j & Hj & <-). rewrite firstn_length in Hj. exists j. repeat split; try lia.
  rewrite <- (firstn_skipn i l) at 2. rewrite app_nth1; [reflexivity|rewrite firstn_length; lia].
Qed.
Lemma In_skipn_nth i (l : list R) x : In x (skipn i l) -> exists j, (i <= j < List.length l)%nat /\ x = nth j l 0.
Proof.
  intros H. destruct (Nat.le_gt_cases i (List.length l)).
  - apply (In_nth _ _ 0) in H. destruct H as (j & Hj & <-). rewrite skipn_length in Hj. exists (i + j)%nat. split; [lia|].
    rewrite <- (firstn_skipn i l) at 2. rewrite app_nth2; rewrite firstn_length; [f_equal; lia|lia].
  - rewrite skipn_all2 in H by lia. destruct H.
Qed.
(** How many elements are at most / at least [v]. *)
Definition at_most (v : R) (l : list R) : nat := List.length (filter (fun x => Rleb x v) l).
Definition at_least (v : R) (l : list R) : nat := List.length (filter (fun x => Rleb v x) l).

(** The interpolated value between two neighbours of a sorted list. *)
Definition between (l : list R) (a : nat) : R :=
  let n1 := (List.length l - 1)%nat in
  nth (a * n1 / 100) l 0 + (nth (Nat.min (S (a * n1 / 100)) n1) l 0 - nth (a * n1 / 100) l 0) * (INR ((a * n1) mod 100) / 100).
Lemma quantile_between a c : present c <> [] -> c_quantile a c = Some (between (sort (present c)) a).
Proof.
  intros H. unfold c_quantile, between. destruct (sort (present c)) eqn:E; [|reflexivity].
  pose proof (sort_perm (present c)) as P. rewrite E in P. apply Permutation_sym, Permutation_nil in P. contradiction.
Qed.
Lemma frac_bounds n : 0 <= INR (n mod 100) / 100 <= 1.
Proof.
  pose proof (Nat.mod_upper_bound n 100 ltac:(lia)) as H. apply lt_INR in H. replace (INR 100) with 100 in H by (cbn; lra).
  pose proof (pos_INR (n mod 100)). lra.
Qed.
Lemma between_bounds l a : StronglySorted Rle l -> l <> [] -> (a < 100)%nat ->
  let n1 := (List.length l - 1)%nat in let i := (a * n1 / 100)%nat in
  (i <= n1)%nat /\ nth i l 0 <= between l a <= nth (Nat.min (S i) n1) l 0.
Proof.
  intros S H Ha n1 i. assert (N : (List.length l = Datatypes.S n1)%nat) by (destruct l; [contradiction|]; unfold n1; cbn; lia).
  assert (I : (i <= n1)%nat) by (unfold i; apply Nat.div_le_upper_bound; nia).
  split; [exact I|]. unfold between. fold n1. fold i.
  assert (nth i l 0 <= nth (Nat.min (Datatypes.S i) n1) l 0) by (apply sorted_nth; [exact S|lia]).
  pose proof (frac_bounds (a * n1)). nra.
Qed.
Lemma between_counts l a : StronglySorted Rle l -> l <> [] -> (a < 100)%nat ->
  (a * (List.length l - 1) <= 100 * at_most (between l a) l)%nat /\
  ((100 - a) * (List.length l - 1) <= 100 * at_least (between l a) l)%nat.
Proof.
  intros S H Ha. pose proof (between_bounds l a S H Ha) as B. cbn zeta in B.
  set (n1 := (List.length l - 1)%nat) in *. set (i := (a * n1 / 100)%nat) in *. destruct B as (I & B1 & B2).
  assert (N : (List.length l = Datatypes.S n1)%nat) by (destruct l; [contradiction|]; unfold n1; cbn; lia).
  pose proof (Nat.div_mod (a * n1) 100 ltac:(lia)) as D. fold i in D. pose proof (Nat.mod_upper_bound (a * n1) 100 ltac:(lia)) as D'.
  split.
  - assert (Datatypes.S i <= at_most (between l a) l)%nat; [|lia]. apply filter_firstn; [lia|].
    intros x Hx. apply In_firstn_nth in Hx. destruct Hx as (j & J1 & J2 & ->). unfold Rleb. destruct (Rle_dec _ _); [reflexivity|]. exfalso. apply n.
    eapply Rle_trans; [|exact B1]. apply sorted_nth; [exact S|lia].
  - assert (List.length l - Nat.min (Datatypes.S i) n1 <= at_least (between l a) l)%nat; [|nia]. apply filter_skipn.
    intros x Hx. apply In_skipn_nth in Hx. destruct Hx as (j & J1 & ->). unfold Rleb. destruct (Rle_dec _ _); [reflexivity|]. exfalso. apply n.
    eapply Rle_trans; [exact B2|]. apply sorted_nth; [exact S|lia].
Qed.
Lemma between_mono l a b : StronglySorted Rle l -> l <> [] -> (a <= b < 100)%nat -> between l a <= between l b.
Proof.
  intros S H Hab. pose proof (between_bounds l a S H ltac:(lia)) as A. pose proof (between_bounds l b S H ltac:(lia)) as B. cbn zeta in A, B.
  set (n1 := (List.length l - 1)%nat) in *. assert (N : (List.length l = Datatypes.S n1)%nat) by (destruct l; [contradiction|]; unfold n1; cbn; lia).
  destruct A as (I & _ & A2), B as (J & B1 & _).
  assert (K : (a * n1 / 100 <= b * n1 / 100)%nat) by (apply Nat.div_le_mono; nia).
  destruct (Nat.eq_dec (a * n1 / 100) (b * n1 / 100)) as [E|E].
  - unfold between. fold n1. rewrite <- E in *. set (i := (a * n1 / 100)%nat) in *.
    assert (nth i l 0 <= nth (Nat.min (Datatypes.S i) n1) l 0) by (apply sorted_nth; [exact S|lia]).
    assert (M : ((a * n1) mod 100 <= (b * n1) mod 100)%nat).
    { pose proof (Nat.div_mod (a * n1) 100 ltac:(lia)). pose proof (Nat.div_mod (b * n1) 100 ltac:(lia)). fold i in H1. rewrite <- E in H2. nia. }
    apply le_INR in M. nra.
  - eapply Rle_trans; [exact A2|]. eapply Rle_trans; [|exact B1]. apply sorted_nth; [exact S|lia].
Qed.

(** ** C70 *)
(** What the six scores of the residuals [xs] have to be.  [n] residuals; the quantiles are of the distances to the bias. *)
Definition no_scores (s : scores) : Prop := s = {| mbe := None; std := None; mae := None; rmse := None; p66 := None; p90 := None |}.
Definition scores_of (xs : list R) (s : scores) : Prop :=
  exists b a r p q,
    mbe s = Some b /\ mae s = Some a /\ rmse s = Some r /\ p66 s = Some p /\ p90 s = Some q /\
    count xs * b = total xs /\ count xs * a = total (map Rabs xs) /\ 0 <= r /\ count xs * r ^ 2 = total (map (fun x => x ^ 2) xs) /\
    (List.length xs = 1%nat -> std s = None) /\
    ((2 <= List.length xs)%nat -> exists d, std s = Some d /\ 0 <= d /\ (count xs - 1) * d ^ 2 = total (map (fun x => (x - b) ^ 2) xs)) /\
    let ds := map (fun x => Rabs (x - b)) xs in
    (66 * (List.length xs - 1) <= 100 * at_most p ds)%nat /\ (34 * (List.length xs - 1) <= 100 * at_least p ds)%nat /\
    (90 * (List.length xs - 1) <= 100 * at_most q ds)%nat /\ (10 * (List.length xs - 1) <= 100 * at_least q ds)%nat /\
    0 <= p <= q.

Lemma present_lift1 f c : present (map (lift1 f) c) = map f (present c).
Proof. unfold present. induction c as [|[x|] c IH]; cbn in *; [reflexivity| |]; rewrite ?IH; reflexivity. Qed.
Lemma present_dev m c : present (map (fun x => lift1 Rabs (lift2 Rminus x (Some m))) c) = map (fun x => Rabs (x - m)) (present c).
Proof. unfold present. induction c as [|[x|] c IH]; cbn in *; [reflexivity| |]; rewrite ?IH; reflexivity. Qed.
Lemma present_dev_none c : present (map (fun x => lift1 Rabs (lift2 Rminus x None)) c) = [].
Proof. unfold present. induction c as [|[x|] c IH]; cbn in *; [reflexivity| |]; rewrite ?IH; reflexivity. Qed.
Lemma mean_present c : present c <> [] -> c_mean c = Some (total (present c) / count (present c)).
Proof. intros H. unfold c_mean. destruct (present c); [contradiction|reflexivity]. Qed.
Lemma count_map f l : count (map f l) = count l.
Proof. unfold count. now rewrite map_length. Qed.
Lemma at_most_perm v l l' : Permutation l l' -> at_most v l = at_most v l'.
Proof. apply filter_perm. Qed.
Lemma at_least_perm v l l' : Permutation l l' -> at_least v l = at_least v l'.
Proof. apply filter_perm. Qed.
Lemma quantile_facts c : present c <> [] -> (forall x, In x (present c) -> 0 <= x) -> exists p q,
  c_quantile 66 c = Some p /\ c_quantile 90 c = Some q /\
  (66 * (List.length (present c) - 1) <= 100 * at_most p (present c))%nat /\ (34 * (List.length (present c) - 1) <= 100 * at_least p (present c))%nat /\
  (90 * (List.length (present c) - 1) <= 100 * at_most q (present c))%nat /\ (10 * (List.length (present c) - 1) <= 100 * at_least q (present c))%nat /\
  0 <= p <= q.
Proof.
  intros H Pos. set (l := present c) in *. pose proof (sort_perm l) as P. pose proof (sort_sorted l) as S.
  assert (Ne : sort l <> []) by (intros E; rewrite E in P; apply Permutation_sym, Permutation_nil in P; contradiction).
  exists (between (sort l) 66), (between (sort l) 90). rewrite !quantile_between by exact H. fold l.
  pose proof (between_counts _ 66 S Ne ltac:(lia)) as (A1 & A2). pose proof (between_counts _ 90 S Ne ltac:(lia)) as (B1 & B2).
  rewrite <- (Permutation_length P) in A1, A2, B1, B2. rewrite <- (at_most_perm _ _ _ P) in A1. rewrite <- (at_most_perm _ _ _ P) in B1. rewrite <- (at_least_perm _ _ _ P) in A2. rewrite <- (at_least_perm _ _ _ P) in B2.
  split; [reflexivity|]. split; [reflexivity|]. split; [exact A1|]. split; [exact A2|]. split; [exact B1|]. split; [exact B2|]. split.
  - pose proof (between_bounds _ 66 S Ne ltac:(lia)) as B. cbn zeta in B. destruct B as (I & B & _). eapply Rle_trans; [|exact B].
    apply Pos. eapply Permutation_in; [apply Permutation_sym; exact P|]. apply nth_In.
    assert (List.length (sort l) <> 0%nat) by (destruct (sort l); [contradiction|discriminate]). lia.
  - apply between_mono; [exact S|exact Ne|lia].
Qed.

Theorem C70_score_values : forall r : column,
  (present r = [] -> no_scores (score r)) /\ (present r <> [] -> scores_of (present r) (score r)).
Proof.
  intros r. split; intros H.
  - unfold no_scores, score, c_mean, c_std, c_quantile. rewrite H, present_dev_none, !present_lift1, H. reflexivity.
  - pose proof (count_pos _ H) as C. unfold scores_of, score. rewrite (mean_present r H). cbn [mbe std mae rmse p66 p90].
    set (l := present r) in *. set (b := total l / count l).
    assert (Ne : forall f : R -> R, map f l <> []) by (intros f E; apply map_eq_nil in E; contradiction).
    destruct (quantile_facts (map (fun x => lift1 Rabs (lift2 Rminus x (Some b))) r)) as (p & q & Hp & Hq & Q).
    { rewrite present_dev. apply Ne. }
    { rewrite present_dev. intros x Hx. apply in_map_iff in Hx. destruct Hx as (y & <- & _). apply Rabs_pos. }
    rewrite present_dev, map_length in Q. fold l in Q.
    exists b, (total (map Rabs l) / count l), (sqrt (total (map (fun x => x ^ 2) l) / count l)), p, q.
    rewrite !mean_present by (rewrite present_lift1; apply Ne). rewrite !present_lift1, !count_map. fold l.
    assert (0 <= total (map (fun x => x ^ 2) l)) by (apply total_nonneg; intros; apply pow2_ge_0).
    assert (0 <= total (map (fun x => x ^ 2) l) / count l) by (apply Rmult_le_pos; [assumption|]; left; apply Rinv_0_lt_compat; lra).
    split; [reflexivity|]. split; [reflexivity|]. split; [reflexivity|]. split; [exact Hp|]. split; [exact Hq|].
    split; [unfold b; field; lra|]. split; [field; lra|]. split; [apply sqrt_pos|]. split; [rewrite pow2_sqrt by assumption; field; lra|].
    split; [|split; [|exact Q]].
    + intros E. unfold c_std. fold l. destruct l as [|x [|y l']]; [discriminate|reflexivity|discriminate].
    + intros E. unfold c_std. fold l. assert (L : 2 <= count l) by (unfold count; apply le_INR in E; cbn in E; lra).
      assert (0 <= total (map (fun x => (x - b) ^ 2) l)) by (apply total_nonneg; intros; apply pow2_ge_0).
      exists (sqrt (total (map (fun x => (x - b) ^ 2) l) / (count l - 1))). split; [|split].
      * subst b. destruct l as [|x [|y l']]; [cbn in E; lia|cbn in E; lia|reflexivity].
      * apply sqrt_pos.
      * rewrite pow2_sqrt; [field; lra|]. apply Rmult_le_pos; [assumption|]. left; apply Rinv_0_lt_compat; lra.
Qed.

(** Consequences a reader of the table uses: the bias is at most the mean absolute error, which is at most the root mean
    square error, which combines bias and spread; it vanishes only if every residual does. *)
Theorem C70_score_order : forall xs s b a r, scores_of xs s -> xs <> [] -> mbe s = Some b -> mae s = Some a -> rmse s = Some r ->
  Rabs b <= a <= r /\
  (forall d, std s = Some d -> r ^ 2 = b ^ 2 + d ^ 2 * (count xs - 1) / count xs) /\
  (r = 0 <-> forall x, In x xs -> x = 0) /\ (forall x, In x xs -> Rabs x <= sqrt (count xs) * r).
Proof.
  intros xs s b a r (b' & a' & r' & p & q & Hb & Ha & Hr & _ & _ & B & A & Rp & R2 & S1 & S2 & _) Ne Eb Ea Er.
  rewrite Eb in Hb. rewrite Ea in Ha. rewrite Er in Hr. inversion Hb. inversion Ha. inversion Hr. subst b' a' r'. clear Hb Ha Hr.
  pose proof (count_pos _ Ne) as C.
  assert (Big : forall x, In x xs -> x ^ 2 <= total (map (fun x => x ^ 2) xs)).
  { clear. induction xs as [|y xs IH]; intros x Hx; [destruct Hx|]. destruct Hx as [->|Hx]; cbn [map total].
    - pose proof (total_nonneg (fun x => x ^ 2) xs ltac:(intros; apply pow2_ge_0)). lra.
    - specialize (IH x Hx). pose proof (pow2_ge_0 y). lra. }
  assert (A0 : 0 <= a). { apply Rmult_le_reg_l with (count xs); [lra|]. rewrite A. pose proof (total_nonneg Rabs xs Rabs_pos). lra. }
  split; [split|split; [|split]].
  - apply Rmult_le_reg_l with (count xs); [lra|]. rewrite A. rewrite <- (Rabs_right (count xs)) at 1 by lra. rewrite <- Rabs_mult, B. apply total_abs.
  - apply Rnot_lt_le. intros H. pose proof (cauchy (map Rabs xs)) as K. rewrite count_map, map_map in K.
    rewrite (map_ext (fun x => Rabs x ^ 2) (fun x => x ^ 2)) in K by (intros; apply pow2_abs). rewrite <- A, <- R2 in K.
    assert (r ^ 2 < a ^ 2) by nra. assert (0 < count xs ^ 2) by nra. nra.
  - intros d Hd. assert (L : (2 <= List.length xs)%nat).
    { destruct xs as [|x [|y l]]; [contradiction|rewrite S1 in Hd by reflexivity; discriminate|cbn; lia]. }
    destruct (S2 L) as (d' & Hd' & _ & D). rewrite Hd in Hd'. inversion Hd'. subst d'. rewrite total_dev in D.
    apply Rmult_eq_reg_l with (count xs); [|lra]. rewrite R2. rewrite <- B in D.
    replace (count xs * (b ^ 2 + d ^ 2 * (count xs - 1) / count xs)) with (count xs * b ^ 2 + (count xs - 1) * d ^ 2) by (field; lra). rewrite D. ring.
  - split.
    + intros -> x Hx. specialize (Big x Hx). rewrite <- R2 in Big. assert (x ^ 2 = 0) by (pose proof (pow2_ge_0 x); nra). nra.
    + intros Z. assert (T : total (map (fun x => x ^ 2) xs) = 0).
      { clear - Z. induction xs as [|y xs IH]; cbn [map total]; [reflexivity|]. rewrite IH by (intros; apply Z; now right). rewrite (Z y) by now left. lra. }
      rewrite T in R2. nra.
  - intros x Hx. specialize (Big x Hx). rewrite <- R2 in Big. apply Rsqr_incr_0_var.
    + unfold Rsqr. replace (sqrt (count xs) * r * (sqrt (count xs) * r)) with (sqrt (count xs) * sqrt (count xs) * r ^ 2) by ring.
      rewrite sqrt_sqrt by lra. rewrite <- Rabs_mult. replace (x * x) with (x ^ 2) by ring. rewrite Rabs_right; [lra|]. apply Rle_ge, pow2_ge_0.
    + apply Rmult_le_pos; [apply sqrt_pos|assumption].
Qed.

(** *** The tables *)
(** [n] rows, and one set of columns per name. *)
Definition well_formed (n : nat) (eph : table) : Prop :=
  NoDup (map fst eph) /\ forall name m v, In (name, m) eph -> List.length (m v) = n.
(** The rows that count: the method's value and JPL's, where both and JPL's zenith are present. *)
Definition row_pairs (v : variable) (m jpl : columns) (k : nat) : list (R * R) :=
  match nth k (jpl Zenith) None, nth k (m v) None, nth k (jpl v) None with
  | Some z, Some x, Some y => if Rlt_dec z 180 then [(x, y)] else []
  | _, _, _ => []
  end.
Definition pairs (n : nat) (v : variable) (m jpl : columns) : list (R * R) := flat_map (row_pairs v m jpl) (seq 0 n).
Definition residual (v : variable) (xy : R * R) : R := match v with Azimuth => azimuth_error (fst xy) (snd xy) | _ => fst xy - snd xy end.
Definition residuals (n : nat) (v : variable) (m jpl : columns) : list R := map (residual v) (pairs n v m jpl).

Lemma present_app a b : present (a ++ b) = present a ++ present b.
Proof. apply flat_map_app. Qed.
Lemma loc_residual f n : forall (z m o : column) k, List.length z = n -> List.length m = n -> List.length o = n ->
  present (loc (map (less 180) z) (zip_with (lift2 f) m o)) =
  flat_map (fun i => match nth (i - k) z None, nth (i - k) m None, nth (i - k) o None with
                     | Some z, Some x, Some y => if Rlt_dec z 180 then [f x y] else [] | _, _, _ => [] end) (seq k n).
Proof.
  induction n; intros z m o k Hz Hm Ho.
  - destruct z; [reflexivity|discriminate].
  - destruct z as [|z0 z]; [discriminate|]. destruct m as [|m0 m]; [discriminate|]. destruct o as [|o0 o]; [discriminate|].
    cbn in Hz, Hm, Ho. cbn [seq flat_map]. rewrite Nat.sub_diag. cbn [nth].
    rewrite (flat_map_concat_map _ (seq (S k) n)).
    rewrite (map_ext_in _ (fun i => match nth (i - S k) z None, nth (i - S k) m None, nth (i - S k) o None with
                     | Some z, Some x, Some y => if Rlt_dec z 180 then [f x y] else [] | _, _, _ => [] end)).
    + rewrite <- flat_map_concat_map, <- (IHn z m o (S k)) by lia.
      unfold loc, zip_with. cbn [map combine less]. destruct z0 as [r|]; cbn [less]; [|reflexivity]. destruct (Rlt_dec r 180); cbn [filter fst map snd].
      * destruct m0, o0; cbn [lift2]; reflexivity.
      * destruct m0, o0; reflexivity.
    + intros i Hi. apply in_seq in Hi. replace (i - k)%nat with (S (i - S k)) by lia. reflexivity.
Qed.
Lemma lookup_in {A} name (t : list (string * A)) a : lookup name t = Some a -> In (name, a) t.
Proof. induction t as [|(n, b) t IH]; cbn; [discriminate|]. destruct (String.eqb_spec name n); [subst; intros [= ->]; now left|]. intros H. right. auto. Qed.
Lemma in_lookup {A} name (t : list (string * A)) a : NoDup (map fst t) -> In (name, a) t -> lookup name t = Some a.
Proof.
  induction t as [|(n, b) t IH]; cbn; [contradiction|]. intros N [E|Hi].
  - inversion E; subst. now rewrite String.eqb_refl.
  - inversion N; subst. destruct (String.eqb_spec name n); [|auto]. subst. exfalso. apply H1. apply in_map_iff. exists (n, a). auto.
Qed.
Lemma lookup_none {A} name (t : list (string * A)) : ~ In name (map fst t) -> lookup name t = None.
Proof. induction t as [|(n, b) t IH]; cbn; [reflexivity|]. intros H. destruct (String.eqb_spec name n); [subst; tauto|]. apply IH. tauto. Qed.

(** Every method but JPL is rated, on every variable, and each rating is that of its residuals. *)
Theorem C70_ephemeris_scores : forall n eph jpl, well_formed n eph -> In ("jpl"%string, jpl) eph ->
  exists l, get_bulk_ephemeris_errors eph = Ok l /\
  (forall v name m, In (name, m) eph -> name <> "jpl"%string -> exists s, In (v, name, s) l) /\
  (forall v name s, In (v, name, s) l -> exists m, In (name, m) eph /\ name <> "jpl"%string /\
     let xs := residuals n v m jpl in (xs = [] -> no_scores s) /\ (xs <> [] -> scores_of xs s)).
Proof.
  intros n eph jpl (N & W) J. pose proof (in_lookup _ _ _ N J) as LJ. unfold get_bulk_ephemeris_errors, calc_residues. rewrite LJ. cbn [rbind].
  eexists. split; [reflexivity|]. split.
  - intros v name m Hm Hn. eexists. apply in_flat_map. exists v. split; [destruct v; cbn; tauto|]. apply in_map_iff.
    exists (name, calc_error m jpl). split; [reflexivity|]. apply in_map_iff. exists (name, m). split; [reflexivity|]. apply filter_In. split; [exact Hm|].
    destruct (String.eqb_spec name "jpl"); [contradiction|reflexivity].
  - intros v name s H. apply in_flat_map in H. destruct H as (v' & _ & H). apply in_map_iff in H. destruct H as ((name' & r) & E & H).
    inversion E; subst v' name' s. clear E. apply in_map_iff in H. destruct H as ((name' & m) & E & H). inversion E; subst name' r. clear E.
    apply filter_In in H. destruct H as (Hm & Hn). exists m. split; [exact Hm|]. split; [intros ->; cbn in Hn; discriminate|].
    assert (P : present (loc (map (less 180) (jpl Zenith)) (calc_error m jpl v)) = residuals n v m jpl).
    { assert (K : forall f, present (loc (map (less 180) (jpl Zenith)) (zip_with (lift2 f) (m v) (jpl v))) =
                  flat_map (fun i => match nth i (jpl Zenith) None, nth i (m v) None, nth i (jpl v) None with
                     | Some z, Some x, Some y => if Rlt_dec z 180 then [f x y] else [] | _, _, _ => [] end) (seq 0 n)).
      { intros f. rewrite (loc_residual f n _ _ _ 0) by eauto. rewrite !flat_map_concat_map. f_equal. apply map_ext. intros i. now rewrite Nat.sub_0_r. }
      assert (K' : forall f : R * R -> R, map f (pairs n v m jpl) =
                  flat_map (fun i => match nth i (jpl Zenith) None, nth i (m v) None, nth i (jpl v) None with
                     | Some z, Some x, Some y => if Rlt_dec z 180 then [f (x, y)] else [] | _, _, _ => [] end) (seq 0 n)).
      { intros f. unfold pairs. rewrite !flat_map_concat_map, concat_map, map_map. f_equal. apply map_ext. intros i. unfold row_pairs.
        destruct (nth i (jpl Zenith) None); [|reflexivity]. destruct (nth i (m v) None); [|reflexivity]. destruct (nth i (jpl v) None); [|reflexivity].
        now destruct (Rlt_dec r 180). }
      unfold residuals. rewrite K'. unfold calc_error, residual. destruct v; rewrite K; reflexivity. }
    cbn zeta. rewrite <- P. apply C70_score_values.
Qed.
(** Without JPL's columns there is no table. *)
Theorem C70_no_reference : forall eph, ~ In "jpl"%string (map fst eph) -> get_bulk_ephemeris_errors eph = Raise KeyError.
Proof. intros eph H. unfold get_bulk_ephemeris_errors, calc_residues. now rewrite (lookup_none _ _ H). Qed.

(** A method has root mean square error zero exactly if it reproduces JPL's values where both are known (for the azimuth,
    if it never differs by 330 degrees or more). *)
Theorem C70_perfect : forall n eph jpl l v name m s r, well_formed n eph -> In ("jpl"%string, jpl) eph -> get_bulk_ephemeris_errors eph = Ok l ->
  In (name, m) eph -> In (v, name, s) l -> rmse s = Some r ->
  (v = Azimuth -> forall x y, In (x, y) (pairs n v m jpl) -> Rabs (x - y) < 330) ->
  (r = 0 <-> forall x y, In (x, y) (pairs n v m jpl) -> x = y).
Proof.
  intros n eph jpl l v name m s r W J G Hm Hs Hr Az. destruct (C70_ephemeris_scores n eph jpl W J) as (l' & G' & _ & S).
  rewrite G in G'. inversion G'; subst l'. destruct (S v name s Hs) as (m' & Hm' & _ & E & F). cbn zeta in *.
  assert (m' = m) as ->. { destruct W as (N & _). pose proof (in_lookup _ _ _ N Hm) as A. rewrite (in_lookup _ _ _ N Hm') in A. congruence. }
  destruct (residuals n v m jpl) eqn:Er.
  { rewrite (E eq_refl) in Hr. discriminate. }
  specialize (F ltac:(discriminate)).
  destruct F as (b & a & r' & p & q & Hb & Ha & Hr' & F).
  destruct (C70_score_order (r0 :: l0) s b a r ltac:(exists b, a, r', p, q; tauto) ltac:(discriminate) Hb Ha Hr) as (_ & _ & Z & _).
  rewrite Z, <- Er. unfold residuals.
  assert (Q : forall x y, In (x, y) (pairs n v m jpl) -> residual v (x, y) = x - y).
  { intros x y Hxy. unfold residual. cbn [fst snd]. destruct v; try reflexivity. specialize (Az eq_refl x y Hxy). unfold azimuth_error.
    apply Rabs_def2 in Az. destruct (Rlt_dec (-330) (x - y)); [|lra]. destruct (Rlt_dec (x - y) 330); lra. }
  split.
  - intros H x y Hxy. specialize (H (residual v (x, y)) ltac:(now apply in_map)). rewrite Q in H by exact Hxy. lra.
  - intros H x Hx. apply in_map_iff in Hx. destruct Hx as ((x' & y') & <- & Hxy). rewrite Q by exact Hxy. rewrite (H x' y' Hxy). ring.
Qed.

Lemma Forall2_len {A B} (P : A -> B -> Prop) l l' : Forall2 P l l' -> List.length l = List.length l'.
Proof. induction 1; cbn; lia. Qed.
(** The azimuth's scores and the true angular differences [ts] (C52): the mean absolute and root mean square errors are those of the
    true differences wherever no raw difference lies strictly between 180 and 330 degrees ... *)
Theorem C70_azimuth_partial : forall n eph jpl l name m s ts, well_formed n eph -> In ("jpl"%string, jpl) eph -> get_bulk_ephemeris_errors eph = Ok l ->
  In (name, m) eph -> In (Azimuth, name, s) l ->
  (forall x y, In (x, y) (pairs n Azimuth m jpl) -> -180 <= x <= 180 /\ -180 <= y <= 180 /\ (Rabs (x - y) < 180 \/ 330 <= Rabs (x - y))) ->
  Forall2 (fun xy t => angular_difference (fst xy) (snd xy) t) (pairs n Azimuth m jpl) ts -> ts <> [] ->
  exists a r, mae s = Some a /\ rmse s = Some r /\ count ts * a = total (map Rabs ts) /\ count ts * r ^ 2 = total (map (fun t => t ^ 2) ts).
Proof.
  intros n eph jpl l name m s ts W J G Hm Hs Rg Ts Ne. destruct (C70_ephemeris_scores n eph jpl W J) as (l' & G' & _ & S).
  rewrite G in G'. inversion G'; subst l'. destruct (S _ name s Hs) as (m' & Hm' & _ & _ & F). cbn zeta in F.
  assert (m' = m) as ->. { destruct W as (N & _). pose proof (in_lookup _ _ _ N Hm) as A. rewrite (in_lookup _ _ _ N Hm') in A. congruence. }
  unfold residuals in F. revert Rg Ts F. generalize (pairs n Azimuth m jpl). clear - Ne. intros ps Rg Ts F.
  assert (K : map Rabs (map (residual Azimuth) ps) = map Rabs ts).
  { clear F Ne. induction Ts as [|(x & y) t ps ts H Ts IH]; [reflexivity|]. cbn [map]. f_equal; [|apply IH; intros; apply Rg; now right].
    destruct (Rg x y) as (Hx & Hy & D); [now left|]. cbn [fst snd] in H. unfold residual. cbn [fst snd].
    destruct (C52_azimuth_error_partial x y t Hx Hy H) as (K1 & K2). destruct D as [D|D]; [|apply K2; lra]. rewrite K1; [reflexivity|]. apply Rabs_def2 in D. lra. }
  assert (L : List.length (map (residual Azimuth) ps) = List.length ts) by (rewrite map_length; now rewrite (Forall2_len _ _ _ Ts)).
  destruct F as (b & a & r & p & q & _ & Ha & Hr & _ & _ & _ & A & _ & R2 & _).
  { intros E. rewrite E in L. destruct ts; [contradiction|discriminate]. }
  exists a, r. split; [exact Ha|]. split; [exact Hr|]. unfold count in *. rewrite L in A, R2. rewrite K in A. split; [exact A|].
  rewrite R2. rewrite (map_ext (fun t => t ^ 2) (fun t => (Rabs t) ^ 2)) by (intros; symmetry; apply pow2_abs).
  rewrite (map_ext (fun t => t ^ 2) (fun t => (Rabs t) ^ 2)) by (intros; symmetry; apply pow2_abs). rewrite <- (map_map Rabs (fun t => t ^ 2)).
  rewrite <- (map_map Rabs (fun t => t ^ 2) ts). now rewrite K.
Qed.
(** ... but the bias is not: where every row crosses the north it has the opposite sign. *)
Theorem C70_azimuth_bias_refuted : forall n eph jpl l name m s ts, well_formed n eph -> In ("jpl"%string, jpl) eph -> get_bulk_ephemeris_errors eph = Ok l ->
  In (name, m) eph -> In (Azimuth, name, s) l ->
  (forall x y, In (x, y) (pairs n Azimuth m jpl) -> -180 <= x <= 180 /\ -180 <= y <= 180 /\ 330 <= Rabs (x - y)) ->
  Forall2 (fun xy t => angular_difference (fst xy) (snd xy) t) (pairs n Azimuth m jpl) ts -> ts <> [] ->
  mbe s = Some (- (total ts / count ts)).
Proof.
  intros n eph jpl l name m s ts W J G Hm Hs Rg Ts Ne. destruct (C70_ephemeris_scores n eph jpl W J) as (l' & G' & _ & S).
  rewrite G in G'. inversion G'; subst l'. destruct (S _ name s Hs) as (m' & Hm' & _ & _ & F). cbn zeta in F.
  assert (m' = m) as ->. { destruct W as (N & _). pose proof (in_lookup _ _ _ N Hm) as A. rewrite (in_lookup _ _ _ N Hm') in A. congruence. }
  unfold residuals in F. revert Rg Ts F. generalize (pairs n Azimuth m jpl). clear - Ne. intros ps Rg Ts F.
  assert (K : total (map (residual Azimuth) ps) = - total ts).
  { clear F Ne. induction Ts as [|(x & y) t ps ts H Ts IH]; [cbn; ring|]. cbn [map total]. rewrite IH by (intros; apply Rg; now right).
    destruct (Rg x y) as (Hx & Hy & D); [now left|]. cbn [fst snd] in H. unfold residual. cbn [fst snd].
    destruct (C52_sign_refuted x y t Hx Hy H) as (K1 & _). rewrite K1 by lra. ring. }
  assert (L : List.length (map (residual Azimuth) ps) = List.length ts) by (rewrite map_length; now rewrite (Forall2_len _ _ _ Ts)).
  destruct F as (b & a & r & p & q & Hb & _ & _ & _ & _ & B & _).
  { intros E. rewrite E in L. destruct ts; [contradiction|discriminate]. }
  rewrite Hb. f_equal. unfold count in *. rewrite L, K in B. assert (C := count_pos ts Ne). unfold count in C.
  apply Rmult_eq_reg_l with (INR (List.length ts)); [|lra]. rewrite B. field. lra.
Qed.

(** The printed numbers are the scores in arc-seconds (angles) and in thousandths (eccentricity factor). *)
Theorem C70_printed : forall eph l v name s', printed_ephemeris_errors eph = Ok l -> In (v, name, s') l ->
  exists l0 s, get_bulk_ephemeris_errors eph = Ok l0 /\ In (v, name, s) l0 /\
  let f := option_map (fun x => x * (match v with Zenith | Azimuth => 60 * 60 | Ecf => 1000 end)) in
  mbe s' = f (mbe s) /\ std s' = f (std s) /\ mae s' = f (mae s) /\ rmse s' = f (rmse s) /\ p66 s' = f (p66 s) /\ p90 s' = f (p90 s).
Proof.
  intros eph l v name s' H Hi. unfold printed_ephemeris_errors in H. destruct (get_bulk_ephemeris_errors eph) as [l0|]; [|discriminate]. cbn [rbind] in H.
  inversion H; subst l. apply in_map_iff in Hi. destruct Hi as (((v' & name') & s) & E & Hi). inversion E; subst v' name' s'.
  exists l0, s. split; [reflexivity|]. split; [exact Hi|]. cbn zeta. unfold rescale, lift1, scale. cbn [mbe std mae rmse p66 p90].
  assert (X : 60 * 60 = 3600) by ring. destruct v; rewrite ?X; repeat split.
Qed.

(** A table of two rows (the second without a value of the method) meets the hypotheses: a north crossing. *)
Definition ex_jpl : columns := fun v => match v with Zenith => [Some 50; Some 60] | Azimuth => [Some (-179.9); Some 10] | Ecf => [Some 1; Some 1] end.
Definition ex_m : columns := fun v => match v with Zenith => [Some 50.1; None] | Azimuth => [Some 179.9; None] | Ecf => [Some 1; None] end.
Definition ex_table : table := [("jpl"%string, ex_jpl); ("m"%string, ex_m)].
Example C70_example : well_formed 2 ex_table /\ pairs 2 Azimuth ex_m ex_jpl = [(179.9, -179.9)] /\ pairs 2 Zenith ex_m ex_jpl = [(50.1, 50)] /\
  Forall2 (fun xy t => angular_difference (fst xy) (snd xy) t) [(179.9, -179.9)] [-0.2].
Proof.
  assert (Z : forall z, z < 180 -> forall A (a b : A), (if Rlt_dec z 180 then a else b) = a) by (intros z Hz A a b; destruct (Rlt_dec z 180); [reflexivity|contradiction]).
  split; [split|split; [|split]].
  - cbn. repeat constructor; cbn; intuition discriminate.
  - intros name m v [E|[E|[]]]; inversion E; destruct v; reflexivity.
  - unfold pairs, row_pairs. cbn [seq flat_map nth ex_m ex_jpl]. rewrite Z by lra. reflexivity.
  - unfold pairs, row_pairs. cbn [seq flat_map nth ex_m ex_jpl]. rewrite Z by lra. reflexivity.
  - repeat constructor; cbn [fst snd]; [exists (-1)%Z; lra|lra|lra].
Qed.

(** *** Clear-sky irradiance: every score is that of the differences, by day, between a method's and JPL's irradiances *)
Definition day_pairs (sparta : cell -> cell -> irradiance -> cell) (i : irradiance) (m jpl : columns) (k : nat) : list R :=
  let irr (c : columns) := sparta (option_map (fun z => cos (z * (PI / 180))) (nth k (c Zenith) None)) (nth k (c Ecf) None) i in
  match nth k (jpl Zenith) None with
  | Some z => if Rlt_dec z 90 then match irr m, irr jpl with Some x, Some y => [x - y] | _, _ => [] end else []
  | None => []
  end.
Lemma clearsky_residual (sparta : cell -> cell -> irradiance -> cell) (i : irradiance) n : forall (keep : list bool) (zm em zj ej : column) k,
  List.length keep = n -> List.length zm = n -> List.length em = n -> List.length zj = n -> List.length ej = n ->
  present (zip_with (lift2 Rminus)
     (map (fun '(z, e) => sparta (lift1 (fun z => cos (z * (PI / 180))) z) e i) (combine (loc keep zm) (loc keep em)))
     (map (fun '(z, e) => sparta (lift1 (fun z => cos (z * (PI / 180))) z) e i) (combine (loc keep zj) (loc keep ej)))) =
  flat_map (fun q => if nth (q - k) keep false then
      match sparta (option_map (fun z => cos (z * (PI / 180))) (nth (q - k) zm None)) (nth (q - k) em None) i,
            sparta (option_map (fun z => cos (z * (PI / 180))) (nth (q - k) zj None)) (nth (q - k) ej None) i with
      | Some x, Some y => [x - y] | _, _ => [] end else []) (seq k n).
Proof.
  induction n; intros keep zm em zj ej k H1 H2 H3 H4 H5.
  - destruct keep; [reflexivity|discriminate].
  - destruct keep as [|b keep]; [discriminate|]. destruct zm as [|zm0 zm]; [discriminate|]. destruct em as [|em0 em]; [discriminate|].
    destruct zj as [|zj0 zj]; [discriminate|]. destruct ej as [|ej0 ej]; [discriminate|]. cbn in H1, H2, H3, H4, H5.
    cbn [seq flat_map]. rewrite Nat.sub_diag. cbn [nth]. rewrite (flat_map_concat_map _ (seq (S k) n)).
    rewrite (map_ext_in _ (fun q => if nth (q - S k) keep false then
      match sparta (option_map (fun z => cos (z * (PI / 180))) (nth (q - S k) zm None)) (nth (q - S k) em None) i,
            sparta (option_map (fun z => cos (z * (PI / 180))) (nth (q - S k) zj None)) (nth (q - S k) ej None) i with
      | Some x, Some y => [x - y] | _, _ => [] end else [])).
    + rewrite <- flat_map_concat_map, <- (IHn keep zm em zj ej (S k)) by lia.
      unfold loc, zip_with. destruct b; cbn [map combine filter fst snd]; [|reflexivity]. unfold lift1 at 1 2.
      destruct (sparta (option_map _ zm0) em0 i), (sparta (option_map _ zj0) ej0 i); reflexivity.
    + intros q Hq. apply in_seq in Hq. replace (q - k)%nat with (S (q - S k)) by lia. reflexivity.
Qed.
Theorem C70_clearsky_scores : forall sparta n eph jpl, well_formed n eph -> In ("jpl"%string, jpl) eph ->
  exists l, get_bulk_clearsky_errors sparta eph = Ok l /\
  (forall i name label m, In (name, m) eph ->
     In (name, label) [("sunwhere.nrel_numexpr", "nrel"); ("sunwhere.psa_numexpr", "psa"); ("sunwhere.iqbal_numexpr", "iqbal");
       ("sunwhere.soltrack_numexpr", "soltrack"); ("sg2.sg2_c++", "sg2")]%string ->
     exists s, In (i, label, s) l /\
     let xs := flat_map (day_pairs sparta i m jpl) (seq 0 n) in (xs = [] -> no_scores s) /\ (xs <> [] -> scores_of xs s)) /\
  (forall i label s, In (i, label, s) l -> In label ["nrel"; "psa"; "iqbal"; "soltrack"; "sg2"]%string).
Proof.
  intros sparta n eph jpl (N & W) J. pose proof (in_lookup _ _ _ N J) as LJ. unfold get_bulk_clearsky_errors. rewrite LJ. eexists. split; [reflexivity|]. split.
  - intros i name label m Hm Hl. eexists. split.
    + apply in_flat_map. exists i. split; [destruct i; cbn; tauto|]. apply in_map_iff. exists (label, fun v => loc (map (less 90) (jpl Zenith)) (m v)).
      split; [reflexivity|]. apply filter_In. split.
      * apply in_flat_map. exists (name, m). split; [exact Hm|].
        cbn [In] in Hl. destruct Hl as [E|[E|[E|[E|[E|[]]]]]]; inversion E; subst; cbn; now left.
      * cbn [In] in Hl. destruct Hl as [E|[E|[E|[E|[E|[]]]]]]; inversion E; subst; reflexivity.
    + assert (P : present (zip_with (lift2 Rminus) (clearsky sparta (fun v => loc (map (less 90) (jpl Zenith)) (m v)) i)
                     (clearsky sparta (fun v => loc (map (less 90) (jpl Zenith)) (jpl v)) i)) = flat_map (day_pairs sparta i m jpl) (seq 0 n)).
      { unfold clearsky. rewrite (clearsky_residual sparta i n _ _ _ _ _ 0); try (rewrite ?map_length; eauto; fail).
        rewrite !flat_map_concat_map. f_equal. apply map_ext_in. intros k Hk. apply in_seq in Hk. rewrite Nat.sub_0_r. unfold day_pairs.
        rewrite (nth_indep _ false (less 90 None)) by (rewrite map_length, (W _ _ _ J); lia). rewrite map_nth. unfold less.
        destruct (nth k (jpl Zenith) None); [|reflexivity]. now destruct (Rlt_dec r 90). }
      cbn zeta. rewrite <- P. apply C70_score_values.
  - intros i label s H. apply in_flat_map in H. destruct H as (i' & _ & H). apply in_map_iff in H. destruct H as ((label' & m) & E & H). inversion E; subst.
    apply filter_In in H. destruct H as (_ & H). apply existsb_exists in H. destruct H as (x & Hx & Ex). apply String.eqb_eq in Ex. subst. cbn in *. tauto.
Qed.

(** ** C71: sunwhere's columns *)
Definition no_kwargs : sites_kwargs := {| kw_algorithm := None; kw_engine := None; kw_refraction := None |}.
(** A benchmark run rates every supported pair, each under its own name, without refraction. *)
Theorem C71_columns : forall F (O : Ops F) l (lat lon : F), coords_ok [lat] [lon] ->
  exists cols, sunwhere_ephemeris true (at_times l) (Scalar lat) (Scalar lon) None no_kwargs = Ok cols /\
  NoDup (map fst cols) /\
  (forall alg eng m, In (alg, eng, m) (supported (F := F)) -> exists sp, In (("sunwhere." ++ alg ++ "_" ++ eng)%string, sp) cols /\
     sites true (at_times l) (Scalar lat) (Scalar lon) alg RFalse eng = Ok sp) /\
  (forall name sp, In (name, sp) cols -> exists alg eng m, In (alg, eng, m) (supported (F := F)) /\ name = ("sunwhere." ++ alg ++ "_" ++ eng)%string /\
     sites true (at_times l) (Scalar lat) (Scalar lon) alg RFalse eng = Ok sp).
Proof.
  intros F O l lat lon C.
  assert (A : forall alg eng m, In (alg, eng, m) (supported (F := F)) -> exists sp, sites true (at_times l) (Scalar lat) (Scalar lon) alg RFalse eng = Ok sp).
  { intros alg eng m H. apply (C08_accept F O Sites l (Scalar lat) (Scalar lon) alg RFalse eng m H); [right; eauto|right; eauto|cbn; auto|exact C]. }
  destruct (A "nrel"%string "numexpr"%string _ ltac:(cbn; tauto)) as (s1 & E1).
  destruct (A "soltrack"%string "numexpr"%string _ ltac:(cbn; tauto)) as (s2 & E2).
  destruct (A "soltrack"%string "numpy"%string _ ltac:(cbn; tauto)) as (s3 & E3).
  destruct (A "psa"%string "numexpr"%string _ ltac:(cbn; tauto)) as (s4 & E4).
  destruct (A "psa"%string "numpy"%string _ ltac:(cbn; tauto)) as (s5 & E5).
  destruct (A "iqbal"%string "numexpr"%string _ ltac:(cbn; tauto)) as (s6 & E6).
  destruct (A "iqbal"%string "numpy"%string _ ltac:(cbn; tauto)) as (s7 & E7).
  unfold sunwhere_ephemeris, default_methods, get_ephemeris, no_kwargs. cbn [mapM split_at Ascii.eqb Bool.eqb setdefault kw_algorithm kw_engine kw_refraction].
  rewrite E1, E2, E3, E4, E5, E6, E7. cbn [rbind map combine append]. eexists. split; [reflexivity|]. split; [|split].
  - cbn. repeat constructor; cbn; intuition discriminate.
  - intros alg eng m H. cbn [supported In] in H.
    repeat (destruct H as [H|H]; [inversion H; subst; cbn [append]; eexists; (split; [|eassumption]); cbn; tauto|]). destruct H.
  - intros name sp H. cbn [In] in H.
    destruct H as [H|[H|[H|[H|[H|[H|[H|[]]]]]]]]; inversion H; subst;
      [exists "nrel"%string, "numexpr"%string|exists "soltrack"%string, "numexpr"%string|exists "soltrack"%string, "numpy"%string|exists "psa"%string, "numexpr"%string|exists "psa"%string, "numpy"%string|exists "iqbal"%string, "numexpr"%string|exists "iqbal"%string, "numpy"%string];
      eexists; (split; [cbn; tauto|]); (split; [reflexivity|assumption]).
Qed.
(** But a caller's [algorithm] and [engine] fill every column, whatever its name says. *)
Theorem C71_kwargs_refuted : forall F (O : Ops F) ne times (lat lon : arg F) methods alg eng refr cols,
  sunwhere_ephemeris ne times lat lon methods {| kw_algorithm := Some alg; kw_engine := Some eng; kw_refraction := refr |} = Ok cols ->
  forall name sp, In (name, sp) cols ->
  sites ne times lat lon alg (match refr with Some f => f | None => RFalse end) eng = Ok sp.
Proof.
  intros F O ne times lat lon methods alg eng refr cols H. unfold sunwhere_ephemeris in H.
  set (ms := match methods with Some (m :: ms) => m :: ms | _ => default_methods end) in H. clearbody ms.
  destruct (mapM _ ms) as [objs|] eqn:E; [|discriminate]. cbn [rbind] in H. inversion H; subst cols. clear H.
  revert objs E. induction ms as [|m ms IH]; intros objs E name sp Hi; [destruct Hi|]. cbn [mapM] in E.
  destruct (get_ephemeris ne times lat lon _ m) as [o|] eqn:G; [|discriminate]. cbn [rbind] in E. destruct (mapM _ ms) as [os|] eqn:M; [|discriminate].
  cbn [rbind] in E. inversion E; subst objs. cbn [map combine In] in Hi. destruct Hi as [Hi|Hi]; [|eapply IH; [reflexivity|exact Hi]].
  inversion Hi; subst. unfold get_ephemeris in G. destruct (split_at "_"%char m) as [|a [|b [|c r]]]; try discriminate. exact G.
Qed.
(** Every rated name can be printed, and no two are printed alike. *)
Theorem C71_names :
  (forall a e, In (a, e) [("psa", "numpy"); ("soltrack", "numpy"); ("iqbal", "numpy"); ("psa", "numexpr"); ("soltrack", "numexpr"); ("iqbal", "numexpr"); ("nrel", "numexpr")]%string ->
     In ("sunwhere." ++ a ++ "_" ++ e)%string rated_names) /\
  map reformat rated_names = map Ok
    ["pvlib's NREL (numba)"; "pvlib's NREL (numpy)"; "pvlib's EPHEMERIS"; "pvlib's PYEPHEM"; "sg2's SG2 (c++)";
     "sunwhere's NREL (numexpr)"; "sunwhere's SOLTRACK (numexpr)"; "sunwhere's SOLTRACK (numpy)"; "sunwhere's PSA (numexpr)";
     "sunwhere's PSA (numpy)"; "sunwhere's IQBAL (numexpr)"; "sunwhere's IQBAL (numpy)"]%string /\
  NoDup (map reformat rated_names).
Proof.
  split; [|split].
  - intros a e H. cbn [In] in H. repeat (destruct H as [H|H]; [injection H as <- <-; vm_compute; tauto|]). destruct H.
  - vm_compute. reflexivity.
  - vm_compute. repeat constructor; cbn; intuition discriminate.
Qed.
Example C71_example : exists cols sp, sunwhere_ephemeris (O := ExtOps ideal_env) true (at_times w_times) (Scalar (Fin 40)) (Scalar (Fin (-3))) None no_kwargs = Ok cols /\
  In ("sunwhere.psa_numpy"%string, sp) cols.
Proof.
  destruct (C71_columns ext (ExtOps ideal_env) w_times (Fin 40) (Fin (-3))) as (cols & H & _ & S & _).
  - destruct (w_coords ideal_env) as (A & B). split; intros x [<-|[]]; [apply A|apply B]; cbn; tauto.
  - destruct (S "psa"%string "numpy"%string _ ltac:(cbn; tauto)) as (sp & Hs & _). exists cols, sp. split; [exact H|exact Hs].
Qed.
Print Assumptions C70_ephemeris_scores.
Print Assumptions C70_clearsky_scores.
Print Assumptions C71_columns.
