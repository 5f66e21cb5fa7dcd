(** * NrelD: the time part of nrel in double precision *)

From Coq Require Import ZArith QArith Reals Bool List Lra Lia.
From Flocq Require Import Core.Raux.
From Interval Require Import Tactic.
From Verif Require Import Num Ext ExtLemmas Sky SkyClose AstroTac AstroSpec SingleSpec Double DoubleTac DoubleLemmas DoubleCore PsaR PsaD SoltrackR SoltrackD NrelTables Nrel NrelR.
Import ListNotations.
Open Scope R_scope.

(** [apn]: as [ap], with the bounds of every subterm replaced by numerals. *)
Ltac nle := lazymatch goal with |- (?b <=? ?b')%Z = true => let v := eval vm_compute in b in unify b' v; vm_compute; reflexivity end.
Ltac nrm t := eapply ap_le; [t|nle|nle].
Ltac apn D HD :=
  lazymatch goal with
  | |- apb ?x _ _ _ =>
    lazymatch x with
    | add _ _ => nrm ltac:(eapply (ap_add D HD); [apn D HD|apn D HD|vm_compute; reflexivity])
    | sub _ _ => nrm ltac:(eapply (ap_sub D HD); [apn D HD|apn D HD|vm_compute; reflexivity])
    | mul _ _ => nrm ltac:(eapply (ap_mul D HD); [apn D HD|apn D HD|vm_compute; reflexivity])
    | div _ (lit _) => nrm ltac:(eapply (ap_divq D HD); [apn D HD|vm_compute; reflexivity|vm_compute; reflexivity])
    | div _ _ => nrm ltac:(eapply (ap_div D HD); [apn D HD|apn D HD|eassumption|vm_compute; reflexivity|vm_compute; reflexivity])
    | neg _ => eapply (ap_neg D); apn D HD
    | fabs _ => eapply (ap_abs D); apn D HD
    | fsin _ => nrm ltac:(eapply (ap_sin_b D HD); apn D HD)
    | fcos _ => nrm ltac:(eapply (ap_cos D HD); apn D HD)
    | powi _ _ => nrm ltac:(eapply (ap_pow D HD); [apn D HD|vm_compute; reflexivity])
    | degrees _ => nrm ltac:(eapply (ap_degrees D HD); [apn D HD|vm_compute; reflexivity])
    | radians _ => nrm ltac:(eapply (ap_radians D HD); [apn D HD|vm_compute; reflexivity])
    | _ => nrm ltac:(ap D HD)
    end
  end.

(** ** Sums *)
Definition sumE (b e : Z) : Z := (e + ((b + e) / 2 ^ 45 + 2))%Z.
Definition Zsum : list Z -> Z := fold_right Z.add 0%Z.
Section Sum.
  Variable D : Env64.
  Hypothesis HD : double_like D.
  Notation O64 := (DoubleOps D).

  Inductive apl : list ext -> list R -> Z -> Z -> Prop :=
  | apl_nil : apl [] [] 0 0
  | apl_cons x a b e l r bs es : apb x a b e -> apl l r bs es -> apl (x :: l) (a :: r) (b + bs) (e + es).
  Lemma apl_vals l r b e : apl l r b e -> exists vs, fin_list l = Some vs /\ length vs = length l /\ Rabs (Rsum vs - Rsum r) <= Rz e /\
    Rsum (map Rabs vs) <= Rz (b + e) /\ Rabs (Rsum r) <= Rz b.
  Proof.
    induction 1 as [|x a b e l r bs es H _ (vs & E1 & E2 & E3 & E4 & E5)].
    - exists []. cbn. rewrite Rminus_diag_eq, Rabs_R0 by reflexivity. unfold Rz. rewrite Rmult_0_l. repeat split; lra.
    - destruct H as (v & -> & H1 & H2). exists (v :: vs). cbn [fin_list]. rewrite E1. split; [reflexivity|]. cbn [length]. rewrite E2. split; [reflexivity|].
      cbn [Rsum fold_right map]. fold (Rsum vs) (Rsum r) (Rsum (map Rabs vs)). rewrite !Rz_plus in *. split; [|split].
      + replace (v + Rsum vs - (a + Rsum r)) with ((v - a) + (Rsum vs - Rsum r)) by ring. eapply Rle_trans; [apply Rabs_triang|]. lra.
      + assert (Rabs v <= Rz b + Rz e) by (replace v with (a + (v - a)) by ring; eapply Rle_trans; [apply Rabs_triang|]; lra). lra.
      + eapply Rle_trans; [apply Rabs_triang|]. lra.
  Qed.
  Lemma tiny900 : / 2 ^ 900 <= u90.
  Proof.
    unfold u90. apply Rinv_le_contravar; [apply IZR_lt; reflexivity|]. replace (IZR S90) with (2 ^ 90).
    - apply Rle_pow; [lra|lia].
    - rewrite (pow_IZR 2 90). reflexivity.
  Qed.
  Lemma ap_sum l r b e : apl l r b e -> (length l <=? 128)%nat = true -> fits64 b (sumE b e) = true -> apb (fsum (Ops := O64) l) (Rsum r) b (sumE b e).
  Proof.
    intros H Hl Hf. apply Nat.leb_le in Hl. destruct (apl_vals _ _ _ _ H) as (vs & E1 & E2 & E3 & E4 & E5). cbn [fsum DoubleOps]. unfold e_sum64. rewrite E1.
    apply ap_fin64; [|exact E5|exact Hf]. assert (S := dl_sum D HD vs ltac:(lia)). pose proof tiny900.
    replace (sum64 D vs - Rsum r) with ((Rsum vs - Rsum r) + (sum64 D vs - Rsum vs)) by ring. eapply Rle_trans; [apply Rabs_triang|].
    unfold sumE. rewrite Rz_plus. apply Rplus_le_compat; [exact E3|]. eapply Rle_trans; [exact S|].
    change ((b + e) / 2 ^ 45 + 2)%Z with ((b + e) / 2 ^ 45 + (1 + 1))%Z. rewrite Z.add_assoc, Rz_plus. assert (Rz 1 = u90) by (unfold Rz; ring).
    assert (Rsum (map Rabs vs) / 2 ^ 45 <= Rz ((b + e) / 2 ^ 45 + 1)); [|lra].
    eapply Rle_trans with (Rz (b + e) / IZR (2 ^ 45)).
    - replace (IZR (2 ^ 45)) with (2 ^ 45) by (rewrite (pow_IZR 2 45); reflexivity). apply Rmult_le_compat_r; [|exact E4].
      left. apply Rinv_0_lt_compat, pow_lt. lra.
    - unfold Rz. replace (IZR (b + e) * u90 / IZR (2 ^ 45)) with (IZR (b + e) / IZR (2 ^ 45) * u90) by (unfold Rdiv; ring).
      apply Rmult_le_compat_r; [pose proof u90_pos; lra|]. apply Zdiv_up. reflexivity.
  Qed.

  (** ** The heliocentric series *)
  Definition oneE (b1 b2 e1 e2 : Z) : Z := (mulE b1 b2 e1 e2 + rdE (mulB b1 b2 + mulE b1 b2 e1 e2))%Z.
  Definition plusE (b1 b2 e1 e2 : Z) : Z := (e1 + e2 + rdE (b1 + b2 + (e1 + e2)))%Z.
  Definition argE (c : Q * Q * Q) (bj ej : Z) : Z := let '(c0, c1, c2) := c in plusE (qbnd c1) (mulB (qbnd c2) bj) (qerr c1) (oneE (qbnd c2) bj (qerr c2) ej).
  Definition termB (c : Q * Q * Q) : Z := let '(c0, c1, c2) := c in mulB (qbnd c0) S90.
  Definition termE (bj ej : Z) (c : Q * Q * Q) : Z := let '(c0, c1, c2) := c in oneE (qbnd c0) S90 (qerr c0) (argE c bj ej + 2 ^ 40).
  Definition serB (t : list (Q * Q * Q)) : Z := Zsum (map termB t).
  Definition serE (t : list (Q * Q * Q)) (bj ej : Z) : Z := sumE (serB t) (Zsum (map (termE bj ej) t)).
  Definition oneF (b1 b2 e1 e2 : Z) : bool := fits64 (mulB b1 b2) (mulE b1 b2 e1 e2).
  Definition plusF (b1 b2 e1 e2 : Z) : bool := fits64 (b1 + b2) (e1 + e2).
  Lemma ap_one x y a c b1 b2 e1 e2 : apb x a b1 e1 -> apb y c b2 e2 -> oneF b1 b2 e1 e2 = true -> apb (mul (Ops := O64) x y) (a * c) (mulB b1 b2) (oneE b1 b2 e1 e2).
  Proof. exact (ap_mul D HD x y a c b1 b2 e1 e2). Qed.
  Lemma ap_plus x y a c b1 b2 e1 e2 : apb x a b1 e1 -> apb y c b2 e2 -> plusF b1 b2 e1 e2 = true -> apb (add (Ops := O64) x y) (a + c) (b1 + b2) (plusE b1 b2 e1 e2).
  Proof. exact (ap_add D HD x y a c b1 b2 e1 e2). Qed.
  Definition termF (bj ej : Z) (c : Q * Q * Q) : bool := let '(c0, c1, c2) := c in
    oneF (qbnd c2) bj (qerr c2) ej && plusF (qbnd c1) (mulB (qbnd c2) bj) (qerr c1) (oneE (qbnd c2) bj (qerr c2) ej) && oneF (qbnd c0) S90 (qerr c0) (argE c bj ej + 2 ^ 40).
  Lemma ap_series t J j bj ej : apb J j bj ej -> (length t <=? 128)%nat = true -> forallb (termF bj ej) t = true -> fits64 (serB t) (serE t bj ej) = true ->
    apb (series (O := O64) t J) (r_series t j) (serB t) (serE t bj ej).
  Proof.
    intros HJ Hl HF HS. unfold series.
    replace (r_series t j) with (Rsum (map (r_term j) t)) by (clear; induction t as [|c t IH]; [reflexivity|]; cbn [map Rsum fold_right r_series]; f_equal; exact IH).
    apply ap_sum; [|rewrite map_length; exact Hl|exact HS]. unfold serB. clear Hl HS. induction t as [|[[c0 c1] c2] t IH]; [constructor|].
    cbn [forallb] in HF. apply andb_true_iff in HF. destruct HF as [HF HF']. unfold termF in HF. rewrite !andb_true_iff in HF. destruct HF as ((F1 & F2) & F3).
    cbn [map Zsum fold_right]. constructor; [|exact (IH HF')]. unfold r_term, termB, termE. 
    apply ap_one; [apply (ap_lit D HD)| |exact F3]. eapply (ap_cos D HD). unfold argE. eapply ap_plus; [apply (ap_lit D HD)| |exact F2]. apply ap_one; [apply (ap_lit D HD)|exact HJ|exact F1].
  Qed.
End Sum.

(** ** The nutation series *)
Section Nutation.
  Variable D : Env64.
  Hypothesis HD : double_like D.
  Notation O64 := (DoubleOps D).
  Variables (X0 X1 X2 X3 X4 J : ext) (x0 x1 x2 x3 x4 j : R) (bx ex bj ej : Z).
  Hypothesis H0 : apb X0 x0 bx ex.
  Hypothesis H1 : apb X1 x1 bx ex.
  Hypothesis H2 : apb X2 x2 bx ex.
  Hypothesis H3 : apb X3 x3 bx ex.
  Hypothesis H4 : apb X4 x4 bx ex.
  Hypothesis HJ : apb J j bj ej.
  Definition small_y (y : Z * Z * Z * Z * Z) : bool :=
    let '(y0, y1, y2, y3, y4) := y in forallb (fun z => (Z.abs z <=? 5)%Z) [y0; y1; y2; y3; y4].
  Definition prodE : Z -> Z -> Z := fun bx ex => oneE (5 * S90) bx 0 ex.
  Definition prodB : Z -> Z := fun bx => mulB (5 * S90) bx.
  Hypothesis HP : oneF (5 * S90) bx 0 ex = true.
  Lemma ap_yx y X x : (Z.abs y <=? 5)%Z = true -> apb X x bx ex -> apb (mul (Ops := O64) (ofZ (Ops := O64) y) X) (IZR y * x) (prodB bx) (prodE bx ex).
  Proof.
    intros Hy HX. apply Z.leb_le in Hy. unfold prodB, prodE. apply (ap_one D HD); [|exact HX|exact HP]. apply (ap_ofZ D HD).
    - eapply Z.le_trans; [exact Hy|]. vm_compute. discriminate.
    - rewrite Rz_k. rewrite <- abs_IZR. now apply IZR_le.
  Qed.
  Definition s2E (b e : Z) : Z := plusE b b e e.
  Definition s3E (b e : Z) : Z := plusE (b + b) b (s2E b e) e.
  Definition s4E (b e : Z) : Z := plusE (b + b + b) b (s3E b e) e.
  Definition s5E (b e : Z) : Z := plusE (b + b + b + b) b (s4E b e) e.
  Definition argF (bx ex : Z) : bool := let b := prodB bx in let e := prodE bx ex in
    oneF (b + b + b + b + b) d2rB (s5E b e) d2rE && plusF b b e e && plusF (b + b) b (s2E b e) e && plusF (b + b + b) b (s3E b e) e && plusF (b + b + b + b) b (s4E b e) e.
  Hypothesis HA : argF bx ex = true.
  Definition nargB : Z -> Z := fun bx => mulB (prodB bx + prodB bx + prodB bx + prodB bx + prodB bx) d2rB.
  Definition nargE (bx ex : Z) : Z := oneE (prodB bx + prodB bx + prodB bx + prodB bx + prodB bx) d2rB (s5E (prodB bx) (prodE bx ex)) d2rE.
  Definition r_arg (y : Z * Z * Z * Z * Z) : R :=
    let '(y0, y1, y2, y3, y4) := y in (IZR y0 * x0 + IZR y1 * x1 + IZR y2 * x2 + IZR y3 * x3 + IZR y4 * x4) * (PI / 180).
  Lemma ap_narg y : small_y y = true -> apb (nut_arg (O := O64) y X0 X1 X2 X3 X4) (r_arg y) (nargB bx) (nargE bx ex).
  Proof.
    destruct y as [[[[y0 y1] y2] y3] y4]. cbn [small_y forallb]. rewrite !andb_true_iff. intros (Y0 & Y1 & Y2 & Y3 & Y4 & _).
    unfold argF in HA. cbv beta zeta in HA. rewrite !andb_true_iff in HA. destruct HA as ((((A1 & A2) & A3) & A4) & A5).
    unfold nut_arg, r_arg, nargB, nargE. apply (ap_one D HD); [|apply (ap_DEG2RAD D HD)|exact A1].
    unfold s5E. apply (ap_plus D HD); [|now apply ap_yx|exact A5]. unfold s4E. apply (ap_plus D HD); [|now apply ap_yx|exact A4].
    unfold s3E. apply (ap_plus D HD); [|now apply ap_yx|exact A3]. unfold s2E. apply (ap_plus D HD); [|now apply ap_yx|exact A2]. now apply ap_yx.
  Qed.

  (** Amplitudes (a + b j), and terms (a + b j) g(arg) / 36000000. *)
  Definition ampB (bj : Z) (c : Q * Q) : Z := (qbnd (fst c) + mulB (qbnd (snd c)) bj)%Z.
  Definition ampE (bj ej : Z) (c : Q * Q) : Z := plusE (qbnd (fst c)) (mulB (qbnd (snd c)) bj) (qerr (fst c)) (oneE (qbnd (snd c)) bj (qerr (snd c)) ej).
  Definition nutB (bj : Z) (c : Q * Q) : Z := divB (mulB (ampB bj c) S90) (qlow 36000000).
  Definition nutE (bx ex bj ej : Z) (c : Q * Q) : Z :=
    let p := oneE (ampB bj c) S90 (ampE bj ej c) (nargE bx ex + 2 ^ 40) in
    let b := mulB (ampB bj c) S90 in
    (divE b (qlow 36000000) p (qerr 36000000) + rdE (divB b (qlow 36000000) + divE b (qlow 36000000) p (qerr 36000000)))%Z.
  Definition nutF (bx ex bj ej : Z) (c : Q * Q) : bool :=
    let p := oneE (ampB bj c) S90 (ampE bj ej c) (nargE bx ex + 2 ^ 40) in
    let b := mulB (ampB bj c) S90 in
    oneF (qbnd (snd c)) bj (qerr (snd c)) ej && plusF (qbnd (fst c)) (mulB (qbnd (snd c)) bj) (qerr (fst c)) (oneE (qbnd (snd c)) bj (qerr (snd c)) ej)
    && oneF (ampB bj c) S90 (ampE bj ej c) (nargE bx ex + 2 ^ 40) && fits64 (divB b (qlow 36000000)) (divE b (qlow 36000000) p (qerr 36000000)).
  Variables (f : Q * Q * Q * Q -> Q * Q) (g : R -> R) (G : ext -> ext).
  Hypothesis HG : forall x a b e, apb x a b e -> apb (G x) (g a) S90 (e + 2 ^ 40).
  Lemma ap_nut (t : list (Q * Q * Q * Q * (Z * Z * Z * Z * Z))) : (length t <=? 128)%nat = true -> forallb (fun c => small_y (snd c)) t = true ->
    forallb (fun c => nutF bx ex bj ej (f (fst c))) t = true ->
    fits64 (Zsum (map (fun c => nutB bj (f (fst c))) t)) (sumE (Zsum (map (fun c => nutB bj (f (fst c))) t)) (Zsum (map (fun c => nutE bx ex bj ej (f (fst c))) t))) = true ->
    apb (fsum (Ops := O64) (map (fun '(c, y) => div (Ops := O64) (mul (Ops := O64) (add (Ops := O64) (lit (Ops := O64) (fst (f c))) (mul (Ops := O64) (lit (Ops := O64) (snd (f c))) J)) (G (nut_arg (O := O64) y X0 X1 X2 X3 X4))) (lit (Ops := O64) 36000000)) t))
      (Rsum (map (fun '(c, y) => (Q2R (fst (f c)) + Q2R (snd (f c)) * j) * g (r_arg y) / #36000000) t))
      (Zsum (map (fun c => nutB bj (f (fst c))) t)) (sumE (Zsum (map (fun c => nutB bj (f (fst c))) t)) (Zsum (map (fun c => nutE bx ex bj ej (f (fst c))) t))).
  Proof.
    intros Hl Hy HF HS. apply (ap_sum D HD); [|rewrite map_length; exact Hl|exact HS]. clear Hl HS. induction t as [|[c y] t IH]; [constructor|].
    cbn [map Zsum fold_right forallb fst snd] in *. apply andb_true_iff in Hy. destruct Hy as [Hy Ht]. apply andb_true_iff in HF. destruct HF as [HF HF'].
    unfold nutF in HF. cbv beta zeta in HF. rewrite !andb_true_iff in HF. destruct HF as (((F1 & F2) & F3) & F4). constructor; [|exact (IH Ht HF')].
    unfold nutB, nutE. cbv beta zeta. apply (ap_divq D HD); [|vm_compute; reflexivity|exact F4].
    apply (ap_one D HD); [|eapply HG; apply ap_narg; exact Hy|exact F3]. unfold ampB, ampE. apply (ap_plus D HD); [apply (ap_lit D HD)| |exact F2]. apply (ap_one D HD); [apply (ap_lit D HD)|exact HJ|exact F1].
  Qed.
End Nutation.

(** ** The time part without the reductions to one turn *)
Definition w_L (s : R) : R := (180 / PI) * nj_Lrad (n_jme s) / #1e8.
Definition w_lam (s : R) : R := (w_L s + #180.0 + n_dpsi s + n_dtau s) * (PI / 180).
Definition w_ra (s : R) : R := Ratan2 (sin (w_lam s) * cos (n_eps s) - tan (n_beta s) * sin (n_eps s)) (cos (w_lam s)).
Definition w_sind (s : R) : R := sin (n_beta s) * cos (n_eps s) + cos (n_beta s) * sin (n_eps s) * sin (w_lam s).
Definition w_delta (s : R) : R := asin (w_sind s).
Definition w_v (s : R) : R := #280.46061837 + #360.98564736629 * (n_jd s - #2451545) + #0.000387933 * n_jc s ^ 2 - n_jc s ^ 3 / #38710000
  + n_dpsi s * cos (n_eps s).
Definition w_eot (s : R) : R := n_eot Rfloor_mod s.

Section Md.
  Variable md : R -> R -> R.
  Hypothesis Hmd : mod_spec md.
  Variable s : R.
  Lemma n_lam_w : exists k : Z, n_lam md s = w_lam s - IZR k * (2 * PI).
  Proof.
    unfold n_lam, n_theta. destruct (Hmd (n_L md s + #180.0) #360) as (k1 & -> & _); [q2r|]. unfold n_L. fold (w_L s).
    destruct (Hmd (w_L s) #360) as (k2 & -> & _); [q2r|]. exists (k1 + k2)%Z. unfold w_lam. rewrite plus_IZR. replace (#360) with 360 by q2r. field.
  Qed.
  Lemma n_ra0_w : n_ra0 md s = w_ra s.
  Proof. destruct n_lam_w as (k & H). unfold n_ra0, w_ra. now rewrite H, sin_turn, cos_turn. Qed.
  Lemma n_delta_w : n_delta md s = w_delta s.
  Proof. destruct n_lam_w as (k & H). unfold n_delta, n_sind, w_delta, w_sind. now rewrite H, sin_turn. Qed.
  Lemma n_alpha_w : exists k : Z, n_alpha md s = w_ra s * (180 / PI) - 360 * IZR k.
  Proof. unfold n_alpha. rewrite n_ra0_w. destruct (Hmd (w_ra s * (180 / PI)) #360) as (k & -> & _); [q2r|]. exists k. replace (#360) with 360 by q2r. ring. Qed.
  Lemma n_v_w : exists k : Z, n_v md s = w_v s - 360 * IZR k.
  Proof.
    unfold n_v, n_v0, w_v. match goal with |- context [md ?a ?b] => destruct (Hmd a b) as (k & -> & _); [q2r|] end. exists k. replace (#360.0) with 360 by q2r. ring.
  Qed.
End Md.
Lemma n_eot_w md s : mod_spec md -> in_ns_range s -> n_eot md s = w_eot s.
Proof.
  intros Hmd Hs. unfold w_eot. destruct (n_eot_thm md Hmd s Hs) as [B (k & E)]. destruct (n_eot_thm Rfloor_mod floor_mod_mod_spec s Hs) as [B' (k' & E')].
  destruct (n_alpha_w md Hmd s) as (j & J). destruct (n_alpha_w Rfloor_mod floor_mod_mod_spec s) as (j' & J'). rewrite J in E. rewrite J' in E'. apply Rabs_le_inv in B, B'.
  assert (X : n_eot md s - n_eot Rfloor_mod s = 1440 * IZR (j - j' + k - k')) by (rewrite E, E', minus_IZR, plus_IZR, minus_IZR; ring).
  assert (Z0 : (j - j' + k - k' = 0)%Z).
  { assert (-1 < IZR (j - j' + k - k') < 1) by lra. assert (-1 < j - j' + k - k' < 1)%Z by (split; apply lt_IZR; lra). lia. }
  rewrite Z0 in X. lra.
Qed.

(** ** The time part *)
Record nr_close (s : R) (t : nrel_time (F := ext)) : Prop := {
  nc_delta : near (nr_delta t) (w_delta s) tol9;
  nc_alpha : exists k : Z, near_b (nr_alpha t) (w_ra s * (180 / PI) + 360 * IZR k) (100 * tol9) 361;
  nc_v     : exists k : Z, near_b (nr_v t) (w_v s + 360 * IZR k) (300 * tol9) 361;
  nc_eot   : near (nr_eot t) (w_eot s) (400 * tol9);
  nc_R     : near_b (nr_R t) (n_R s) (tol9 / 500) 1.03 }.
Ltac nl D HD v tac :=
  lazymatch goal with
  | |- ?P (let x := ?body in @?rest x) =>
      let H := fresh "Hb" in
      eassert (H : apb body v _ _) by tac; norm_in H;
      lazymatch type of H with apb _ _ ?b ?e => refine (let_ap P body v b e rest H _); clear H; let y := fresh "y" in let Hy := fresh "Hy" in intros y Hy; cbv beta end
  end.
Ltac bnd H L := let X := fresh in assert (X := ap_bnd _ _ _ _ _ H L); clear H; rename X into H.
Definition jB0 : Z := Eval vm_compute in (qbnd 0.3223).
Definition jE0 : Z := 3010200395265%Z.
Definition jcB0 : Z := Eval vm_compute in (qbnd 3.223).
Definition jcE0 : Z := 29659038205586%Z.
Section Time.
  Variable D : Env64.
  Hypothesis HD : double_like D.
  Notation O64 := (DoubleOps D).
  (** A difference whose value is known to be small. *)
  Lemma ap_sub_b x y a c b1 b2 e1 e2 b : apb x a b1 e1 -> apb y c b2 e2 -> Rabs (a - c) <= Rz b -> fits64 b (e1 + e2) = true -> apb (sub (Ops := O64) x y) (a - c) b (e1 + e2 + rdE (b + (e1 + e2))).
  Proof.
    intros (v & -> & H1 & H2) (w & -> & H3 & H4) Hb Hf. cbn [sub DoubleOps]. rewrite fin_sub. apply (ap_rd D HD); [|exact Hb|exact Hf]. rewrite Rz_plus.
    replace (v - w - (a - c)) with ((v - a) + - (w - c)) by ring. eapply Rle_trans; [apply Rabs_triang|]. rewrite Rabs_Ropp. lra.
  Qed.
  (** The tangent of a small angle. *)
  Lemma ap_tan_s x d e : apb x d (qbnd 6e-6) e -> Rz e <= 1 / 100000000 -> apb (ftan (Ops := O64) x) (tan d) (qbnd 1e-5) (2 * e + 2 ^ 41).
  Proof.
    intros H He. assert (H' : apb x d (qbnd 0.42) e) by (eapply ap_le; [exact H|vm_compute; reflexivity|apply Z.leb_refl]).
    apply (ap_bnd _ _ _ _ _ (ap_tan D HD x d e H' He)). destruct H as (_ & _ & _ & H).
    assert (Q : Rz (qbnd 6e-6) <= 0.0000061) by (unfold Rz, u90, S90; let z := eval vm_compute in (qbnd 6e-6) in change (qbnd 6e-6) with z; lra).
    assert (Q' : 0.0000099 <= Rz (qbnd 1e-5)) by (unfold Rz, u90, S90; let z := eval vm_compute in (qbnd 1e-5) in change (qbnd 1e-5) with z; lra).
    assert (B : -0.0000061 <= d <= 0.0000061) by (apply Rabs_le_inv in H; lra). eapply Rle_trans; [|exact Q']. unfold tan. apply Rabs_le. split; interval.
  Qed.
  Variable s : R.
  Hypothesis Hs : in_ns_range s.

  Lemma n_jce_low : Rabs (n_jce s) <= Rz (qbnd 3.223).
  Proof.
    assert (H := n_jce_b s Hs). eapply Rle_trans; [|exact (Q2R_abs_up 3.223)]. replace (Q2R 3.223) with 3.223 by q2r.
    rewrite (Rabs_pos_eq 3.223) by lra. apply Rabs_le. lra.
  Qed.
  Lemma n_jme_low : Rabs (n_jme s) <= Rz (qbnd 0.3223).
  Proof.
    assert (H := n_jme_b s Hs). eapply Rle_trans; [|exact (Q2R_abs_up 0.3223)]. replace (Q2R 0.3223) with 0.3223 by q2r.
    rewrite (Rabs_pos_eq 0.3223) by lra. apply Rabs_le. lra.
  Qed.
  Lemma n_jd_low : Rabs (n_jd s - #2451545) <= Rz (qbnd 120000).
  Proof.
    eapply Rle_trans; [|exact (Q2R_abs_up 120000)]. replace (Q2R 120000) with 120000 by q2r. rewrite (Rabs_pos_eq 120000) by lra.
    unfold n_jd, in_ns_range in *. q2. apply Rabs_le. lra.
  Qed.
  Lemma n_jde_low : Rabs (n_jde s - #2451545) <= Rz (qbnd 120000).
  Proof.
    eapply Rle_trans; [|exact (Q2R_abs_up 120000)]. replace (Q2R 120000) with 120000 by q2r. rewrite (Rabs_pos_eq 120000) by lra.
    unfold n_jde, n_jd, in_ns_range in *. q2. apply Rabs_le. lra.
  Qed.

  Lemma n_den_low : Rz (qlow 3500) <= Rabs (#3600.0 * n_R s).
  Proof.
    assert (H := n_R_b s Hs). assert (Q := Q2R_low 3500 eq_refl). replace (#3500) with 3500 in Q by q2r. replace (#3600.0) with 3600 by q2r. rewrite Rabs_pos_eq by lra. lra.
  Qed.
  Lemma n_R2_low : Rz (qlow 0.96) <= Rabs (n_R s ^ 2).
  Proof.
    assert (H := n_R_b s Hs). assert (Q := Q2R_low 0.96 eq_refl). replace (#0.96) with 0.96 in Q by q2r. rewrite Rabs_pos_eq by nra. nra.
  Qed.
  Lemma n_R_up : Rabs (n_R s) <= Rz (qbnd 1.02).
  Proof. assert (H := n_R_b s Hs). eapply Rle_trans; [|exact (Q2R_abs_up 1.02)]. replace (#1.02) with 1.02 by q2r. rewrite !Rabs_pos_eq by lra. lra. Qed.
  Lemma n_beta_up : Rabs (n_beta s) <= Rz (qbnd 6e-6).
  Proof. assert (H := n_beta_b s Hs). eapply Rle_trans; [|exact (Q2R_abs_up 6e-6)]. replace (#6e-6) with 6e-6 by q2r. rewrite (Rabs_pos_eq 6e-6) by lra. lra. Qed.
  Lemma n_eps_up : Rabs (n_eps s) <= Rz (qbnd 0.41).
  Proof. assert (H := n_eps_b s Hs). eapply Rle_trans; [|exact (Q2R_abs_up 0.41)]. replace (#0.41) with 0.41 by q2r. rewrite !Rabs_pos_eq by lra. lra. Qed.
  Lemma w_ra_norm :
    1 / 2 <= (sin (w_lam s) * cos (n_eps s) - tan (n_beta s) * sin (n_eps s)) * (sin (w_lam s) * cos (n_eps s) - tan (n_beta s) * sin (n_eps s)) + cos (w_lam s) * cos (w_lam s).
  Proof.
    assert (Hep : 0.917 <= cos (n_eps s)) by (pose proof (n_eps_b s Hs); generalize dependent (n_eps s); intros x Hx; interval).
    assert (Hp : Rabs (tan (n_beta s) * sin (n_eps s)) <= 3e-6).
    { pose proof (n_eps_b s Hs) as He. pose proof (n_beta_b s Hs) as Hb. apply Rabs_le_inv in Hb.
      generalize dependent (n_eps s). generalize dependent (n_beta s). intros b Hb e _ He. unfold tan. q2. interval. }
    assert (S := sc1 (w_lam s)). pose proof (SIN_bound (w_lam s)). pose proof (COS_bound (n_eps s)). apply Rabs_le_inv in Hp.
    generalize dependent (tan (n_beta s) * sin (n_eps s)). intros p Hp. set (c := cos (n_eps s)) in *. set (sl := sin (w_lam s)) in *. set (cl := cos (w_lam s)) in *.
    replace 3e-6 with (3 / 1000000) in Hp by q2r.
    replace ((sl * c - p) * (sl * c - p) + cl * cl) with (1 - (1 - c * c) * (sl * sl) - 2 * p * (sl * c) + p * p) by nra.
    assert (0.84 <= c * c) by nra. assert (0 <= sl * sl <= 1) by nra. assert (-1 <= sl * c <= 1) by (split; nra).
    assert (-0.00001 <= 2 * p * (sl * c) <= 0.00001) by (split; nra). nra.
  Qed.

  Lemma n_jc_low : Rabs (n_jc s) <= Rz (qbnd 3.223).
  Proof.
    eapply Rle_trans; [|exact (Q2R_abs_up 3.223)]. replace (Q2R 3.223) with 3.223 by q2r. rewrite (Rabs_pos_eq 3.223) by lra.
    unfold n_jc, n_jd, in_ns_range in *. q2. apply Rabs_le. lra.
  Qed.

  Ltac ser t j J HJ := let H := fresh "HS" in
    assert (H := ap_series D HD t J j _ _ HJ eq_refl ltac:(vm_compute; reflexivity) ltac:(vm_compute; reflexivity)); norm_in H; let y := fresh "S" in generalize dependent (series (O := O64) t J); intros y H.
  Ltac whole H := lazymatch goal with |- apb ?x _ _ _ => eassert (H : apb x _ _ _) by (apn D HD) end; norm_in H.
  Ltac fits H := eapply ap_le; [exact H|vm_compute; reflexivity|vm_compute; reflexivity].
  Section Pieces.
  Variables (J JC : ext).
  Hypothesis HJ : apb J (n_jme s) jB0 jE0.
  Hypothesis HC : apb JC (n_jce s) jcB0 jcE0.
  Lemma ap_radius : apb (nrel_radius (O := O64) J) (n_R s) (qbnd 1.02) (qbnd 1e-12).
  Proof.
    apply (ap_bnd _ _ (qbnd 1.03)); [|exact n_R_up].
    unfold n_R, nj_R. revert HJ. generalize (n_jme s). intros j Hj. unfold nrel_radius. cbv zeta.
    fold T_R0 T_R1 T_R2 T_R3 T_R4. ser T_R0 j J Hj. ser T_R1 j J Hj. ser T_R2 j J Hj. ser T_R3 j J Hj. ser T_R4 j J Hj.
    whole H. fits H.
  Qed.
  Lemma ap_L : exists k : Z, apb (nrel_L (O := O64) J) (w_L s - IZR k * #360) (qbnd 361) (qbnd 2e-8).
  Proof.
    unfold w_L, nj_Lrad. revert HJ. generalize (n_jme s). intros j Hj. unfold nrel_L. cbv zeta.
    fold T_L0 T_L1 T_L2 T_L3 T_L4 T_L5. ser T_L0 j J Hj. ser T_L1 j J Hj. ser T_L2 j J Hj. ser T_L3 j J Hj. ser T_L4 j J Hj. ser T_L5 j J Hj.
    lazymatch goal with |- exists _, apb (nemod ?a ?b) _ _ _ => edestruct (ap_nemod D a b) as (k & Hk); [apn D HD|apply (ap_lit D HD)|apply (Q2R_low 360 eq_refl)|vm_compute; reflexivity|] end.
    norm_in Hk. exists k. fits Hk.
  Qed.
  Lemma ap_B : apb (nrel_B (O := O64) J) (n_B s) (qbnd 4e-4) (qbnd 1e-12).
  Proof.
    unfold n_B, nj_B. revert HJ. generalize (n_jme s). intros j Hj. unfold nrel_B. cbv zeta.
    fold T_B0 T_B1. ser T_B0 j J Hj. ser T_B1 j J Hj. whole H. fits H.
  Qed.
  Lemma ap_eps0 : apb (nrel_epsilon0 (O := O64) J) (n_eps0 s) (qbnd 86000) (qbnd 1e-9).
  Proof.
    unfold n_eps0. revert HJ. generalize (n_jme s). intros j Hj. unfold nrel_epsilon0.
    eassert (H : apb (div (Ops := O64) J (lit (Ops := O64) 10.0)) (j / #10.0) _ _) by (apn D HD). norm_in H.
    cbv zeta. generalize dependent (div (Ops := O64) J (lit (Ops := O64) 10.0)). generalize (j / #10.0). intros u U HU. whole H. fits H.
  Qed.
  Lemma ap_m : apb (nrel_m (O := O64) J) (n_m s) (qbnd 117000) (qbnd 3e-9).
  Proof. unfold n_m. revert HJ. generalize (n_jme s). intros j Hj. unfold nrel_m. whole H. fits H. Qed.
  Definition xB0 : Z := Eval vm_compute in (qbnd 1600000).
  Definition xE0 : Z := Eval vm_compute in (qbnd 2e-8).
  Lemma ap_x0 : apb (nrel_x0 (O := O64) JC) (n_x0 s) xB0 xE0. Proof. unfold n_x0, nrel_x0. whole H. fits H. Qed.
  Lemma ap_x1 : apb (nrel_x1 (O := O64) JC) (n_x1 s) xB0 xE0. Proof. unfold n_x1, nrel_x1. whole H. fits H. Qed.
  Lemma ap_x2 : apb (nrel_x2 (O := O64) JC) (n_x2 s) xB0 xE0. Proof. unfold n_x2, nrel_x2. whole H. fits H. Qed.
  Lemma ap_x3 : apb (nrel_x3 (O := O64) JC) (n_x3 s) xB0 xE0. Proof. unfold n_x3, nrel_x3. whole H. fits H. Qed.
  Lemma ap_x4 : apb (nrel_x4 (O := O64) JC) (n_x4 s) xB0 xE0. Proof. unfold n_x4, nrel_x4. whole H. fits H. Qed.
  Lemma ap_dpsi : apb (nrel_delta_psi (O := O64) JC J) (n_dpsi s) (qbnd 6e-3) (qbnd 1e-10).
  Proof.
    assert (H := ap_nut D HD _ _ _ _ _ _ _ _ _ _ _ _ _ _ _ _ ap_x0 ap_x1 ap_x2 ap_x3 ap_x4 HJ ltac:(vm_compute; reflexivity) ltac:(vm_compute; reflexivity) (fun '(A, B, C, D) => (A, B)) sin (fsin (Ops := O64)) (ap_sin D HD) ABCDY eq_refl eq_refl ltac:(vm_compute; reflexivity) ltac:(vm_compute; reflexivity)).
    norm_in H.
    lazymatch type of H with apb _ ?a ?b ?e => refine (ap_le _ _ b e _ _ (ap_eq _ a _ _ _ _ _) _ _); [| |vm_compute; reflexivity|vm_compute; reflexivity] end.
    - unfold nrel_delta_psi. fold ABCDY. revert H. generalize ABCDY. intros l H. erewrite map_ext; [exact H|]. intros [[[[A B] C] D'] y]. reflexivity.
    - unfold n_dpsi. generalize ABCDY. intros l. apply (f_equal (fold_right Rplus 0)). apply map_ext. intros [[[[A B] C] D'] [[[[y0 y1] y2] y3] y4]]. reflexivity.
  Qed.
  Lemma ap_deps : apb (nrel_delta_eps (O := O64) JC J) (n_deps s) (qbnd 4e-3) (qbnd 1e-10).
  Proof.
    assert (H := ap_nut D HD _ _ _ _ _ _ _ _ _ _ _ _ _ _ _ _ ap_x0 ap_x1 ap_x2 ap_x3 ap_x4 HJ ltac:(vm_compute; reflexivity) ltac:(vm_compute; reflexivity) (fun '(A, B, C, D) => (C, D)) cos (fcos (Ops := O64)) (ap_cos D HD) ABCDY eq_refl eq_refl ltac:(vm_compute; reflexivity) ltac:(vm_compute; reflexivity)).
    norm_in H.
    lazymatch type of H with apb _ ?a ?b ?e => refine (ap_le _ _ b e _ _ (ap_eq _ a _ _ _ _ _) _ _); [| |vm_compute; reflexivity|vm_compute; reflexivity] end.
    - unfold nrel_delta_eps. fold ABCDY. revert H. generalize ABCDY. intros l H. erewrite map_ext; [exact H|]. intros [[[[A B] C] D'] y]. reflexivity.
    - unfold n_deps. generalize ABCDY. intros l. apply (f_equal (fold_right Rplus 0)). apply map_ext. intros [[[[A B] C] D'] [[[[y0 y1] y2] y3] y4]]. reflexivity.
  Qed.
  End Pieces.
  Lemma w_sind_up : Rabs (w_sind s) <= Rz (qbnd 0.41).
  Proof.
    eapply Rle_trans; [|exact (Q2R_abs_up 0.41)]. replace (#0.41) with 0.41 by q2r. rewrite (Rabs_pos_eq 0.41) by lra. unfold w_sind.
    pose proof (n_eps_b s Hs) as He. pose proof (n_beta_b s Hs) as Hb. apply Rabs_le_inv in Hb. pose proof (SIN_bound (w_lam s)) as Hl.
    generalize dependent (n_eps s). generalize dependent (n_beta s). generalize dependent (sin (w_lam s)). intros l Hl b Hb e He. q2. apply Rabs_le. split; interval.
  Qed.
  Lemma w_eot_b : Rabs (w_eot s) <= 18.2.
  Proof. destruct (n_eot_thm Rfloor_mod floor_mod_mod_spec s Hs) as [B _]. unfold w_eot. lra. Qed.
  Lemma w_eot_ref (kr j : Z) : exists n : Z,
    (n_m s - #0.0057183 - (w_ra s * (180 / PI) + 360 * IZR kr) + n_dpsi s * cos (n_eps s) - IZR j * #360) * #4 = w_eot s + 1440 * IZR n.
  Proof.
    destruct (n_eot_thm Rfloor_mod floor_mod_mod_spec s Hs) as [_ (k & E)]. fold (w_eot s) in E. destruct (n_alpha_w Rfloor_mod floor_mod_mod_spec s) as (i & A). rewrite A in E.
    exists (- (k + i + kr + j))%Z. rewrite E, opp_IZR, !plus_IZR. replace (#0.0057183) with 0.0057183 by q2r. replace (#360) with 360 by q2r. replace (#4) with 4 by q2r. ring.
  Qed.
  Ltac lastb L := lazymatch goal with Hy : apb ?y ?v _ _ |- _ (let x := _ in _) => let T := type of L in lazymatch T with Rabs v <= _ => bnd Hy L; norm_in Hy end end.

  (** One step of the chain; the value is found by computation and then named. *)
  Ltac nlq v :=
    lazymatch goal with
    | |- ?P (let x := ?body in @?rest x) =>
        let H := fresh "Hb" in
        eassert (H : apb body _ _ _) by (apn D HD); norm_in H;
        lazymatch type of H with apb _ ?a ?b ?e => refine (let_ap P body v b e rest (ap_eq _ a v b e H _) _); [reflexivity|]; clear H; let y := fresh "y" in let Hy := fresh "Hy" in intros y Hy; cbv beta end
    end.

  Lemma ne_nrel_time_D S0 : apb S0 s bS 0 -> nr_close s (ne_nrel_time (O := O64) S0).
  Proof.
    intros H0. cbv beta delta [ne_nrel_time].
    nl D HD (n_jd s) ltac:(unfold nrel_jd; apn D HD).
    nl D HD (n_jde s) ltac:(unfold nrel_jde, DELTA_T; apn D HD).
    lazymatch goal with Hy : apb ?JD (n_jd s) _ _ |- _ => assert (Hd := ap_sub_b _ _ _ _ _ _ _ _ _ Hy (ap_lit D HD 2451545) n_jd_low ltac:(vm_compute; reflexivity)) end. norm_in Hd.
    lazymatch goal with Hy : apb ?JDE (n_jde s) _ _ |- _ => assert (Hde := ap_sub_b _ _ _ _ _ _ _ _ _ Hy (ap_lit D HD 2451545) n_jde_low ltac:(vm_compute; reflexivity)) end. norm_in Hde.
    nl D HD (n_jc s) ltac:(unfold nrel_jc; eapply (ap_divq D HD); [exact Hd|vm_compute; reflexivity|vm_compute; reflexivity]).
    lastb n_jc_low.
    nl D HD (n_jce s) ltac:(unfold nrel_jce; eapply (ap_divq D HD); [exact Hde|vm_compute; reflexivity|vm_compute; reflexivity]).
    lastb n_jce_low.
    nl D HD (n_jme s) ltac:(unfold nrel_jme; apn D HD).
    lastb n_jme_low.
    assert (Hj := Hy3). assert (Hc := Hy2).
    change 398988074661678062599987738%Z with jB0 in Hj. change 3010200395265%Z with jE0 in Hj.
    change 3989880746616780625999877374%Z with jcB0 in Hc. change 29659038205586%Z with jcE0 in Hc.
    assert (HR := ap_radius y3 Hj). destruct (ap_L y3 Hj) as (kL & HL). assert (HB := ap_B y3 Hj). assert (Hps := ap_dpsi y3 y2 Hj Hc). assert (Hde' := ap_deps y3 y2 Hj Hc).
    assert (He0 := ap_eps0 y3 Hj). assert (Hm := ap_m y3 Hj). norm_in HR. norm_in HL. norm_in HB. norm_in Hps. norm_in Hde'. norm_in He0. norm_in Hm. clear Hj Hc.
    generalize dependent (nrel_radius (O := O64) y3). intros RR HR. dskip.
    generalize dependent (nrel_L (O := O64) y3). intros LL HL. dskip.
    generalize dependent (nrel_B (O := O64) y3). intros BB HB. dskip.
    lazymatch goal with |- _ (let x := nemod ?a ?b in _) => edestruct (ap_nemod D a b) as (kt & Ht); [apn D HD|apply (ap_lit D HD)|apply (Q2R_low 360 eq_refl)|vm_compute; reflexivity|] end.
    norm_in Ht. lazymatch type of Ht with apb ?x _ _ _ => generalize dependent x; intros TH Ht; dskip end.
    eassert (X : apb (mul (Ops := O64) (neg (Ops := O64) (DEG2RAD (O := O64))) BB) (n_beta s) _ _) by (eapply (ap_mul D HD); [apn D HD|apn D HD|vm_compute; reflexivity]). norm_in X. lazymatch type of X with apb ?x _ _ _ => generalize dependent x; intros BE X; dskip end. bnd X n_beta_up. norm_in X.
    generalize dependent (nrel_delta_psi (O := O64) y2 y3). intros PS Hps. dskip.
    generalize dependent (nrel_delta_eps (O := O64) y2 y3). intros DE Hde'. dskip.
    generalize dependent (nrel_epsilon0 (O := O64) y3). intros E0 He0. dskip.
    nlq (n_eps s). lastb n_eps_up.
    assert (DL := n_den_low).
    nlq (n_dtau s).
    eassert (Hl : apb (mul (Ops := O64) (add (Ops := O64) (add (Ops := O64) TH PS) y5) (DEG2RAD (O := O64))) _ _ _) by (apn D HD). norm_in Hl.
    eapply ap_eq in Hl; [|instantiate (1 := w_lam s - IZR (kL + kt) * (2 * PI)); unfold w_lam; rewrite plus_IZR; q2; field].
    generalize dependent (kL + kt)%Z. intros kl Hl. lazymatch type of Hl with apb ?x _ _ _ => generalize dependent x; intros LA Hl; dskip end.
    (* sidereal time *)
    lazymatch type of Hd with apb ?x _ _ _ => generalize dependent x; intros DJ Hd end.
    lazymatch goal with |- _ (let x := nemod ?a ?b in _) => edestruct (ap_nemod D a b) as (kv & Hv); [apn D HD|apply (ap_lit D HD)|apply (Q2R_low 360.0 eq_refl)|vm_compute; reflexivity|] end.
    norm_in Hv. lazymatch type of Hv with apb ?x _ _ _ => generalize dependent x; intros V0 Hv; dskip end.
    eassert (Hv1 : apb (add (Ops := O64) V0 (mul (Ops := O64) PS (fcos (Ops := O64) y4))) _ _ _) by (apn D HD). norm_in Hv1.
    eapply ap_eq in Hv1; [|instantiate (1 := w_v s + 360 * IZR (- kv)); unfold w_v; rewrite opp_IZR; replace (#360.0) with 360 by q2r; ring].
    lazymatch type of Hv1 with apb ?x _ _ _ => generalize dependent x; intros VV Hv1; dskip end. clear Hv V0.
    (* right ascension *)
    assert (Sl : apb (fsin (Ops := O64) LA) (sin (w_lam s)) _ _) by (eapply ap_eq; [apply (ap_sin D HD _ _ _ _ Hl)|apply sin_turn]).
    assert (Cl : apb (fcos (Ops := O64) LA) (cos (w_lam s)) _ _) by (eapply ap_eq; [apply (ap_cos D HD _ _ _ _ Hl)|apply cos_turn]).
    norm_in Sl. norm_in Cl.
    lazymatch type of Sl with apb ?x _ _ _ => generalize dependent x; intros SL Sl end.
    lazymatch type of Cl with apb ?x _ _ _ => generalize dependent x; intros CL Cl end.
    assert (Tb := ap_tan_s _ _ _ X ltac:(unfold Rz, u90, S90; lra)). norm_in Tb.
    lazymatch type of Tb with apb ?x _ _ _ => generalize dependent x; intros TB Tb end.
    lazymatch goal with |- _ (let x := nemod (mul (fatan2 ?a ?b) _) _ in _) => edestruct (ap_atan2 D HD a b) as (k1 & Hk1); [apn D HD|apn D HD|exact w_ra_norm|vm_compute; reflexivity|] end.
    fold (w_ra s) in Hk1. norm_in Hk1. lazymatch type of Hk1 with apb ?x _ _ _ => generalize dependent x; intros A1 Hk1 end.
    lazymatch goal with |- _ (let x := nemod ?a ?b in _) => edestruct (ap_nemod D a b) as (k2 & Hk2); [apn D HD|apply (ap_lit D HD)|apply (Q2R_low 360 eq_refl)|vm_compute; reflexivity|] end.
    norm_in Hk2. eapply ap_eq in Hk2; [|instantiate (1 := w_ra s * (180 / PI) + 360 * IZR (k1 - k2)); rewrite minus_IZR; q2; field; apply PI_neq0].
    lazymatch type of Hk2 with apb ?x _ _ _ => generalize dependent x; intros AL Hk2; dskip end.
    generalize dependent (k1 - k2)%Z. intros kr Hkr.
    (* declination *)
    lazymatch goal with |- _ (let x := fasin ?a in _) => eassert (Hdl : apb a (w_sind s) _ _) by (eapply ap_eq; [apn D HD|reflexivity]) end. norm_in Hdl.
    bnd Hdl w_sind_up. apply (ap_asin D HD) in Hdl; [|vm_compute; reflexivity]. norm_in Hdl. fold (w_delta s) in Hdl.
    lazymatch type of Hdl with apb ?x _ _ _ => generalize dependent x; intros A3 Hdl; dskip end.
    (* equation of time *)
    lazymatch type of Hm with apb ?x _ _ _ => generalize dependent x; intros MM Hm; dskip end.
    lazymatch goal with |- _ (let x := mul (nemod ?a ?b) _ in _) => edestruct (ap_nemod D a b) as (j & Hj); [apn D HD|apply (ap_lit D HD)|apply (Q2R_low 360 eq_refl)|vm_compute; reflexivity|] end.
    norm_in Hj. lazymatch type of Hj with apb ?x _ _ _ => generalize dependent x; intros A4 Hj end.
    lazymatch goal with |- _ (let x := ?body in _) => eassert (He : apb body _ _ _) by (apn D HD) end. norm_in He.
    destruct (w_eot_ref kr j) as (n & Hn). rewrite Hn in He. clear Hn Hj.
    lazymatch type of He with apb ?x _ _ _ => generalize dependent x; intros A5 He; dskip end. dskip. dskip.
    assert (Hw := ap_wrap_lt_first D HD A5 (w_eot s) n _ _ 1440 He w_eot_b ltac:(vm_compute; reflexivity) ltac:(vm_compute; reflexivity) (or_intror eq_refl)).
    cbv zeta in Hw. norm_in Hw. lazymatch type of Hw with apb ?x _ _ _ => generalize dependent x; intros A6 Hw end.
    constructor; cbn [nr_delta nr_alpha nr_v nr_eot nr_R].
    - eapply apb_near; [exact Hdl|tol].
    - exists kr. eapply apb_near_b; [exact Hkr|tol|tol].
    - exists (- kv)%Z. eapply apb_near_b; [exact Hv1|tol|tol].
    - eapply apb_near; [exact Hw|tol].
    - eapply apb_near_b; [exact HR|tol|tol].
  Qed.
End Time.
