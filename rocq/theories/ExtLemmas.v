(** * ExtLemmas: computing with [ext] *)

From Coq Require Import ZArith QArith Reals Bool List Lra Lia.
From Flocq Require Import Core.Raux Core.Generic_fmt Core.Round_NE.
From Verif Require Import Num Ext.
Import ListNotations.
Open Scope R_scope.

(** Real value of a source literal. *)
Notation "# q" := (Q2R q%Q) (at level 0, q constr at level 0, format "# q") : R_scope.
(** Literals as fractions of integers. *)
Ltac q2 :=
  repeat match goal with
  | |- context [Q2R ?q] =>
      let n := eval vm_compute in (Qnum q) in let d := eval vm_compute in (Qden q) in
      change (Q2R q) with (IZR n / IZR (Z.pos d))
  | H : context [Q2R ?q] |- _ =>
      let n := eval vm_compute in (Qnum q) in let d := eval vm_compute in (Qden q) in
      change (Q2R q) with (IZR n / IZR (Z.pos d)) in H
  end.
Ltac q2r := q2; try lra.

Lemma fin_div a b : b <> 0 -> e_div (Fin a) (Fin b) = Fin (a / b).
Proof. intros H. unfold e_div. destruct (Req_EM_T b 0); [contradiction|reflexivity]. Qed.
Lemma fin_mod f a b : 0 < b -> e_mod f (Fin a) (Fin b) = Fin (f a b).
Proof. intros H. unfold e_mod. destruct (Rlt_dec 0 b); [reflexivity|contradiction]. Qed.
Lemma fin_unit f a : -1 <= a <= 1 -> e_unit f (Fin a) = Fin (f a).
Proof. intros [H1 H2]. unfold e_unit. destruct (Rle_dec (-1) a); [|contradiction]. destruct (Rle_dec a 1); [reflexivity|contradiction]. Qed.
Lemma fin_unit_out f a : a < -1 \/ 1 < a -> e_unit f (Fin a) = NaN.
Proof. intros H. unfold e_unit. destruct (Rle_dec (-1) a); [|reflexivity]. destruct (Rle_dec a 1); [lra|reflexivity]. Qed.
Lemma fin_tan a : cos a <> 0 -> e_tan (Fin a) = Fin (tan a).
Proof. intros H. unfold e_tan. destruct (Req_EM_T (cos a) 0); [contradiction|reflexivity]. Qed.
Lemma fin_sqrt a : 0 <= a -> e_sqrt (Fin a) = Fin (sqrt a).
Proof. intros H. unfold e_sqrt. destruct (Rle_dec 0 a); [reflexivity|contradiction]. Qed.
Lemma where_fin c a b : where_ c (Fin a) (Fin b) = Fin (where_ c a b).
Proof. now destruct c. Qed.
Lemma fin_powi a n : e_powi (Fin a) n = Fin (a ^ n).
Proof. now destruct n. Qed.

Lemma Rltb_true a b : a < b -> Rltb a b = true.
Proof. unfold Rltb. destruct (Rlt_dec a b); [reflexivity|contradiction]. Qed.
Lemma Rltb_false a b : b <= a -> Rltb a b = false.
Proof. unfold Rltb. destruct (Rlt_dec a b); [lra|reflexivity]. Qed.
Lemma Rleb_true a b : a <= b -> Rleb a b = true.
Proof. unfold Rleb. destruct (Rle_dec a b); [reflexivity|contradiction]. Qed.
Lemma Rleb_false a b : b < a -> Rleb a b = false.
Proof. unfold Rleb. destruct (Rle_dec a b); [lra|reflexivity]. Qed.
Lemma Rltb_spec a b : BoolSpec (a < b) (b <= a) (Rltb a b).
Proof. unfold Rltb. destruct (Rlt_dec a b); constructor; lra. Qed.
Lemma Rleb_spec a b : BoolSpec (a <= b) (b < a) (Rleb a b).
Proof. unfold Rleb. destruct (Rle_dec a b); constructor; lra. Qed.

(** NaN propagation *)
Lemma nan_add_l x : e_add NaN x = NaN. Proof. reflexivity. Qed.
Lemma nan_add_r x : e_add x NaN = NaN. Proof. now destruct x. Qed.
Lemma nan_sub_l x : e_sub NaN x = NaN. Proof. reflexivity. Qed.
Lemma nan_sub_r x : e_sub x NaN = NaN. Proof. now destruct x. Qed.
Lemma nan_mul_l x : e_mul NaN x = NaN. Proof. reflexivity. Qed.
Lemma nan_mul_r x : e_mul x NaN = NaN.
Proof. destruct x; try reflexivity. cbn. destruct (Rlt_dec 0 r); [reflexivity|]. now destruct (Rlt_dec r 0). Qed.
Lemma nan_div_l x : e_div NaN x = NaN. Proof. reflexivity. Qed.
Lemma nan_div_r x : e_div x NaN = NaN. Proof. now destruct x. Qed.
Lemma nan_atan2_l x : e_atan2 NaN x = NaN. Proof. reflexivity. Qed.
Lemma nan_atan2_r x : e_atan2 x NaN = NaN. Proof. now destruct x. Qed.
Lemma nan_lt_r x : e_lt x NaN = false. Proof. now destruct x. Qed.
Lemma nan_le_r x : e_le x NaN = false. Proof. now destruct x. Qed.
Lemma nan_mod_l f x : e_mod f NaN x = NaN. Proof. reflexivity. Qed.
Global Hint Rewrite nan_add_l nan_add_r nan_sub_l nan_sub_r nan_mul_l nan_mul_r nan_div_l nan_div_r
  nan_atan2_l nan_atan2_r nan_lt_r nan_le_r nan_mod_l : nan.

(** Expose the operations of the instance. *)
Ltac ext_ops :=
  cbn [ExtOps lit ofZ fpi fnan add sub mul div neg fabs powi powf nemod npmod ftrunc fsin fcos ftan
       fasin facos fatan fatan2 fsqrt fexp fln degrees radians round6 cast32 sin32 cos32 radians32
       nesin32 necos32 fsum flt fle fisnan fmaximum toZ] in *.
Lemma fin_mul a b : e_mul (Fin a) (Fin b) = Fin (a * b). Proof. reflexivity. Qed.
Lemma fin_add a b : e_add (Fin a) (Fin b) = Fin (a + b). Proof. reflexivity. Qed.
Lemma fin_sub a b : e_sub (Fin a) (Fin b) = Fin (a - b). Proof. reflexivity. Qed.
Lemma fin_neg a : e_neg (Fin a) = Fin (- a). Proof. reflexivity. Qed.
Lemma fin_abs a : e_abs (Fin a) = Fin (Rabs a). Proof. reflexivity. Qed.
Lemma fin_fun f a : e_fun f (Fin a) = Fin (f a). Proof. reflexivity. Qed.
Lemma fin_lt a b : e_lt (Fin a) (Fin b) = Rltb a b. Proof. reflexivity. Qed.
Lemma fin_le a b : e_le (Fin a) (Fin b) = Rleb a b. Proof. reflexivity. Qed.
Lemma fin_atan2 a b : e_atan2 (Fin a) (Fin b) = Fin (Ratan2 a b). Proof. reflexivity. Qed.
Lemma fin_atan a : e_atan (Fin a) = Fin (atan a). Proof. reflexivity. Qed.
Global Hint Rewrite fin_mul fin_add fin_sub fin_neg fin_abs fin_fun fin_lt fin_le fin_atan2 fin_atan
  where_fin fin_powi : fin.
Ltac fin := autorewrite with fin.

(** Side conditions: non-zero divisors, positive moduli. *)
Create HintDb nz.
Ltac nz := first [ solve [q2r] | solve [pose proof PI_RGT_0; q2r] | solve [auto with nz] ].
Lemma PI_neq : PI <> 0. Proof. pose proof PI_RGT_0. lra. Qed.
Global Hint Resolve PI_neq PI_RGT_0 : nz.
Ltac fstep :=
  match goal with
  | |- context [e_div (Fin ?a) (Fin ?b)] => rewrite (fin_div a b) by nz
  | |- context [e_mod ?f (Fin ?a) (Fin ?b)] => rewrite (fin_mod f a b) by nz
  | |- context [e_unit ?f (Fin ?a)] => rewrite (fin_unit f a) by nz
  | |- context [e_sqrt (Fin ?a)] => rewrite (fin_sqrt a) by nz
  | |- context [e_tan (Fin ?a)] => rewrite (fin_tan a) by nz
  end.
Ltac fin_all := fin; repeat (fstep; fin).

(** One [let] of a function body: replace its value by the finite value [r]. *)
Lemma let_fin {A} (e : ext) (r : R) (b : ext -> A) (rhs : A) :
  e = Fin r -> b (Fin r) = rhs -> (let x := e in b x) = rhs.
Proof. now intros -> H. Qed.
Ltac let_with r tac :=
  match goal with
  | |- (let x := ?e in @?b x) = ?rhs =>
      refine (let_fin e r b rhs _ _); [ext_ops; tac | cbv beta]
  end.
Ltac head_of t := match t with ?f _ => head_of f | _ => t end.
Ltac unfold_head r := let h := head_of r in unfold h.
Tactic Notation "step" uconstr(r) :=
  let r' := constr:(r : R) in
  lazymatch goal with
  | |- (let x := ?e in @?b x) = ?rhs =>
      refine (let_fin e r b rhs _ _); [ext_ops; unfold_head r'; fin_all; try reflexivity | cbv beta]
  end.
(** ... leaving the value to be proved. *)
Tactic Notation "stepg" uconstr(r) :=
  lazymatch goal with
  | |- (let x := ?e in @?b x) = ?rhs =>
      refine (let_fin e r b rhs _ _); [ext_ops; fin | cbv beta]
  end.
