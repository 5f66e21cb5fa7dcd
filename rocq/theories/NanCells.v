(** * NanCells: NaN coordinates give NaN positions *)

From Coq Require Import ZArith QArith Reals Bool List String Lra.
From Verif Require Import Num Arrays Libspa Time Core Usecases Spec GenericLemmas Ext ExtLemmas Psa Soltrack Iqbal Nrel.
Import ListNotations.

Lemma nan_fun f : e_fun f NaN = NaN. Proof. reflexivity. Qed.
Lemma nan_unit f : e_unit f NaN = NaN. Proof. reflexivity. Qed.
Lemma nan_tan : e_tan NaN = NaN. Proof. reflexivity. Qed.
Lemma nan_atan : e_atan NaN = NaN. Proof. reflexivity. Qed.
Lemma nan_sqrt : e_sqrt NaN = NaN. Proof. reflexivity. Qed.
Lemma nan_neg : e_neg NaN = NaN. Proof. reflexivity. Qed.
Lemma nan_lt_l x : e_lt NaN x = false. Proof. reflexivity. Qed.
Lemma nan_le_l x : e_le NaN x = false. Proof. reflexivity. Qed.
Lemma where_false (x y : ext) : where_ false x y = y. Proof. reflexivity. Qed.
Lemma nan_if (b : bool) : (if b then NaN else NaN) = NaN. Proof. now destruct b. Qed.
Global Hint Rewrite nan_fun nan_unit nan_tan nan_atan nan_sqrt nan_neg nan_lt_l nan_le_l where_false nan_if : nan.

Ltac nan_solve :=
  split; ext_ops; repeat autorewrite with nan; reflexivity.

Lemma nan_cells E alg eng m : In (alg, eng, m) (supported (O := ExtOps E)) ->
  forall uc r tm x, lib_cell m uc r tm NaN x = (NaN, NaN) /\ lib_cell m uc r tm x NaN = (NaN, NaN).
Proof.
  intros Hin uc r tm x. cbn [supported In] in Hin.
  destruct Hin as [H|[H|[H|[H|[H|[H|[H|[]]]]]]]]; injection H as _ _ <-;
  destruct uc; cbn [lib_cell lib_1d lib_2d lib_3d py_psa ne_psa py_soltrack ne_soltrack py_iqbal ne_iqbal ne_nrel].
  Ltac go f := cbv beta zeta delta [f]; unfold mul32, sub32, div32, sqrt32; nan_solve.
  - go @py_psa_2d.
  - go @py_psa_3d.
  - go @py_psa_1d.
  - go @ne_psa_2d.
  - go @ne_psa_3d.
  - go @ne_psa_1d.
  - go @py_soltrack_2d.
  - go @py_soltrack_3d.
  - go @py_soltrack_1d.
  - go @ne_soltrack_2d.
  - go @ne_soltrack_3d.
  - go @ne_soltrack_1d.
  - go @py_iqbal_2d.
  - go @py_iqbal_3d.
  - go @py_iqbal_1d.
  - go @ne_iqbal_2d.
  - go @ne_iqbal_3d.
  - go @ne_iqbal_1d.
  - go @ne_nrel_2d.
  - go @ne_nrel_3d.
  - go @ne_nrel_1d.
Qed.
