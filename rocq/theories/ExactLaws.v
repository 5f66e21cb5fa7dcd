(** * ExactLaws: laws of exact arithmetic behind numexpr's variants *)

From Coq Require Import ZArith QArith Reals List Bool Lra.
From Verif Require Import Num Ext ExtLemmas Core GenericLemmas GenericLemmas2.
Open Scope R_scope.

Lemma ideal_lon15 (E : Env) (lo : ext) : ideal E -> lon15_law (O := ExtOps E) lo.
Proof.
  intros H. unfold lon15_law, div32. cbn -[Q2R].
  destruct (e_div (e_fun (rnd E) lo) (Fin (Q2R 15.0))) as [| | |r] eqn:X; cbn; rewrite ?H; try reflexivity;
    exfalso; revert X; destruct lo; cbn -[Q2R]; try discriminate; destruct (Req_EM_T _ _); discriminate.
Qed.
