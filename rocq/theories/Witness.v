(** * Witness: concrete calls that meet the hypotheses of the property theorems *)

From Coq Require Import ZArith QArith Reals List Bool Arith String Lia Lra.
From Verif Require Import Num Arrays Libspa Time Core Usecases Spec TimeLemmas GenericLemmas GenericLemmas2 Ext ExtLemmas.
Import ListNotations.
Open Scope nat_scope.
Open Scope list_scope.

(** Three times - one with a sub-second part, NaT, and one just before 1970 - and three places, among
    them a pole, a NaN latitude and both ends of the longitude range. *)
Definition w_times : list (option Z) := [Some 1718964000123456789%Z; None; Some (-1)%Z].
Definition w_lat : arg ext := Vec [Fin 40%R; Fin (-90)%R; NaN].
Definition w_lon : arg ext := Vec [Fin (-3)%R; Fin 179%R; Fin (-180)%R].

Lemma w_coords (E : Env) : coords_ok (O := ExtOps E) (elems w_lat) (elems w_lon).
Proof.
  split; intros x; cbn [w_lat w_lon elems In]; intros [<-|[<-|[<-|[]]]]; cbn -[Q2R Rleb Rltb];
    try (left; reflexivity); right; split;
    match goal with
    | |- context[Rleb ?a ?b] => destruct (Rleb_spec a b) as [H|H]
    | |- context[Rltb ?a ?b] => destruct (Rltb_spec a b) as [H|H]
    end; try reflexivity; exfalso; q2; lra.
Qed.

(** They are accepted by all use cases, algorithms, engines and refraction flags. *)
Lemma w_call uc alg eng m refr :
  In (alg, eng, m) (supported (F := ext) (O := ExtOps ideal_env)) ->
  exists sp, call (O := ExtOps ideal_env) true uc (at_times w_times) w_lat w_lon alg refr eng = Ok sp.
Proof.
  intros H. eapply accept_lemma; [reflexivity|exact H|left; reflexivity|left; reflexivity| |apply w_coords].
  destruct uc; cbn; auto.
Qed.
