(** * RefrSpec: the documented refraction corrections (vocabulary of C73), as functions of the elevation in radians *)

From Coq Require Import Reals String.
Open Scope R_scope.

(** Saemundsson's formula, in radians, with cot written cos/sin: [c] cot(e + 0.0031376/(e + k)). *)
Definition saemundsson (c k e : R) : R := let x := e + 0.0031376 / (e + k) in c * (cos x / sin x).
(** Rigollier et al. (2000). *)
Definition rigollier (e : R) : R := 0.061359 * (0.1594 + 1.123 * e + 0.065656 * (e * e)) / (1 + 28.9344 * e + 277.3971 * (e * e)).
(** The correction each algorithm applies; nrel's is scaled to 1013.25 hPa and 12 degrees Celsius. *)
Definition correction (alg : string) (e : R) : R :=
  if String.eqb alg "psa" then saemundsson (0.017802 / 60) 0.089186 e
  else if String.eqb alg "nrel" then saemundsson (1013.25 / 1010 * (283 / (273 + 12)) * (0.017802 / 60)) 0.089186 e
  else if String.eqb alg "soltrack" then saemundsson 0.0002967 0.0892 e
  else rigollier e.
(** [z'] is the zenith angle [z] corrected for refraction.  psa and nrel correct down to 0.8334 degrees (0.014545 rad) below the
    horizon, the others everywhere. *)
Definition corrected (alg : string) (z z' : R) : Prop :=
  let e := PI / 2 - z in
  if (String.eqb alg "psa" || String.eqb alg "nrel")%bool
  then (-0.014545 - / 10 ^ 14 <= e /\ Rabs (z' - (z - correction alg e)) <= / 10 ^ 11) \/
       (e <= -0.014545 + / 10 ^ 14 /\ Rabs (z' - z) <= / 10 ^ 14)
  else Rabs (z' - (z - correction alg e)) <= / 10 ^ 11.
