(** * Num: the arithmetic interface of the model

    The numerical code of sunwhere is written against NumPy and NumExpr.  The
    model is written against the record [Ops F] below: one field per elementary
    operation the code uses, over an arbitrary carrier [F].  Theorems stated
    "for every [F] and every [Ops F]" therefore hold whatever the elementary
    operations return - in particular for IEEE-754 binary64 with any libm.
    Theorems about the values themselves use the instance of [Ext.v].

    Modelling assumption (trusted base): every elementwise NumPy/NumExpr
    operation is a function of its operands only (not of their position in
    the array). *)

From Coq Require Import ZArith QArith List String.
Import ListNotations.

Class Ops (F : Type) := {
  lit      : Q -> F;            (* a numeric literal of the source (correctly rounded) *)
  ofZ      : Z -> F;            (* int64 -> float64 conversion *)
  fpi      : F;                 (* np.pi *)
  fnan     : F;                 (* np.nan *)
  add      : F -> F -> F;       (* float64 + *)
  sub      : F -> F -> F;       (* float64 - *)
  mul      : F -> F -> F;       (* float64 * *)
  div      : F -> F -> F;       (* float64 / *)
  neg      : F -> F;            (* unary minus *)
  fabs     : F -> F;            (* np.abs *)
  powi     : F -> nat -> F;     (* x**n with a literal integer exponent n *)
  powf     : F -> F -> F;       (* x**y, float exponent *)
  nemod    : F -> F -> F;       (* the % operator inside a numexpr expression *)
  npmod    : F -> F -> F;       (* the % operator of NumPy / Python floats *)
  ftrunc   : F -> F;            (* np.int32(x), used again as a float *)
  fsin     : F -> F;
  fcos     : F -> F;
  ftan     : F -> F;
  fasin    : F -> F;
  facos    : F -> F;
  fatan    : F -> F;
  fatan2   : F -> F -> F;
  fsqrt    : F -> F;
  fexp     : F -> F;
  fln      : F -> F;
  degrees  : F -> F;            (* np.degrees on float64 *)
  radians  : F -> F;            (* np.radians on float64 *)
  round6   : F -> F;            (* np.round(x, 6) *)
  cast32   : F -> F;            (* rounding to float32 (result seen as a float64) *)
  sin32    : F -> F;            (* np.sin on a float32 array *)
  cos32    : F -> F;            (* np.cos on a float32 array *)
  radians32: F -> F;            (* np.radians on a float32 array *)
  nesin32  : F -> F;            (* sin(.) of a float32 operand inside numexpr *)
  necos32  : F -> F;            (* cos(.) of a float32 operand inside numexpr *)
  fsum     : list F -> F;       (* np.sum along one axis *)
  flt      : F -> F -> bool;    (* x < y  (false when an operand is NaN) *)
  fle      : F -> F -> bool;    (* x <= y (false when an operand is NaN) *)
  fisnan   : F -> bool;         (* np.isnan *)
  fmaximum : F -> F -> F;       (* np.maximum (propagates NaN) *)
  toZ      : F -> option Z      (* float64 -> int64 ticks of datetime64/timedelta64;
                                   None is NaT (the image of NaN) *)
}.

Declare Scope num_scope.
Delimit Scope num_scope with num.

Module NumNotations.
  Notation "$ q" := (lit q%Q) (at level 0, q constr at level 0, format "$ q") : num_scope.
  Infix "+" := add : num_scope.
  Infix "-" := sub : num_scope.
  Infix "*" := mul : num_scope.
  Infix "/" := div : num_scope.
  Notation "- x" := (neg x) : num_scope.
  Notation "x ** n" := (powi x n%nat) (at level 30, n constr at level 0) : num_scope.
  Notation "x <. y" := (flt x y) (at level 70, y at next level) : num_scope.
  Notation "x >. y" := (flt y x) (at level 70, y at next level) : num_scope.
  Notation "x <=. y" := (fle x y) (at level 70, y at next level) : num_scope.
  Notation "x >=. y" := (fle y x) (at level 70, y at next level) : num_scope.
End NumNotations.

(** [np.where(c, a, b)] / numexpr [where(c, a, b)], elementwise. *)
Definition where_ {F} (c : bool) (a b : F) : F := if c then a else b.

(** float32 arithmetic: the float64 result of two float32 operands rounded to
    float32 is the correctly rounded float32 result (53 >= 2*24+2, so the double
    rounding is innocuous); a Python float operand is first converted to float32
    (NEP 50, the project requires numpy>=2.4.4: pyproject.toml:20). *)
Definition mul32 {F} `{Ops F} (a b : F) : F := cast32 (mul a b).
Definition div32 {F} `{Ops F} (a b : F) : F := cast32 (div a b).
Definition sub32 {F} `{Ops F} (a b : F) : F := cast32 (sub a b).
Definition sqrt32 {F} `{Ops F} (a : F) : F := cast32 (fsqrt a).

(** Constants shared by the libspa modules (e.g. ne_psa.py:9-14). *)
Section Consts.
  Context {F : Type} {O : Ops F}.
  Import NumNotations. Open Scope num_scope.
  Definition PI_ : F := fpi.
  Definition TWOPI : F := $2.0 * PI_.
  Definition HALFPI : F := $0.5 * PI_.
  Definition DEG2RAD : F := radians ($1).
  Definition RAD2DEG : F := degrees ($1).
End Consts.

(** Exceptions as values. *)
Inductive exn :=
| ValueError | AssertionError | TypeError | AttributeError | KeyError
| UnboundLocalError | AmbiguousTimeError | NonExistentTimeError
| ZeroDivisionError | IndexError | SystemExit1.

Inductive res (A : Type) := Ok (a : A) | Raise (e : exn).
Arguments Ok {A} a.
Arguments Raise {A} e.

Definition rbind {A B} (x : res A) (f : A -> res B) : res B :=
  match x with Ok a => f a | Raise e => Raise e end.
Notation "'do' x <- e ; k" := (rbind e (fun x => k))
  (at level 200, x name, e at level 100, k at level 200, right associativity).
Notation "'do' ' p <- e ; k" := (rbind e (fun p => k))
  (at level 200, p strict pattern, e at level 100, k at level 200, right associativity).
(** [assert c] / [if not c: raise e]. *)
Definition guard (c : bool) (e : exn) : res unit := if c then Ok tt else Raise e.
