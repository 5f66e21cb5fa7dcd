(** * Double: IEEE double precision, an instance of [Ops]

    [Ext.v] computes float64 exactly.  Here every float64 operation rounds: the result is [r64] of the exact one, and the
    functions of the C library / NumPy / NumExpr are arbitrary functions that are only assumed accurate ([double_like]).
    float32 operations round as in [Ext.v]; float32 sin, cos and radians are arbitrary accurate functions too.

    A result of 2^1024 or more in magnitude overflows to an infinity ([fin64]).

    Simplifications: one zero; division by zero is NaN; no overflow of float32 (coordinates are at most 180 in magnitude), of literals and of
    integers (below 2^64), nor of sin, cos, tan, asin, acos, atan and log. *)

From Coq Require Import ZArith QArith Reals Bool List Lra.
From Flocq Require Import Core.Raux Core.Generic_fmt Core.Round_NE.
From Verif Require Import Num Ext SingleSpec.
Open Scope R_scope.

Record Env64 := {
  single   : Env;               (* float32 rounding and numexpr's % (fmod: exact in floating point) *)
  r64      : R -> R;            (* real -> float64 *)
  sin64    : R -> R;
  cos64    : R -> R;
  tan64    : R -> R;
  asin64   : R -> R;
  acos64   : R -> R;
  atan64   : R -> R;
  atan264  : R -> R -> R;
  exp64    : R -> R;
  ln64     : R -> R;
  pow64    : R -> nat -> R;     (* x**n, n a literal *)
  powf64   : R -> R -> R;
  sum64    : list R -> R;       (* np.sum along an axis *)
  sinf     : R -> R;            (* float32 sin and cos, NumPy *)
  cosf     : R -> R;
  nesinf   : R -> R;            (* float32 sin and cos, NumExpr *)
  necosf   : R -> R;
  radf     : R -> R             (* float32 np.radians *)
}.

(** A rounded result: beyond the largest finite double it is an infinity. *)
Definition fin64 (v : R) : ext := if Rlt_dec (Rabs v) (2 ^ 1024) then Fin v else if Rlt_dec 0 v then PInf else NInf.
(** Rounding of a finite result. *)
Definition e_rd (D : Env64) (x : ext) : ext := match x with Fin r => fin64 (r64 D r) | y => y end.

(** Python's % on floats: C's fmod (exact), then one addition if the sign is wrong. *)
Definition pymod64 (D : Env64) (x y : R) : R :=
  let m := Rfmod x y in if Rlt_dec m 0 then r64 D (m + y) else m.
(** np.round(x, 6): x * 1e6, rint, / 1e6. *)
Definition e_round64 (D : Env64) (x : ext) : ext :=
  match e_rd D (e_mul x (Fin 1000000)) with Fin s => e_rd D (Fin (IZR (ZnearestE s) / 1000000)) | y => y end.

Fixpoint fin_list (l : list ext) : option (list R) :=
  match l with
  | nil => Some nil
  | Fin r :: l => match fin_list l with Some rs => Some (r :: rs) | None => None end
  | _ => None
  end%list.
Definition e_sum64 (D : Env64) (l : list ext) : ext :=
  match fin_list l with Some rs => fin64 (sum64 D rs) | None => fold_right e_add (Fin 0) l end.
Definition e_pow64 (D : Env64) (x : ext) (n : nat) : ext :=
  match x with Fin r => fin64 (pow64 D r n) | _ => e_powi x n end.

Definition DoubleOps (D : Env64) : Ops ext := {|
  lit q := Fin (r64 D (Q2R q));
  ofZ z := Fin (r64 D (IZR z));
  fpi := Fin (r64 D PI);
  fnan := NaN;
  add x y := e_rd D (e_add x y); sub x y := e_rd D (e_sub x y);
  mul x y := e_rd D (e_mul x y); div x y := e_rd D (e_div x y);
  neg := e_neg; fabs := e_abs;
  powi := e_pow64 D;
  powf x y := match x, y with Fin a, Fin b => if Rlt_dec 0 a then fin64 (powf64 D a b) else e_powf x y | _, _ => e_powf x y end;
  nemod := e_mod (nem (single D));
  npmod := e_mod (pymod64 D);
  ftrunc := e_fun (fun r => IZR (Ztrunc r));
  fsin := e_fun (sin64 D); fcos := e_fun (cos64 D); ftan := e_fun (tan64 D);
  fasin := e_unit (asin64 D); facos := e_unit (acos64 D);
  fatan x := match x with Fin r => Fin (atan64 D r) | _ => e_rd D (e_atan x) end;
  fatan2 y x := match y, x with Fin a, Fin b => Fin (atan264 D a b) | _, _ => NaN end;
  fsqrt x := e_rd D (e_sqrt x);
  fexp x := match x with Fin r => fin64 (exp64 D r) | _ => e_exp x end;
  fln x := match x with Fin r => if Rlt_dec 0 r then Fin (ln64 D r) else NaN | _ => e_ln x end;
  degrees x := e_rd D (e_mul x (Fin (r64 D (180 / r64 D PI))));
  radians x := e_rd D (e_mul x (Fin (r64 D (r64 D PI / 180))));
  round6 := e_round64 D;
  cast32 := e_fun (rnd (single D));
  sin32 := e_fun (sinf D);
  cos32 := e_fun (cosf D);
  radians32 := e_fun (radf D);
  nesin32 := e_fun (nesinf D);
  necos32 := e_fun (necosf D);
  fsum := e_sum64 D;
  flt := e_lt; fle := e_le; fisnan := e_isnan; fmaximum := e_max;
  toZ := e_toZ
|}.

(** ** What is assumed of the rounding and of the library functions

    2^-53 relative error of +, -, *, /, sqrt; 2^-50 for the library functions (about 8 units in the last place at 1); 2^-48 for
    powers; 2^-45 for sums of at most 128 terms (relative to the sum of the magnitudes); 2^-23 for float32 sin and cos and
    relative 2^-22 for float32 radians.  Met by IEEE-754 with correctly rounded functions: Float64.v. *)
Definition near_abs (f g : R -> R) (e : R) : Prop := forall x, Rabs (f x - g x) <= e.
Definition unit_valued (f : R -> R) : Prop := forall x, -1 <= f x <= 1.
Definition Rsum : list R -> R := fold_right Rplus 0.

Record double_like (D : Env64) : Prop := {
  dl_single : float32_like (single D);
  dl_err    : forall x, Rabs (r64 D x - x) <= Rabs x / 2 ^ 53 + / 2 ^ 1000;
  dl_mono   : forall x y, x <= y -> r64 D x <= r64 D y;
  dl_int    : forall n, (Z.abs n <= 2 ^ 53)%Z -> r64 D (IZR n) = IZR n;
  dl_idem   : forall x, r64 D (r64 D x) = r64 D x;
  dl_opp    : forall x, r64 D (- x) = - r64 D x;
  dl_pole   : r64 D (90 * r64 D (r64 D PI / 180)) < PI / 2;   (* 90 * DEG2RAD falls short of the pole *)
  dl_half   : r64 D (1 / 2) = 1 / 2 /\ r64 D (1 / 2 * r64 D PI) = 1 / 2 * r64 D PI;
  dl_sin    : near_abs (sin64 D) sin (/ 2 ^ 50) /\ unit_valued (sin64 D);
  dl_cos    : near_abs (cos64 D) cos (/ 2 ^ 50) /\ unit_valued (cos64 D);
  dl_tan    : forall x, cos x <> 0 -> Rabs (tan64 D x - tan x) <= Rabs (tan x) / 2 ^ 50 + / 2 ^ 1000;
  dl_tan_pole : forall x, cos x = 0 -> 2 ^ 40 <= Rabs (tan64 D x);   (* no float is such an x *)
  dl_asin   : forall x, -1 <= x <= 1 -> Rabs (asin64 D x - asin x) <= / 2 ^ 50 /\ Rabs (asin64 D x) <= 1 / 2 * r64 D PI;
  dl_acos   : forall x, -1 <= x <= 1 -> Rabs (acos64 D x - acos x) <= / 2 ^ 50 /\ 0 <= acos64 D x <= r64 D PI;
  dl_atan   : near_abs (atan64 D) atan (/ 2 ^ 50);
  dl_atan2  : forall y x, Rabs (atan264 D y x) <= r64 D PI /\
                exists k : Z, y <> 0 \/ x <> 0 -> Rabs (atan264 D y x - Ratan2 y x - 2 * PI * IZR k) <= / 2 ^ 50;
  dl_pow    : forall x n, Rabs (pow64 D x n - x ^ n) <= Rabs (x ^ n) / 2 ^ 48 + / 2 ^ 1000;
  dl_exp    : forall x, Rabs (exp64 D x - exp x) <= exp x / 2 ^ 50 + / 2 ^ 1000;
  dl_ln     : forall x, 0 < x -> Rabs (ln64 D x - ln x) <= Rabs (ln x) / 2 ^ 50 + / 2 ^ 1000;
  dl_powf   : forall x y, 0 < x -> Rabs (powf64 D x y - Rpower x y) <= Rpower x y / 2 ^ 48 + / 2 ^ 1000;
  dl_sum    : forall l, (length l <= 128)%nat -> Rabs (sum64 D l - Rsum l) <= Rsum (map Rabs l) / 2 ^ 45 + / 2 ^ 900;
  dl_sinf   : near_abs (sinf D) sin (/ 2 ^ 23) /\ unit_valued (sinf D);
  dl_cosf   : near_abs (cosf D) cos (/ 2 ^ 23) /\ unit_valued (cosf D);
  dl_nesinf : near_abs (nesinf D) sin (/ 2 ^ 23) /\ unit_valued (nesinf D);
  dl_necosf : near_abs (necosf D) cos (/ 2 ^ 23) /\ unit_valued (necosf D);
  dl_radf   : forall x, Rabs (radf D x - x * (PI / 180)) <= Rabs x * (PI / 180) / 2 ^ 22 + / 10 ^ 39
}.
