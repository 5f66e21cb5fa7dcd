(** * Ext: exact real arithmetic with IEEE's special values, an instance of [Ops]

    [Fin r] is a real number; NaN and the two infinities behave as in IEEE-754 wherever the
    code can meet them.  Deliberate simplifications (never reached on the paths the value
    theorems talk about, since those theorems prove the results are [Fin]): there is one zero,
    and a division by zero is NaN instead of an infinity of unknown sign.

    Two things are parameters, so the theorems hold for each choice: rounding to
    float32 and numexpr's [%] (only that it returns x - k*y with an integer k and a result
    smaller than y in magnitude is assumed: true of C's fmod and of the floored modulo). *)

From Coq Require Import ZArith QArith Reals Bool List Lra.
From Flocq Require Import Core.Raux Core.Generic_fmt Core.Round_NE.
From Verif Require Import Num.
Open Scope R_scope.

Record Env := {
  rnd : R -> R;                 (* real -> float32 *)
  nem : R -> R -> R;            (* numexpr x % y *)
  nem_spec : forall x y, 0 < y -> exists k : Z, nem x y = x - IZR k * y /\ Rabs (nem x y) < y
}.

Inductive ext := NaN | PInf | NInf | Fin (r : R).

Definition Rltb (x y : R) : bool := if Rlt_dec x y then true else false.
Definition Rleb (x y : R) : bool := if Rle_dec x y then true else false.
Definition Reqb (x y : R) : bool := if Req_EM_T x y then true else false.

Definition e_neg (x : ext) : ext :=
  match x with NaN => NaN | PInf => NInf | NInf => PInf | Fin r => Fin (- r) end.
Definition e_add (x y : ext) : ext :=
  match x, y with
  | NaN, _ | _, NaN => NaN
  | PInf, NInf | NInf, PInf => NaN
  | PInf, _ | _, PInf => PInf
  | NInf, _ | _, NInf => NInf
  | Fin a, Fin b => Fin (a + b)
  end.
Definition e_sub (x y : ext) : ext :=
  match x, y with
  | Fin a, Fin b => Fin (a - b)
  | _, _ => e_add x (e_neg y)
  end.
(** sign of a product with an infinity *)
Definition e_sgn (x : ext) : option bool :=
  match x with
  | NaN => None | PInf => Some true | NInf => Some false
  | Fin r => if Rlt_dec 0 r then Some true else if Rlt_dec r 0 then Some false else None
  end.
Definition e_inf (p : bool) : ext := if p then PInf else NInf.
Definition e_mul (x y : ext) : ext :=
  match x, y with
  | Fin a, Fin b => Fin (a * b)
  | _, _ => match e_sgn x, e_sgn y with
            | Some a, Some b => e_inf (Bool.eqb a b)
            | _, _ => NaN
            end
  end.
Definition e_div (x y : ext) : ext :=
  match x, y with
  | Fin a, Fin b => if Req_EM_T b 0 then NaN else Fin (a / b)
  | Fin _, (PInf | NInf) => Fin 0
  | (PInf | NInf), Fin b => match e_sgn x, e_sgn y with
            | Some a, Some b => e_inf (Bool.eqb a b)
            | _, _ => NaN
            end
  | _, _ => NaN
  end.
Definition e_fun (f : R -> R) (x : ext) : ext := match x with Fin r => Fin (f r) | _ => NaN end.
Definition e_abs (x : ext) : ext :=
  match x with NaN => NaN | PInf | NInf => PInf | Fin r => Fin (Rabs r) end.
Fixpoint e_powi (x : ext) (n : nat) : ext :=
  match x, n with
  | Fin r, _ => Fin (r ^ n)
  | _, 0%nat => Fin 1
  | _, S n' => e_mul x (e_powi x n')
  end.
Definition e_powf (x y : ext) : ext :=
  match x, y with
  | Fin a, Fin b => if Rlt_dec 0 a then Fin (Rpower a b)
                    else if Req_EM_T a 0 then (if Rlt_dec 0 b then Fin 0 else NaN) else NaN
  | _, _ => NaN
  end.
Definition e_tan (x : ext) : ext :=
  match x with
  | Fin r => if Req_EM_T (cos r) 0 then (if Rlt_dec 0 (sin r) then PInf else NInf) else Fin (tan r)
  | _ => NaN
  end.
Definition e_unit (f : R -> R) (x : ext) : ext :=
  match x with
  | Fin r => if Rle_dec (-1) r then if Rle_dec r 1 then Fin (f r) else NaN else NaN
  | _ => NaN
  end.
Definition e_atan (x : ext) : ext :=
  match x with NaN => NaN | PInf => Fin (PI / 2) | NInf => Fin (- (PI / 2)) | Fin r => Fin (atan r) end.
(** IEEE atan2 on finite arguments (one zero). *)
Definition Ratan2 (y x : R) : R :=
  if Rlt_dec 0 x then atan (y / x)
  else if Rlt_dec x 0 then (if Rle_dec 0 y then atan (y / x) + PI else atan (y / x) - PI)
  else if Rlt_dec 0 y then PI / 2 else if Rlt_dec y 0 then - (PI / 2) else 0.
Definition e_atan2 (y x : ext) : ext :=
  match y, x with
  | Fin a, Fin b => Fin (Ratan2 a b)
  | _, _ => NaN      (* infinite arguments do not occur: NaN here *)
  end.
Definition e_sqrt (x : ext) : ext :=
  match x with
  | Fin r => if Rle_dec 0 r then Fin (sqrt r) else NaN
  | PInf => PInf
  | _ => NaN
  end.
Definition e_exp (x : ext) : ext :=
  match x with NaN => NaN | PInf => PInf | NInf => Fin 0 | Fin r => Fin (exp r) end.
Definition e_ln (x : ext) : ext :=
  match x with
  | Fin r => if Rlt_dec 0 r then Fin (ln r) else NaN
  | PInf => PInf
  | _ => NaN
  end.
Definition e_lt (x y : ext) : bool :=
  match x, y with
  | NaN, _ | _, NaN => false
  | Fin a, Fin b => Rltb a b
  | NInf, NInf => false | NInf, _ => true
  | PInf, _ => false
  | Fin _, PInf => true | Fin _, NInf => false
  end.
Definition e_le (x y : ext) : bool :=
  match x, y with
  | NaN, _ | _, NaN => false
  | Fin a, Fin b => Rleb a b
  | NInf, _ => true
  | _, PInf => true
  | PInf, _ => false
  | Fin _, NInf => false
  end.
Definition e_isnan (x : ext) : bool := match x with NaN => true | _ => false end.
Definition e_max (x y : ext) : ext :=
  match x, y with
  | NaN, _ | _, NaN => NaN
  | Fin a, Fin b => Fin (Rmax a b)
  | PInf, _ | _, PInf => PInf
  | NInf, z | z, NInf => z
  end.

(** floored modulo (Python/NumPy), for a positive modulus. *)
Definition Rfloor_mod (x y : R) : R := x - IZR (Zfloor (x / y)) * y.
(** np.round(x, 6): rint(x * 1e6) / 1e6, ties to even. *)
Definition Rround6 (x : R) : R := IZR (ZnearestE (x * 1000000)) / 1000000.

Definition e_mod (f : R -> R -> R) (x y : ext) : ext :=
  match x, y with
  | Fin a, Fin b => if Rlt_dec 0 b then Fin (f a b) else NaN     (* only positive moduli occur *)
  | _, _ => NaN
  end.
Definition e_toZ (x : ext) : option Z := match x with Fin r => Some (Ztrunc r) | _ => None end.

#[export] Instance ExtOps (E : Env) : Ops ext := {
  lit q := Fin (Q2R q);
  ofZ z := Fin (IZR z);
  fpi := Fin PI;
  fnan := NaN;
  add := e_add; sub := e_sub; mul := e_mul; div := e_div; neg := e_neg;
  fabs := e_abs;
  powi := e_powi; powf := e_powf;
  nemod := e_mod (nem E);
  npmod := e_mod Rfloor_mod;
  ftrunc := e_fun (fun r => IZR (Ztrunc r));
  fsin := e_fun sin; fcos := e_fun cos; ftan := e_tan;
  fasin := e_unit asin; facos := e_unit acos; fatan := e_atan; fatan2 := e_atan2;
  fsqrt := e_sqrt; fexp := e_exp; fln := e_ln;
  degrees := e_fun (fun r => r * (180 / PI));
  radians := e_fun (fun r => r * (PI / 180));
  round6 := e_fun Rround6;
  cast32 := e_fun (rnd E);
  sin32 := e_fun (fun r => rnd E (sin r));
  cos32 := e_fun (fun r => rnd E (cos r));
  radians32 := e_fun (fun r => rnd E (r * (PI / 180)));
  nesin32 := e_fun (fun r => rnd E (sin r));
  necos32 := e_fun (fun r => rnd E (cos r));
  fsum := fold_right e_add (Fin 0);
  flt := e_lt; fle := e_le; fisnan := e_isnan; fmaximum := e_max;
  toZ := e_toZ
}.

(** The floored modulo meets the assumption on [%], so the class of environments is inhabited. *)
Lemma floor_mod_spec x y : 0 < y -> exists k : Z, Rfloor_mod x y = x - IZR k * y /\ 0 <= Rfloor_mod x y < y.
Proof.
  intros Hy. exists (Zfloor (x / y)). split; [reflexivity|]. unfold Rfloor_mod.
  assert (H1 := Zfloor_lb (x / y)). assert (H2 := Zfloor_ub (x / y)).
  assert (E : x = x / y * y) by (field; lra).
  split.
  - assert (IZR (Zfloor (x / y)) * y <= x / y * y) by (apply Rmult_le_compat_r; lra). lra.
  - assert (x / y * y < (IZR (Zfloor (x / y)) + 1) * y) by (apply Rmult_lt_compat_r; lra). lra.
Qed.

(** C's fmod: the result takes the sign of [x]. *)
Definition Rfmod (x y : R) : R := x - IZR (Ztrunc (x / y)) * y.
Lemma fmod_spec x y : 0 < y -> exists k : Z, Rfmod x y = x - IZR k * y /\ Rabs (Rfmod x y) < y.
Proof.
  intros Hy. exists (Ztrunc (x / y)). split; [reflexivity|]. unfold Rfmod.
  assert (E : x = x / y * y) by (field; lra).
  destruct (Rle_or_lt 0 (x / y)) as [Hp|Hn].
  - rewrite Ztrunc_floor by exact Hp.
    assert (H1 := Zfloor_lb (x / y)). assert (H2 := Zfloor_ub (x / y)).
    assert (IZR (Zfloor (x / y)) * y <= x / y * y) by (apply Rmult_le_compat_r; lra).
    assert (x / y * y < (IZR (Zfloor (x / y)) + 1) * y) by (apply Rmult_lt_compat_r; lra).
    apply Rabs_def1; lra.
  - rewrite Ztrunc_ceil by lra.
    assert (H1 := Zceil_ub (x / y)). assert (H2 := Zceil_lb (x / y)).
    assert (x / y * y <= IZR (Zceil (x / y)) * y) by (apply Rmult_le_compat_r; lra).
    assert ((IZR (Zceil (x / y)) - 1) * y < x / y * y) by (apply Rmult_lt_compat_r; lra).
    apply Rabs_def1; lra.
Qed.

(** Exact float32 (no rounding) with C's fmod: the reference environment. *)
Definition ideal_env : Env := {| rnd := fun x => x; nem := Rfmod; nem_spec := fmod_spec |}.
Definition ideal (E : Env) : Prop := forall x, rnd E x = x.
