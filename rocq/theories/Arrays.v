(** * Arrays: the fragment of NumPy arrays the code uses *)

From Coq Require Import List Arith Bool.
From Verif Require Import Num.
Import ListNotations.

(** A NumPy array: a shape and the elements in row-major order. *)
Record ndarray (A : Type) := ND { shape : list nat; data : list A }.
Arguments ND {A} shape data.
Arguments shape {A} n.
Arguments data {A} n.

(** Number of elements of a shape. *)
Definition size (sh : list nat) : nat := fold_right Nat.mul 1 sh.

(** Row-major offset of a multi-index; None when out of bounds or of wrong length. *)
Fixpoint offset (sh idx : list nat) : option nat :=
  match sh, idx with
  | [], [] => Some 0
  | n :: sh', i :: idx' =>
      if i <? n then
        match offset sh' idx' with
        | Some o => Some (i * size sh' + o)
        | None => None
        end
      else None
  | _, _ => None
  end.

(** [a[idx]]. *)
Definition get {A} (a : ndarray A) (idx : list nat) : option A :=
  match offset (shape a) idx with
  | Some o => nth_error (data a) o
  | None => None
  end.

(** Function arguments declared "scalar or 1-dim array-like":
    [Multi n] is an array of n >= 2 dimensions. *)
Inductive arg (A : Type) := Scalar (a : A) | Vec (l : list A) | Multi (n : nat).
Arguments Scalar {A} a.
Arguments Vec {A} l.
Arguments Multi {A} n.

(** [np.array(x, ndmin=1)]: its number of dimensions and, when 1-dim, its elements. *)
Definition ndim_of {A} (x : arg A) : nat :=
  match x with Scalar _ => 1 | Vec _ => 1 | Multi n => n end.
Definition elems {A} (x : arg A) : list A :=
  match x with Scalar a => [a] | Vec l => l | Multi _ => [] end.

(** Boolean-mask selection [x[mask]]. *)
Fixpoint select {A} (mask : list bool) (x : list A) : list A :=
  match mask, x with
  | b :: mask', a :: x' => if b then a :: select mask' x' else select mask' x'
  | _, _ => []
  end.

(** [output[mask, ...] = values] on a fresh array filled with [fill] whose rows
    hold [row] elements each (row-major). *)
Fixpoint scatter {A} (fill : A) (row : nat) (mask : list bool) (values : list A) : list A :=
  match mask with
  | [] => []
  | true :: mask' => firstn row values ++ scatter fill row mask' (skipn row values)
  | false :: mask' => repeat fill row ++ scatter fill row mask' values
  end.

(** Broadcast evaluation of a cell function over a common time axis and one
    (resp. two) location axes. *)
Definition outer2 {A B C} (f : A -> B -> C) (xs : list A) (ys : list B) : list C :=
  flat_map (fun x => map (f x) ys) xs.
Definition outer3 {A B C D} (f : A -> B -> C -> D) (xs : list A) (ys : list B) (zs : list C) : list D :=
  flat_map (fun x => flat_map (fun y => map (f x y) zs) ys) xs.

(** [~np.isnat(t)]: an optional value is present (_core.py:137). *)
Definition isSome {A} (o : option A) : bool := match o with Some _ => true | None => false end.
