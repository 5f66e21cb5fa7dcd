(** * ArraysLemmas: facts about Arrays.v *)

From Coq Require Import List Arith Bool Lia.
From Verif Require Import Num Arrays.
Import ListNotations.

Lemma flat_map_const_length {A B} (g : A -> list B) n xs :
  (forall x, In x xs -> length (g x) = n) -> length (flat_map g xs) = length xs * n.
Proof.
  induction xs as [|x xs IH]; intros H; [reflexivity|]. cbn [flat_map length].
  rewrite app_length, IH, (H x); [lia| now left | intros; apply H; now right].
Qed.

Lemma nth_error_flat_map {A B} (g : A -> list B) n xs k j :
  (forall x, In x xs -> length (g x) = n) -> j < n ->
  nth_error (flat_map g xs) (k * n + j) =
  match nth_error xs k with Some x => nth_error (g x) j | None => None end.
Proof.
  revert k; induction xs as [|x xs IH]; intros k H Hj.
  - cbn. destruct k; cbn; [|]; apply nth_error_None; cbn; lia.
  - cbn [flat_map]. assert (Hx : length (g x) = n) by (apply H; now left).
    destruct k as [|k].
    + cbn [nth_error]. rewrite nth_error_app1 by lia. reflexivity.
    + cbn [nth_error]. rewrite nth_error_app2 by lia. rewrite Hx.
      replace (S k * n + j - n) with (k * n + j) by lia.
      apply IH; [intros; apply H; now right | exact Hj].
Qed.

Lemma get_1d {A} (l : list A) K k : k < K -> get (ND [K] l) [k] = nth_error l k.
Proof.
  intros H. unfold get. cbn [shape data offset]. destruct (Nat.ltb_spec k K); [|lia].
  change (size []) with 1. now replace (k * 1 + 0) with k by lia.
Qed.

Lemma get_2d {A} (l : list A) K J k j : k < K -> j < J ->
  get (ND [K; J] l) [k; j] = nth_error l (k * J + j).
Proof.
  intros Hk Hj. unfold get. cbn [shape data offset].
  destruct (Nat.ltb_spec k K); [|lia]. destruct (Nat.ltb_spec j J); [|lia].
  unfold size; cbn [fold_right]. f_equal. lia.
Qed.

Lemma get_3d {A} (l : list A) K J I k j i : k < K -> j < J -> i < I ->
  get (ND [K; J; I] l) [k; j; i] = nth_error l (k * (J * I) + (j * I + i)).
Proof.
  intros Hk Hj Hi. unfold get. cbn [shape data offset].
  destruct (Nat.ltb_spec k K); [|lia]. destruct (Nat.ltb_spec j J); [|lia].
  destruct (Nat.ltb_spec i I); [|lia]. unfold size; cbn [fold_right]. f_equal. nia.
Qed.

Lemma nth_error_repeat {A} (a : A) n j : j < n -> nth_error (repeat a n) j = Some a.
Proof. revert j; induction n; intros [|j] H; cbn; try lia; [reflexivity|apply IHn; lia]. Qed.

Lemma nth_error_combine {A B} (xs : list A) (ys : list B) k :
  nth_error (combine xs ys) k =
  match nth_error xs k, nth_error ys k with Some x, Some y => Some (x, y) | _, _ => None end.
Proof.
  revert ys k; induction xs as [|x xs IH]; intros [|y ys] [|k]; cbn; try reflexivity.
  - now destruct (nth_error xs k).
  - apply IH.
Qed.

Lemma nth_error_outer2 {A B C} (f : A -> B -> C) xs ys k j :
  j < length ys ->
  nth_error (outer2 f xs ys) (k * length ys + j) =
  match nth_error xs k, nth_error ys j with Some x, Some y => Some (f x y) | _, _ => None end.
Proof.
  intros Hj. unfold outer2. rewrite nth_error_flat_map with (n := length ys).
  - destruct (nth_error xs k); [|reflexivity]. rewrite nth_error_map.
    now destruct (nth_error ys j).
  - intros x _. apply map_length.
  - exact Hj.
Qed.

Lemma nth_error_outer3 {A B C D} (f : A -> B -> C -> D) xs ys zs k j i :
  j < length ys -> i < length zs ->
  nth_error (outer3 f xs ys zs) (k * (length ys * length zs) + (j * length zs + i)) =
  match nth_error xs k, nth_error ys j, nth_error zs i with
  | Some x, Some y, Some z => Some (f x y z) | _, _, _ => None end.
Proof.
  intros Hj Hi. unfold outer3.
  rewrite nth_error_flat_map with (n := length ys * length zs).
  - destruct (nth_error xs k); [|reflexivity].
    change (flat_map (fun y : B => map (f a y) zs) ys) with (outer2 (f a) ys zs).
    rewrite nth_error_outer2 by assumption. reflexivity.
  - intros x _. apply flat_map_const_length. intros; apply map_length.
  - nia.
Qed.

(** The rows of the non-NaT times put back in place: a scatter of concatenated rows is
    the row-by-row result with [fill] rows at the missing places. *)
Definition somes {A} (l : list (option A)) : list A :=
  flat_map (fun t => match t with Some z => [z] | None => [] end) l.

Lemma scatter_rows {A B} (fill : B) row (g : A -> list B) ts :
  (forall x, length (g x) = row) ->
  scatter fill row (map isSome ts) (flat_map g (somes ts)) =
  flat_map (fun t => match t with Some z => g z | None => repeat fill row end) ts.
Proof.
  intros Hg. induction ts as [|[z|] ts IH]; cbn [map isSome scatter flat_map somes].
  - reflexivity.
  - cbn [app]. cbn [flat_map].
    rewrite firstn_app, skipn_app, Hg, Nat.sub_diag, firstn_O, app_nil_r, skipn_O.
    rewrite firstn_all2, skipn_all2 by (rewrite Hg; lia). cbn [app]. f_equal. exact IH.
  - cbn [app]. f_equal. exact IH.
Qed.

Lemma somes_length {A} (ts : list (option A)) :
  length (somes ts) = length (filter id (map isSome ts)).
Proof. unfold somes. induction ts as [|[z|] ts IH]; cbn; [reflexivity|now rewrite IH|exact IH]. Qed.

(** Transect: same, with per-row coordinates selected by the mask. *)
Lemma select_length {A B} (ts : list (option A)) (xs : list B) :
  length xs = length ts -> length (select (map isSome ts) xs) = length (somes ts).
Proof.
  revert xs; induction ts as [|[z|] ts IH]; intros [|x xs] H; cbn in *; try reflexivity; try discriminate.
  - f_equal. apply IH. lia.
  - apply IH. lia.
Qed.

Lemma scatter_transect {A B C} (fill : C) (g : A -> B -> C) ts (xs : list B) :
  length xs = length ts ->
  scatter fill 1 (map isSome ts) (map (fun '(t, x) => g t x) (combine (somes ts) (select (map isSome ts) xs))) =
  map (fun '(t, x) => match t with Some z => g z x | None => fill end) (combine ts xs).
Proof.
  revert xs; induction ts as [|[z|] ts IH]; intros [|x xs] H; cbn in *; try reflexivity; try discriminate.
  - f_equal. apply IH. lia.
  - f_equal. apply IH. lia.
Qed.

Lemma select_combine {A B} m (xs : list A) (ys : list B) :
  length xs = length ys -> select m (combine xs ys) = combine (select m xs) (select m ys).
Proof.
  revert xs ys; induction m as [|b m IH]; intros [|x xs] [|y ys] H; cbn in *; try reflexivity; try discriminate.
  destruct b; cbn; [f_equal|]; apply IH; lia.
Qed.

Lemma select_map {A B} (f : A -> B) m xs : select m (map f xs) = map f (select m xs).
Proof.
  revert xs; induction m as [|b m IH]; intros [|x xs]; cbn; try reflexivity.
  destruct b; cbn; [f_equal|]; apply IH.
Qed.
