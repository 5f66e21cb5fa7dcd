(** * Spec: the vocabulary of the property statements, independent of the model's helpers *)

From Coq Require Import ZArith QArith List Bool Arith String.
From Verif Require Import Num Arrays Libspa Time Core Usecases.
Import ListNotations.

(** ** Calls *)

(** The public entry points, by use case. *)
Definition call {F} {O : Ops F} (numexpr_available : bool) (uc : usecase) :
  times_arg -> arg F -> arg F -> string -> refr_flag -> string -> res (Sunpos F) :=
  match uc with
  | Sites => sites numexpr_available
  | RegularGrid => regular_grid numexpr_available
  | Transect => transect numexpr_available
  end.

(** The instants (UTC ns, None = NaT) an argument [times] denotes: a naive time is UTC, an aware
    one is its wall-clock reading minus its UTC offset. *)
Definition instants (t : times_arg) : list (option Z) :=
  match t with
  | TNaive _ l => l
  | TAware _ _ l => map (fun x => match x with Some (w, o) => Some (w - o)%Z | None => None end) l
  | TMulti _ => []
  end.

(** A single naive UTC time / a list of naive UTC times. *)
Definition at_time (t : option Z) : times_arg := TNaive true [t].
Definition at_times (l : list (option Z)) : times_arg := TNaive false l.

(** The coordinates of an argument, when it is a scalar or 1-dim. *)
Definition one_dim {A} (x : arg A) (l : list A) : Prop := x = Vec l \/ exists a, x = Scalar a /\ l = [a].

(** The five numerical results of a call: cell [i] of [a] and cell [i'] of [b] exist and agree. *)
Definition same_at {A} (x y : ndarray A) (i i' : list nat) : Prop :=
  exists v, get x i = Some v /\ get y i' = Some v.
Definition same_time_outputs {F} (a b : Sunpos F) (k k' : nat) : Prop :=
  same_at (sp_ecf a) (sp_ecf b) [k] [k'] /\
  same_at (sp_eot a) (sp_eot b) [k] [k'] /\
  same_at (sp_declination a) (sp_declination b) [k] [k'].
Definition same_position {F} (a b : Sunpos F) (i i' : list nat) : Prop :=
  same_at (sp_zenith a) (sp_zenith b) i i' /\
  same_at (sp_azimuth a) (sp_azimuth b) i i'.
Definition same_outputs {F} (a b : Sunpos F) : Prop :=
  sp_ecf a = sp_ecf b /\ sp_eot a = sp_eot b /\ sp_declination a = sp_declination b /\
  sp_zenith a = sp_zenith b /\ sp_azimuth a = sp_azimuth b.

(** A well-formed array: as many elements as its shape says. *)
Definition wf_array {A} (a : ndarray A) : Prop := List.length (data a) = fold_right Nat.mul 1%nat (shape a).

(** The seven accepted algorithm-engine pairs and their implementations. *)
Definition supported {F} {O : Ops F} : list (string * string * spalib F) :=
  [("psa", "numpy", py_psa); ("psa", "numexpr", ne_psa);
   ("soltrack", "numpy", py_soltrack); ("soltrack", "numexpr", ne_soltrack);
   ("iqbal", "numpy", py_iqbal); ("iqbal", "numexpr", ne_iqbal);
   ("nrel", "numexpr", ne_nrel)]%string.

(** ** Cells *)

(** Cell (time k, latitude j, longitude i) of a use case: its multi-index in the results ... *)
Definition idx (uc : usecase) (k j i : nat) : list nat :=
  match uc with Sites => [k; j] | RegularGrid => [k; j; i] | Transect => [k] end.
(** ... and the coordinates it belongs to. *)
Definition at_idx {F} (uc : usecase) (lats lons : list F) (k j i : nat) (la lo : F) : Prop :=
  match uc with
  | Sites => nth_error lats j = Some la /\ nth_error lons j = Some lo
  | RegularGrid => nth_error lats j = Some la /\ nth_error lons i = Some lo
  | Transect => nth_error lats k = Some la /\ nth_error lons k = Some lo
  end.
(** The documented shape of zenith and azimuth for K times, J latitudes and I longitudes. *)
Definition doc_shape (uc : usecase) (K J I : nat) : list nat :=
  match uc with Sites => [K; J] | RegularGrid => [K; J; I] | Transect => [K] end.
(** The documented requirement on the numbers of times, latitudes and longitudes. *)
Definition shape_cond (uc : usecase) (K J I : nat) : Prop :=
  match uc with Sites => J = I | RegularGrid => True | Transect => K = J /\ J = I end.
(** [ab] is [a] followed by [b] along the first axis. *)
Definition app_rows {F} (a b ab : ndarray F) : Prop :=
  data ab = (data a ++ data b)%list /\
  exists K1 K2 rest, shape a = K1 :: rest /\ shape b = K2 :: rest /\ shape ab = (K1 + K2)%nat :: rest.
(** Number of valid (non-NaT) times before position [k]. *)
Definition valid_before (l : list (option Z)) (k : nat) : nat :=
  List.length (filter isSome (firstn k l)).
(** Removing the coordinates of the NaT times of a transect. *)
Definition drop_nat_coord {F} (uc : usecase) (l : list (option Z)) (x : arg F) : arg F :=
  match uc with Transect => Vec (select (map isSome l) (elems x)) | _ => x end.
(** Any selection (re-ordering, repetition, subset) of a list by positions. *)
Definition pick {A} (p : list nat) (l : list A) : list A :=
  flat_map (fun i => match nth_error l i with Some x => [x] | None => [] end) p.
(** ... of the coordinates of a transect, which go with the times. *)
Definition pick_coord {F} (uc : usecase) (p : list nat) (x : arg F) : arg F :=
  match uc with Transect => Vec (pick p (elems x)) | _ => x end.
(** Coordinates inside the accepted bounds, in terms of the comparisons of the arithmetic. *)
Definition coords_ok {F} {O : Ops F} (lat lon : list F) : Prop :=
  (forall x, In x lat -> fisnan x = true \/ (fle (lit (-90)) x = true /\ fle x (lit 90) = true)) /\
  (forall x, In x lon -> fisnan x = true \/ (fle (lit (-180)) x = true /\ flt x (lit 180) = true)).

(** ** Time zones *)

(** The wall-clock reading shown at instant [u] in zone [z]. *)
Definition reading (z : zone) (u : Z) : Z := (u + z_offset z u)%Z.
(** A reading shown at most once / more than once. *)
Definition unambiguous (z : zone) (w : Z) : Prop :=
  forall u1 u2, reading z u1 = w -> reading z u2 = w -> u1 = u2.
Definition ambiguous (z : zone) (w : Z) : Prop :=
  exists u1 u2, u1 <> u2 /\ reading z u1 = w /\ reading z u2 = w.
(** Between the readings W0 and W1 the clock shows everything exactly twice: first with offset o1, later (after the
    clock has gone back) with the smaller offset o2. *)
Definition repeated_hour (z : zone) (W0 W1 o1 o2 : Z) : Prop :=
  (o2 < o1)%Z /\ forall w, (W0 <= w < W1)%Z -> forall u, reading z u = w <-> (u = w - o1 \/ u = w - o2)%Z.
(** Times read away from repeated hours (None is NaT). *)
Definition outside_folds (z : zone) (l : list (option (Z * Z))) : Prop :=
  forall w o, In (Some (w, o)) l -> z_offset z (w - o) = o /\ unambiguous z w.
(** The wall-clock readings [ws], all with UTC offset [o]. *)
Definition read_with (o : Z) (ws : list Z) : list (option (Z * Z)) := map (fun w => Some (w, o)) ws.
(** The kinds of [times] for which the stored UTC times are the evaluated instants: naive
    (UTC) times; named pytz zones away from repeated readings; zoneinfo/datetime.timezone zones with
    offset zero. *)
Definition faithful_times (t : times_arg) : Prop :=
  match t with
  | TNaive _ _ => True
  | TAware _ (PytzNamed _ z) l =>
      zone_wf z /\ forall w o, In (Some (w, o)) l -> z_offset z (w - o) = o /\ unambiguous z w
  | TAware _ (NoZoneAttr z) l => forall w o, In (Some (w, o)) l -> o = 0%Z
  | _ => False
  end.
