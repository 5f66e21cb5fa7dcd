(** * Alias: which arrays share memory with a Sunpos object, and histories of accessor calls and in-place writes

    NumPy arrays are buffers of a heap.  np.array(x) copies (usecases.py:86-87, 181-182, 269-270; _base.py:74-75, 86-90); evaluate
    fills fresh arrays (_core.py:166-180); np.degrees, np.cos and arithmetic return fresh arrays; xarray's [rename] and
    [assign_attrs] copy the DataArray but not its buffer.  The stored numbers of the container are read from the heap at each call.
    Not modelled: writes through coordinates, and into pandas' indexes (times, times_utc); the elements of fresh arrays, which
    nothing reads. *)
From Coq Require Import ZArith QArith List Bool Arith String.
From Verif Require Import Num Arrays Libspa Time Core Usecases Sunpos.
Import ListNotations.
Open Scope string_scope.
Open Scope list_scope.

Section Alias.
  Context {F : Type} {O : Ops F}.
  Variable nat_float : F.

  (** Memory: buffers by number; the next free number. *)
  Record memory := { buffer : nat -> list F; next : nat }.
  Definition set (h : nat -> list F) (b : nat) (l : list F) : nat -> list F := fun x => if Nat.eqb x b then l else h x.
  (** A new buffer with the elements of [l]. *)
  Definition alloc (m : memory) (l : list F) : memory * nat := ({| buffer := set (buffer m) (next m) l; next := S (next m) |}, next m).
  (** np.array(x): a copy. *)
  Definition np_array (m : memory) (b : nat) : memory * nat := alloc m (buffer m b).
  (** a.values[n] = v (flat index; nothing happens out of bounds: IndexError). *)
  Fixpoint replace (l : list F) (n : nat) (v : F) : list F :=
    match l, n with [], _ => [] | _ :: l', 0 => v :: l' | x :: l', S n' => x :: replace l' n' v end.
  Definition write (m : memory) (b n : nat) (v : F) : memory := {| buffer := set (buffer m) b (replace (buffer m b) n v); next := next m |}.

  (** _base.py:74-90: the buffers of the stored arrays. *)
  Record stored := { b_latitude : nat; b_longitude : nat; b_ecf : nat; b_eot : nat; b_declination : nat; b_zenith : nat; b_azimuth : nat }.
  (** usecases.py:86-115 (and 174-203, 262-297) and _base.py:74-90 for a call whose numerical result is [sp], with the user's arrays
      of coordinates in buffers 0 and 1. *)
  Definition construct (lat lon : list F) (sp : Sunpos F) : memory * stored :=
    let m := {| buffer := fun b => match b with 0 => lat | 1 => lon | _ => [] end; next := 2 |} in
    let '(m, sites_lats) := np_array m 0 in
    let '(m, sites_lons) := np_array m 1 in
    let '(m, ecf) := alloc m (data (sp_ecf sp)) in
    let '(m, eot) := alloc m (data (sp_eot sp)) in
    let '(m, declination) := alloc m (data (sp_declination sp)) in
    let '(m, zenith) := alloc m (data (sp_zenith sp)) in
    let '(m, azimuth) := alloc m (data (sp_azimuth sp)) in
    let '(m, latitude') := np_array m sites_lats in
    let '(m, longitude') := np_array m sites_lons in
    let '(m, ecf') := np_array m ecf in
    let '(m, eot') := np_array m eot in
    let '(m, declination') := np_array m declination in
    let '(m, zenith') := np_array m zenith in
    let '(m, azimuth') := np_array m azimuth in
    (m, {| b_latitude := latitude'; b_longitude := longitude'; b_ecf := ecf'; b_eot := eot'; b_declination := declination'; b_zenith := zenith'; b_azimuth := azimuth' |}).

  (** The container as it reads at the moment: everything as constructed but the elements of the arrays. *)
  Definition reload (a : ndarray F) (l : list F) : ndarray F := ND (shape a) l.
  Definition current (m : memory) (c : stored) (sp : Sunpos F) : Sunpos F :=
    {| sp_usecase := sp_usecase sp; sp_timezone := sp_timezone sp; sp_times := sp_times sp; sp_times_utc := sp_times_utc sp;
       sp_latitude := buffer m (b_latitude c); sp_longitude := buffer m (b_longitude c);
       sp_algorithm := sp_algorithm sp; sp_engine := sp_engine sp; sp_refraction := sp_refraction sp;
       sp_ecf := reload (sp_ecf sp) (buffer m (b_ecf c)); sp_eot := reload (sp_eot sp) (buffer m (b_eot c));
       sp_declination := reload (sp_declination sp) (buffer m (b_declination c));
       sp_zenith := reload (sp_zenith sp) (buffer m (b_zenith c)); sp_azimuth := reload (sp_azimuth sp) (buffer m (b_azimuth c)) |}.

  (** The accessors by name. *)
  Inductive accessor :=
  | ALatitude | ALongitude | AEcf | AEot | ADeclination | AZenith | AAzimuth | AElevation | ACosz | ATrueSolarTime
  | AAirmass (parameterization : string) | AEth (ISC : F) (am_correction : string)
  | ASunrise (units : string) | ASunset (units : string) | ADaylightLength | AIncidence (sfc_slope sfc_azimuth : F).
  Definition angles (r : res (darray F)) : res (angle_or_time F) := match r with Ok a => Ok (Angle a) | Raise e => Raise e end.
  Definition answer (sp : Sunpos F) (q : accessor) : res (angle_or_time F) :=
    match q with
    | ALatitude => Ok (Angle (latitude sp)) | ALongitude => Ok (Angle (longitude sp)) | AEcf => Ok (Angle (ecf sp)) | AEot => Ok (Angle (eot sp))
    | ADeclination => Ok (Angle (declination sp)) | AZenith => Ok (Angle (zenith sp)) | AAzimuth => Ok (Angle (azimuth sp))
    | AElevation => Ok (Angle (elevation sp)) | ACosz => Ok (Angle (cosz sp)) | ATrueSolarTime => Ok (Instant (true_solar_time nat_float sp))
    | AAirmass p => angles (airmass sp p) | AEth s c => angles (eth sp s c) | ASunrise u => sunrise nat_float sp u | ASunset u => sunset nat_float sp u
    | ADaylightLength => Ok (Angle (daylight_length sp)) | AIncidence s a => Ok (Angle (incidence nat_float sp s a))
    end.
  (** The buffer of the returned array: the stored one for _base.py:170-180 and 236-249 (only rename and assign_attrs), a fresh one otherwise. *)
  Definition returned (c : stored) (q : accessor) : option nat :=
    match q with
    | ALatitude => Some (b_latitude c) | ALongitude => Some (b_longitude c) | AEcf => Some (b_ecf c) | AEot => Some (b_eot c)
    | _ => None
    end.

  (** A history: what a user does with a result. *)
  Inductive event :=
  | Ask (q : accessor)
  | WriteInput (longitude : bool) (n : nat) (v : F)       (* into the array given as latitude or longitude *)
  | WriteAnswer (a : nat) (n : nat) (v : F).              (* into the array of answer number a *)
  Record state := { mem : memory; answers : list (nat * res (angle_or_time F)) }.
  Definition step (c : stored) (sp : Sunpos F) (s : state) (e : event) : state :=
    match e with
    | Ask q =>
        let '(m, b) := match returned c q with Some b => (mem s, b) | None => alloc (mem s) [] end in
        {| mem := m; answers := answers s ++ [(b, answer (current (mem s) c sp) q)] |}
    | WriteInput lon n v => {| mem := write (mem s) (if lon then 1 else 0) n v; answers := answers s |}
    | WriteAnswer a n v => match nth_error (answers s) a with
                           | Some (b, _) => {| mem := write (mem s) b n v; answers := answers s |}
                           | None => s
                           end
    end.
  Definition run (lat lon : list F) (sp : Sunpos F) (h : list event) : state :=
    let '(m, c) := construct lat lon sp in fold_left (step c sp) h {| mem := m; answers := [] |}.
End Alias.
Arguments accessor F : clear implicits.
Arguments event F : clear implicits.
