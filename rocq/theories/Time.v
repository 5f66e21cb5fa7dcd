(** * Time: instants, wall-clock readings and time zones *)

From Coq Require Import ZArith List Bool String.
From Verif Require Import Num.
Import ListNotations.
Open Scope Z_scope.

(** All times are integer nanoseconds since 1970-01-01T00:00 (proleptic Gregorian,
    no leap seconds, as in datetime64).  int64 overflow is not modelled: times are
    assumed inside the datetime64[ns] range (years 1677-2262). *)
Definition NS_PER_S : Z := 1000000000.
Definition NS_PER_DAY : Z := 86400 * NS_PER_S.

(** A civil time zone: UTC offset (ns) in force at each UTC instant, and the finite
    list of offsets it ever uses. *)
Record zone := { z_offset : Z -> Z; z_offsets : list Z }.

(** A zone is well formed if the listed offsets are exhaustive. *)
Definition zone_wf (z : zone) : Prop := forall u, In (z_offset z u) (z_offsets z).

Definition utc_zone : zone := {| z_offset := fun _ => 0; z_offsets := [0] |}.

(** The kinds of tzinfo objects the constructor of Sunpos distinguishes
    (_base.py:61-66): [hasattr(tz, 'zone')] holds for pytz objects only;
    pytz.FixedOffset has [zone = None]; zoneinfo.ZoneInfo and datetime.timezone
    (the default of pandas>=3, required by pyproject.toml:21) have no such attribute. *)
Inductive tzinfo :=
| PytzNamed (name : string) (z : zone)
| PytzFixed (offset : Z)
| NoZoneAttr (z : zone).

Definition tz_offset (tz : tzinfo) (u : Z) : Z :=
  match tz with
  | PytzNamed _ z => z_offset z u
  | PytzFixed o => o
  | NoZoneAttr z => z_offset z u
  end.

(** The argument [times]: a list (or scalar) of naive instants, or of wall-clock
    readings in one time zone, each with its UTC offset.  None is NaT. *)
Inductive times_arg :=
| TNaive (scalar : bool) (l : list (option Z))
| TAware (scalar : bool) (tz : tzinfo) (l : list (option (Z * Z)))   (* (wall, offset) *)
| TMulti (n : nat).                                                  (* n >= 2 dimensions *)

(** The readings belong to the zone: reading [wall] with offset [off] is the instant
    [wall - off], at which the zone's offset is [off]. *)
Definition times_wf (t : times_arg) : Prop :=
  match t with
  | TAware _ tz l => forall w o, In (Some (w, o)) l -> tz_offset tz (w - o) = o
  | _ => True
  end.

(** [pd.to_datetime(times, utc=True).tz_localize(None)] (usecases.py:83-84,
    validate.py:31-33): naive UTC; a >=2-dim array is a TypeError of pandas. *)
Definition to_utc (t : times_arg) : res (list (option Z)) :=
  match t with
  | TNaive _ l => Ok l
  | TAware _ _ l => Ok (map (option_map (fun '(w, o) => w - o)) l)
  | TMulti _ => Raise TypeError
  end.

(** dtype='datetime64[s]' (usecases.py:85, validate.py:28-33): datetime64[ns] -> [s] floors. *)
Definition floor_s (n : Z) : Z := n / NS_PER_S.

(** [times.tz_localize(None)] (_base.py:69): the wall-clock readings. *)
Definition walls (t : times_arg) : res (list (option Z)) :=
  match t with
  | TNaive _ l => Ok l
  | TAware _ _ l => Ok (map (option_map fst) l)
  | TMulti _ => Raise TypeError
  end.

(** ** pandas' tz_localize(zone, ambiguous='infer')

    All UTC instants whose wall-clock reading in [z] is [w], in increasing order
    (pandas: the bounds result_a <= result_b of tzconversion.tz_localize_to_utc). *)
Fixpoint insert_sorted (x : Z) (l : list Z) : list Z :=
  match l with
  | [] => [x]
  | y :: l' => if x <? y then x :: l else if x =? y then l else y :: insert_sorted x l'
  end.
Definition candidates (z : zone) (w : Z) : list Z :=
  fold_right insert_sorted [] (filter (fun u => z_offset z u =? w - u) (map (fun o => w - o) (z_offsets z))).

Inductive loc_class := LNat | LMissing | LOne (u : Z) | LTwo (a b : Z).
Definition classify (z : zone) (w : option Z) : loc_class :=
  match w with
  | None => LNat
  | Some w =>
      match candidates z w with
      | [] => LMissing
      | [u] => LOne u
      | a :: rest => LTwo a (last rest a)
      end
  end.

(** The maximal run of ambiguous readings at the head of a list. *)
Fixpoint take_run (l : list loc_class) : list (Z * Z) * list loc_class :=
  match l with
  | LTwo a b :: l' => let (r, rest) := take_run l' in ((a, b) :: r, rest)
  | _ => ([], l)
  end.

(** Position of the switch in a run: the places where the readings do not increase. *)
Fixpoint switches (i : nat) (prev : Z) (r : list (Z * Z)) : list nat :=
  match r with
  | [] => []
  | (a, _) :: r' => if a - prev <=? 0 then i :: switches (S i) a r' else switches (S i) a r'
  end.

(** One contiguous group of ambiguous readings: exactly one place where the clock
    goes back must exist; readings before it take the earlier, the others the later
    instant.  Otherwise AmbiguousTimeError. *)
Definition resolve_run (r : list (Z * Z)) : res (list Z) :=
  match r with
  | [] => Ok []
  | (a0, _) :: r' =>
      match switches 1 a0 r' with
      | [k] => Ok (map fst (firstn k r) ++ map snd (skipn k r))
      | _ => Raise AmbiguousTimeError
      end
  end.

(** The whole list; fuel = its length. *)
Fixpoint localize_classes (fuel : nat) (l : list loc_class) : res (list (option Z)) :=
  match fuel with
  | O => Ok []
  | S fuel' =>
      match l with
      | [] => Ok []
      | LNat :: l' => do r <- localize_classes fuel' l'; Ok (None :: r)
      | LMissing :: _ => Raise NonExistentTimeError
      | LOne u :: l' => do r <- localize_classes fuel' l'; Ok (Some u :: r)
      | LTwo _ _ :: _ =>
          let (run, rest) := take_run l in
          do us <- resolve_run run;
          do r <- localize_classes fuel' rest;
          Ok (map Some us ++ r)
      end
  end.
Definition tz_localize (z : zone) (ws : list (option Z)) : res (list (option Z)) :=
  let cs := map (classify z) ws in
  localize_classes (List.length cs) cs.

(** _base.py:59-72: the constructor's [_timezone], and the UTC instants it ends up
    with in [_times_utc].  With [zone = None], [tz_localize(None)] leaves the index
    naive and [tz_convert('UTC')] of a naive index is a TypeError. *)
Definition ctor_times (t : times_arg) : res (string * list (option Z) * list (option Z)) :=
  do ws <- walls t;
  match t with
  | TNaive _ _ => do u <- tz_localize utc_zone ws; Ok ("UTC"%string, ws, u)
  | TAware _ (PytzNamed name z) _ => do u <- tz_localize z ws; Ok (name, ws, u)
  | TAware _ (PytzFixed _) _ => Raise TypeError
  | TAware _ (NoZoneAttr _) _ => do u <- tz_localize utc_zone ws; Ok ("UTC"%string, ws, u)
  | TMulti _ => Raise TypeError
  end.
