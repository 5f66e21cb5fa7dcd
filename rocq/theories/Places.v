(** * Places: the coordinates latitude and longitude that ride along with the arrays of 'sites' and 'transect'

    In these use cases latitude and longitude are not dimensions: they are coordinates without an index, attached to some stored
    arrays (_base.py:104-119 for sites, 152-164 for transect).  Elementwise functions, [.copy], [.rename] and [.assign_attrs] keep
    them; a binary operation keeps the coordinates of either operand and drops one that both have with different values (xarray's
    merge with compat='minimal').  Each definition below follows the expression of the accessor in _base.py; the elements,
    dimensions and indexes are those of Labels.v and Sunpos.v and are not repeated.  For a regular grid they are dimensions,
    with the indexes of Labels.v, hence none here.  [same] (xarray's comparison of variables) is left arbitrary. *)
From Coq Require Import ZArith List Bool String.
From Verif Require Import Num Arrays Libspa Time Core Usecases Sunpos.
Import ListNotations.
Open Scope list_scope.
Open Scope string_scope.

(** A coordinate: its dimension and values. *)
Definition coordinate (F : Type) : Type := dim * list F.
(** The coordinates named latitude and longitude of an array. *)
Record places (F : Type) := Pl { place_latitude : option (coordinate F); place_longitude : option (coordinate F) }.
Arguments Pl {F} place_latitude place_longitude.
Arguments place_latitude {F} p.
Arguments place_longitude {F} p.

Section Places.
  Context {F : Type}.
  Variable same : coordinate F -> coordinate F -> bool.
  Variable sp : Sunpos F.
  Notation P := (places F).

  (** xarray.core.merge, binary operations. *)
  Definition merge_one (a b : option (coordinate F)) : option (coordinate F) :=
    match a, b with Some x, Some y => if same x y then Some x else None | Some x, None => Some x | None, _ => b end.
  Definition merge (a b : P) : P := Pl (merge_one (place_latitude a) (place_latitude b)) (merge_one (place_longitude a) (place_longitude b)).
  Local Notation "a .& b" := (merge a b) (at level 40, left associativity).
  Definition none : P := Pl None None.

  (** The [coords] of lines 104-108, 128-130 (dimensions there), 152-155. *)
  Definition site_places : P :=
    match sp_usecase sp with
    | Sites => Pl (Some (DLocation, sp_latitude sp)) (Some (DLocation, sp_longitude sp))
    | RegularGrid => none
    | Transect => Pl (Some (DTime, sp_latitude sp)) (Some (DTime, sp_longitude sp))
    end.
  (** Lines 109-116 (sites: coords restricted to location or time), 132-139, 157-162 (transect: all coords). *)
  Definition small : P := match sp_usecase sp with Transect => site_places | _ => none end.
  Definition p_latitude : P := small.
  Definition p_longitude : P := small.
  Definition p_ecf : P := small.
  Definition p_eot : P := small.
  Definition p_raw_declination : P := small.
  (** Lines 117-119, 140-142, 163-164. *)
  Definition p_raw_zenith : P := site_places.
  Definition p_raw_azimuth : P := site_places.
  (** _base.py:252-301. *)
  Definition p_declination : P := p_raw_declination.
  Definition p_zenith : P := p_raw_zenith.
  Definition p_elevation : P := p_zenith.
  Definition p_azimuth : P := p_raw_azimuth.
  Definition p_cosz : P := p_raw_zenith.
  (** self.eot + 4*self.longitude. *)
  Definition p_solar_offset : P := p_eot .& p_longitude.
  (** _base.py:214-228: utc_f is built with the coordinate time only. *)
  Definition p_true_solar_time : P := none .& p_solar_offset.
  (** _base.py:397-421. *)
  Definition p_rec_airmass (parameterization : string) : res P :=
    if parameterization =? "kasten_1965" then Ok (p_cosz .& p_zenith)
    else if parameterization =? "kasten_and_young_1989" then Ok (p_cosz .& p_zenith)
    else if parameterization =? "gueymard_2001" then Ok (p_cosz .& (p_zenith .& p_zenith))
    else if parameterization =? "gueymard_2003" then Ok (p_cosz .& (p_zenith .& p_zenith))
    else Raise ValueError.
  Definition p_airmass (parameterization : string) : res P := do r <- p_rec_airmass parameterization; Ok (r .& p_zenith).
  (** _base.py:343-363. *)
  Definition p_eth (am_correction : string) : res P :=
    let e := p_ecf .& p_cosz in
    if am_correction =? "none" then Ok e
    else if am_correction =? "perez_1990" then do am <- p_airmass "kasten_and_young_1989"; Ok (e .& am)
    else if am_correction =? "skarveith_1998" then Ok (e .& p_zenith)
    else if am_correction =? "gonzalez_and_calbo_1999" then do am <- p_airmass "gueymard_2003"; Ok (e .& (am .& am))
    else Raise ValueError.
  (** _base.py:446-490. *)
  Definition p_sunrise_rad : P := let tantan := p_declination .& p_latitude in tantan .& (tantan .& tantan).
  Definition p_sunrise_tst : P := p_sunrise_rad .& p_true_solar_time.
  Definition p_sunrise_utc : P := p_sunrise_tst .& p_solar_offset.
  (** Line 482 builds the offsets on [wsr.coords['time']]; whether that brings along the coordinates of a transect depends on
      xarray's version and does not matter: they are those of [wsr]. *)
  Definition p_sunrise_local : P := p_sunrise_utc .& none.
  Definition p_sunrise (units : string) : res P :=
    if units =? "rad" then Ok p_sunrise_rad
    else if units =? "deg" then Ok p_sunrise_rad
    else if units =? "tst" then Ok p_sunrise_tst
    else if units =? "utc" then Ok p_sunrise_utc
    else if units =? "local" then Ok p_sunrise_local
    else Raise AssertionError.
  (** _base.py:532-543, 492-530. *)
  Definition p_daylight_length : P := p_sunrise_rad.
  Definition p_sunset (units : string) : res P :=
    if units =? "rad" then Raise UnboundLocalError
    else if units =? "deg" then Raise UnboundLocalError
    else if units =? "tst" then Ok (p_sunrise_tst .& p_daylight_length)
    else if units =? "utc" then Ok (p_sunrise_utc .& p_daylight_length)
    else if units =? "local" then Ok (p_sunrise_local .& p_daylight_length)
    else Raise AssertionError.
  (** _base.py:545-577. *)
  Definition p_incidence : P :=
    let lat := p_latitude in let dec := p_declination in let hour := p_true_solar_time in
    (((lat .& lat) .& dec) .& (((lat .& lat) .& dec) .& hour)) .& (dec .& hour).
End Places.
