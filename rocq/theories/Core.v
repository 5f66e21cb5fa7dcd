(** * Core: utils/validate.py and _core.py *)

From Coq Require Import ZArith QArith List Bool Arith String.
From Verif Require Import Num Arrays Libspa Time.
Import ListNotations.
Open Scope nat_scope.
Open Scope string_scope.

(** The values a caller may pass as [refraction]: only the singleton True passes the
    identity test [with_refraction is True]; other truthy values (1, np.True_, ...) do not. *)
Inductive refr_flag := RTrue | RFalse | ROther (truthy : bool).
Definition is_True (r : refr_flag) : bool := match r with RTrue => true | _ => false end.
Definition truthy (r : refr_flag) : bool :=
  match r with RTrue => true | RFalse => false | ROther b => b end.

Section Core.
  Context {F : Type} {O : Ops F}.

  (** Which optional third-party packages are importable: numexpr may be missing, in
      which case [safe_import] (utils/__init__.py:5-10) leaves None in the table. *)
  Variable numexpr_available : bool.

  (** __ALGORITHMS__ (_core.py:20-36): algorithm -> engine -> module or None. *)
  Definition module_table (algorithm : string) : option (string -> option (option (spalib F))) :=
    let ne m := if numexpr_available then Some m else None in
    let both py nx := fun engine => if engine =? "numpy" then Some (Some py)
                                    else if engine =? "numexpr" then Some (ne nx) else None in
    if algorithm =? "psa" then Some (both py_psa ne_psa)
    else if algorithm =? "soltrack" then Some (both py_soltrack ne_soltrack)
    else if algorithm =? "iqbal" then Some (both py_iqbal ne_iqbal)
    else if algorithm =? "nrel" then Some (fun engine => if engine =? "numexpr" then Some (ne ne_nrel) else None)
    else None.

  (** validate.py:6-11. *)
  Definition check_ndim (ndim : nat) : res nat :=
    if (ndim =? 0)%nat || (ndim =? 1)%nat || (ndim =? 2)%nat then Ok ndim else Raise ValueError.

  (** validate.py:50-51 and 65-66: range tests on the non-NaN values. *)
  Definition lon_ok (x : F) : bool := fisnan x || (fle (lit (-180)) x && flt x (lit 180)).
  Definition lat_ok (x : F) : bool := fisnan x || (fle (lit (-90)) x && fle x (lit 90)).

  (** validate.py:14-85. [dtype] is float64, [dt64] is seconds. *)
  Definition check_timelatlon (times : times_arg) (latitude longitude : arg F) (ndim : nat)
    : res (list (option Z) * list F * list F) :=
    do utc <- to_utc times;
    let ts := map (option_map floor_s) utc in
    do _ <- guard (negb (1 <? ndim_of longitude)%nat) ValueError;
    let lons := elems longitude in
    do _ <- guard (forallb lon_ok lons) ValueError;
    do _ <- guard (negb (1 <? ndim_of latitude)%nat) ValueError;
    let lats := elems latitude in
    do _ <- guard (forallb lat_ok lats) ValueError;
    do _ <- guard (negb ((ndim =? 0)%nat
                         && negb ((List.length ts =? List.length lons)%nat
                                  && (List.length lons =? List.length lats)%nat))) ValueError;
    do _ <- guard (negb ((ndim =? 1)%nat && negb (List.length lons =? List.length lats)%nat)) ValueError;
    Ok (ts, lats, lons).

  (** The dictionary returned by [evaluate] (_core.py:190-203). *)
  Record solpos := {
    s_latitude : list F; s_longitude : list F;
    s_ecf : ndarray F; s_eot : ndarray F; s_declination : ndarray F;
    s_zenith : ndarray F; s_azimuth : ndarray F }.

  (** _core.py:149-153 (and 167-174). *)
  Definition out_shape (ndim n_times n_lats n_lons : nat) : list nat :=
    match ndim with
    | 0 => [n_times]
    | 1 => [n_times; n_lats]
    | _ => [n_times; n_lats; n_lons]
    end%nat.

  (** _core.py:169-180 [reshape]: [output[nonat, ...] = values] needs
      exactly as many values as masked elements (ValueError of NumPy otherwise). *)
  Definition reshape_full (sh : list nat) (nonat : list bool) (values : list F) : res (ndarray F) :=
    let row := size (tl sh) in
    do _ <- guard (List.length values =? List.length (filter id nonat) * row)%nat ValueError;
    Ok (ND sh (scatter fnan row nonat values)).

  (** _core.py:42-203 [evaluate]. *)
  Definition evaluate (times : times_arg) (latitude longitude : arg F)
             (algorithm : string) (ndim : nat) (refraction : refr_flag) (engine : string) : res solpos :=
    match module_table algorithm with
    | None => Raise ValueError
    | Some engines =>
        match engines engine with
        | None => Raise ValueError
        | Some m =>
            do ndim <- check_ndim ndim;
            do '(ts, lats, lons) <- check_timelatlon times latitude longitude ndim;
            let nonat := map (fun t : option Z => match t with Some _ => true | None => false end) ts in
            let times_nonat := flat_map (fun t : option Z => match t with Some z => [z] | None => [] end) ts in
            let lats_nonat := if (ndim =? 0)%nat then select nonat lats else lats in
            let lons_nonat := if (ndim =? 0)%nat then select nonat lons else lons in
            match m with
            | None => Raise AttributeError                     (* None.sunpos *)
            | Some m =>
                do r <- sunpos m times_nonat lons_nonat lats_nonat ndim (is_True refraction);
                let n_times := List.length ts in
                let sh := out_shape ndim n_times (List.length lats) (List.length lons) in
                do ecf <- reshape_full [n_times] nonat (r_ecf r);
                do eot <- reshape_full [n_times] nonat (r_eot r);
                do dec <- reshape_full [n_times] nonat (r_dec r);
                do zen <- reshape_full sh nonat (r_zenith r);
                do azi <- reshape_full sh nonat (r_azimuth r);
                Ok {| s_latitude := lats; s_longitude := lons;
                      s_ecf := ecf; s_eot := eot; s_declination := dec;
                      s_zenith := zen; s_azimuth := azi |}
            end
        end
    end.
End Core.
Arguments solpos F : clear implicits.
