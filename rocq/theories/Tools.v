(** * Tools: utils/datetime.py, utils/jpl_horizons.py and parts of _cli/benchmark.py *)

From Coq Require Import ZArith QArith Reals List Bool Arith String Ascii.
From Flocq Require Import Core.Raux Core.Generic_fmt Core.Round_NE Core.FLT Core.Defs Core.Zaux.
From Verif Require Import Num Arrays Libspa Time Core Calendar Ext Cli.
Import ListNotations.
Open Scope list_scope.
Open Scope Z_scope.

(** ** utils/datetime.py *)

(** A Python dict: its methods are its only attributes (no key is one). *)
Definition dict_attributes : list string :=
  ["clear"; "copy"; "fromkeys"; "get"; "items"; "keys"; "pop"; "popitem"; "setdefault"; "update"; "values"]%string.
Definition pydict (V : Type) := list (string * V).
(** [d.name]: a bound method, or AttributeError. *)
Inductive dict_attr (V : Type) := Method (name : string) (d : pydict V).
Definition getattr_dict {V} (d : pydict V) (name : string) : res (dict_attr V) :=
  if existsb (String.eqb name) dict_attributes then Ok (Method V name d) else Raise AttributeError.

Section DateTime.
  Context {F : Type} {O : Ops F}.
  Variable numexpr_available : bool.
  (** _core.py:191-203: evaluate returns a dict with these keys (the arrays only). *)
  Definition evaluate_dict (times : times_arg) (latitude longitude : arg F) (algorithm : string) (ndim : nat)
             (refraction : refr_flag) (engine : string) : res (pydict (ndarray F)) :=
    do s <- evaluate numexpr_available times latitude longitude algorithm ndim refraction engine;
    Ok [("ecf", s_ecf s); ("eot", s_eot s); ("declination", s_declination s); ("zenith", s_zenith s); ("azimuth", s_azimuth s)]%string.
  (** datetime.py:11 and :30: [evaluate(times, 0., 0.).eot] with evaluate's defaults (_core.py:42-43). *)
  Definition eot_of (times : times_arg) : res (dict_attr (ndarray F)) :=
    do d <- evaluate_dict times (Scalar (lit 0)) (Scalar (lit 0)) "psa" 1 RTrue "numexpr";
    getattr_dict d "eot".
  (** datetime.py:7-24 [true_solar_time] and :27-42 [universal_time_coordinated], up to the [.eot]; the rest ([after],
      arithmetic on what that expression returned) is left open. *)
  Section After.
    Variables (Result : Type) (after : dict_attr (ndarray F) -> res Result).
    Definition true_solar_time_util (times_utc : times_arg) (longitude : arg F) : res Result := do e <- eot_of times_utc; after e.
    Definition universal_time_coordinated (times_tst : times_arg) (longitude : arg F) : res Result := do e <- eot_of times_tst; after e.
  End After.
End DateTime.

(** ** utils/jpl_horizons.py *)

(** pandas' date -> day number: NumPy's [get_datetimestruct_days] (C division truncates). *)
Definition date_to_days (year month day : Z) : Z :=
  let y := year - 1970 in
  let days := y * 365 in
  let days :=
    if 0 <=? days then days + Z.quot (y + 1) 4 - Z.quot (y + 69) 100 + Z.quot (y + 369) 400
    else days + Z.quot (y - 2) 4 - Z.quot (y - 30) 100 + Z.quot (y - 30) 400 in
  days + fold_right Z.add 0 (firstn (Z.to_nat (month - 1)) (np_days_per_month year)) + (day - 1).

(** [Timestamp.replace(day=1)] of an instant in seconds: same year, month and time of day. *)
Definition replace_day1 (s : Z) : Z :=
  let '(y, m, d) := civil_of_seconds s in
  86400 * date_to_days y m 1 + s mod 86400.

(** jpl_horizons.py:116-117: the window requested for a month, in seconds. *)
Definition window_start (year month : Z) : Z := 86400 * date_to_days year month 1.
Definition window_stop (year month : Z) : Z := replace_day1 (window_start year month + 35 * 86400) - 60.

(** [len(pd.date_range(start, stop, freq='<step>min'))] with both ends in minutes (jpl_horizons.py:53-54);
    the texts of lines 45-46 drop the seconds. *)
Definition n_times (start stop step : Z) : Z :=
  let a := start / 60 in let b := stop / 60 in if a <=? b then (b - a) / step + 1 else 0.
Definition MAX_LINES : Z := 90024.

(** A request to the service: window (minutes), site (10^-6 degrees), step (minutes). *)
Record request := { q_start : Z; q_stop : Z; q_lon : Z; q_lat : Z; q_step : Z }.
(** jpl_horizons.py:11-62 [get_jpl_ephemeris] up to the request. *)
Definition jpl_request (start stop : Z) (lon lat : R) (step : Z) : res request :=
  do _ <- guard (n_times start stop step <=? MAX_LINES) ValueError;
  Ok {| q_start := start / 60; q_stop := stop / 60; q_lon := fixed 6 lon; q_lat := fixed 6 lat; q_step := step |}.

(** Lines of a file. *)
Definition line := list Z.
Definition is_line (s : string) (l : line) : bool :=
  (fix eq (a : list Z) (b : list Z) := match a, b with [], [] => true | x :: a, y :: b => (x =? y) && eq a b | _, _ => false end)
    l (map (fun c => Z.of_nat (nat_of_ascii c)) (list_ascii_of_string s)).
Definition SOE (l : line) : bool := is_line ("$$SOE" ++ String "010" "")%string l.
Definition EOE (l : line) : bool := is_line ("$$EOE" ++ String "010" "")%string l.
(** [lines[lines.index(first)+1 : lines.index(second, ...)]]; a missing mark is a ValueError. *)
Fixpoint after_mark (p : line -> bool) (ls : list line) : res (list line) :=
  match ls with [] => Raise ValueError | l :: ls => if p l then Ok ls else after_mark p ls end.
Fixpoint before_mark (p : line -> bool) (ls : list line) : res (list line) :=
  match ls with [] => Raise ValueError | l :: ls => if p l then Ok [] else do r <- before_mark p ls; Ok (l :: r) end.

(** One parsed line: time (ns), Julian day, azimuth 0-360, elevation, distance; None is a ValueError. *)
Record row := { w_time : Z; w_jd : R; w_az : R; w_el : R; w_r : R }.

(** A DataFrame as read_jpl_ephemeris_file returns it: index (ns; aware says it is a UTC DatetimeIndex),
    column names, and the values of the columns per row. *)
Record frame := { f_aware : bool; f_index : list Z; f_columns : list string; f_rows : list (list R) }.

Section Jpl.
  (** jpl_horizons.py:76-84 [parse_line] (fixed columns, dateutil and float): left open. *)
  Variable parse_line : line -> option row.
  Fixpoint parse_lines (ls : list line) : res (list row) :=
    match ls with
    | [] => Ok []
    | l :: ls => match parse_line l with None => Raise ValueError | Some r => do rs <- parse_lines ls; Ok (r :: rs) end
    end.
  (** float64 (binary64, round to nearest even). *)
  Definition float64 (x : R) : R := round radix2 (FLT_exp (-1074) 53) ZnearestE x.

  (** jpl_horizons.py:74-100 [read_jpl_ephemeris_file]; no data line: [a[:, 0]] of an empty array is an IndexError. *)
  Definition read_jpl_ephemeris_file (ls : list line) : res frame :=
    do ls <- after_mark SOE ls;
    do ls <- before_mark EOE ls;
    do rs <- parse_lines ls;
    match rs with
    | [] => Raise IndexError
    | _ =>
        Ok {| f_aware := true; f_index := map (fun r => Ztrunc (float64 (IZR (w_time r)))) rs;
              f_columns := ["azimuth"; "zenith"; "ecf"]%string;
              f_rows := map (fun r => [w_az r - 180; 90 - w_el r; 1 / (w_r r ^ 2)]%R) rs |}
    end.

  (** [df.drop(columns=name)]: KeyError if there is no such column. *)
  Definition drop_column (name : string) (f : frame) : res frame :=
    if existsb (String.eqb name) (f_columns f) then
      let keep := map (fun c => negb (String.eqb name c)) (f_columns f) in
      Ok {| f_aware := f_aware f; f_index := f_index f; f_columns := select keep (f_columns f); f_rows := map (select keep) (f_rows f) |}
    else Raise KeyError.
  (** [df.tz_localize('UTC')]: TypeError if the index is already aware. *)
  Definition localize_frame (f : frame) : res frame :=
    if f_aware f then Raise TypeError
    else Ok {| f_aware := true; f_index := f_index f; f_columns := f_columns f; f_rows := f_rows f |}.

  (** The directory [data]: the monthly texts and the yearly parquet file, by year, and the requests sent so far. *)
  Record store := { txt : Z -> Z -> option (list line); parquet : Z -> option frame; sent : list request }.
  Definition set_txt (s : store) (y m : Z) (c : option (list line)) : store :=
    {| txt := fun y' m' => if (y' =? y) && (m' =? m) then c else txt s y' m'; parquet := parquet s; sent := sent s |}.
  Definition set_parquet (s : store) (y : Z) (c : frame) : store :=
    {| txt := txt s; parquet := fun y' => if y' =? y then Some c else parquet s y'; sent := sent s |}.
  Definition send (s : store) (q : request) : store := {| txt := txt s; parquet := parquet s; sent := sent s ++ [q] |}.

  (** The service: its answer to a request, or None for a network error (urllib3's exception). *)
  Variable service : request -> option (list line).

  (** jpl_horizons.py:113-122: one month; returns the store, the files it created and the frame. *)
  Definition load_month (s : store) (year month : Z) (lon lat : R) : store * res (bool * frame) :=
    let fetch :=
      match txt s year month with
      | Some ls => (s, Ok (false, ls))
      | None =>
          match jpl_request (window_start year month) (window_stop year month) lon lat 12 with
          | Raise e => (s, Raise e)
          | Ok q =>
              match service q with
              | None => (send s q, Raise ValueError)
              | Some ls => (set_txt (send s q) year month (Some ls), Ok (true, ls))
              end
          end
      end in
    match fetch with
    | (s, Raise e) => (s, Raise e)
    | (s, Ok (created, ls)) =>
        (s, do f <- read_jpl_ephemeris_file ls; do f <- drop_column "julian_day" f; Ok (created, f))
    end.

  (** jpl_horizons.py:112-122: the loop over the months. *)
  Fixpoint load_months (s : store) (year : Z) (months : list Z) (lon lat : R) : store * res (list Z * list frame) :=
    match months with
    | [] => (s, Ok ([], []))
    | m :: ms =>
        match load_month s year m lon lat with
        | (s, Raise e) => (s, Raise e)
        | (s, Ok (created, f)) =>
            match load_months s year ms lon lat with
            | (s, Raise e) => (s, Raise e)
            | (s, Ok (cs, fs)) => (s, Ok (if created then m :: cs else cs, f :: fs))
            end
        end
    end.

  (** pd.concat of frames with equal columns, and the two inserted columns. *)
  Definition concat_frames (lon lat : R) (fs : list frame) : frame :=
    {| f_aware := forallb f_aware fs; f_index := flat_map f_index fs;
       f_columns := "site_lon"%string :: "site_lat"%string :: (match fs with [] => [] | f :: _ => f_columns f end);
       f_rows := map (fun r => lon :: lat :: r) (flat_map f_rows fs) |}.

  (** jpl_horizons.py:103-132 [load_jpl_ephemeris]. *)
  Definition load_jpl_ephemeris (s : store) (year : Z) (lon lat : R) : store * res frame :=
    match parquet s year with
    | Some f => (s, localize_frame f)
    | None =>
        match load_months s year [1; 2; 3; 4; 5; 6; 7; 8; 9; 10; 11; 12] lon lat with
        | (s, Raise e) => (s, Raise e)
        | (s, Ok (created, fs)) =>
            let f := concat_frames lon lat fs in
            let s := set_parquet s year f in
            let s := fold_left (fun s m => set_txt s year m None) created s in
            (s, localize_frame f)
        end
    end.
End Jpl.

(** ** _cli/benchmark.py *)

(** benchmark.py:128-131 [calc_error], azimuth column (degrees). *)
Definition azimuth_error (m o : R) : R :=
  let d := (m - o)%R in
  let d := if Rlt_dec (-330) d then d else (-360 - d)%R in
  if Rlt_dec d 330 then d else (360 - d)%R.

(** benchmark.py:542-546: the hemisphere letter index and the name of the file of downloaded data. *)
Definition bench_sign (x : R) : res Z :=
  if Req_EM_T x 0 then Raise ZeroDivisionError else Ok (Ztrunc (0.5 * (1 + x / Rabs x))).
Record bench_file := { b_year : Z; b_lat : Z; b_ns : Z; b_lon : Z; b_ew : Z }.
Definition bench_filename (year : Z) (lat lon : R) : res bench_file :=
  do ns <- bench_sign lat;
  do ew <- bench_sign lon;
  Ok {| b_year := year; b_lat := fixed 4 (Rabs lat); b_ns := ns; b_lon := fixed 4 (Rabs lon); b_ew := ew |}.
(** benchmark.py:550-552: its request. *)
Definition bench_request (year : Z) (lat lon : R) : res request :=
  jpl_request (86400 * date_to_days year 1 1) (86400 * date_to_days (year + 1) 1 1) lon lat 12.
