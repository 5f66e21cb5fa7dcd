(** * Scores: the error scores of _cli/benchmark.py

    A number is [Some r] (an exact real), a missing one (NaN) [None].  Not modelled: the layout of the resulting
    tables (order of rows and columns; pandas versions that drop a row of missing scores), plots, timings, and the external
    packages (pvlib, sg2, SPARTA), which only fill columns. *)

From Coq Require Import ZArith QArith Reals List Bool Arith Ascii String.
From Verif Require Import Num Arrays Libspa Time Core Usecases Cli Tools.
Import ListNotations.
Open Scope list_scope.
Open Scope R_scope.
Open Scope char_scope.
Open Scope string_scope.
Open Scope list_scope.

Definition cell := option R.
Definition column := list cell.
Definition lift1 (f : R -> R) (x : cell) : cell := option_map f x.
Definition lift2 (f : R -> R -> R) (x y : cell) : cell := match x, y with Some a, Some b => Some (f a b) | _, _ => None end.
Definition zip_with (f : cell -> cell -> cell) (a b : column) : column := map (fun '(x, y) => f x y) (combine a b).

Inductive variable := Zenith | Azimuth | Ecf.
(** The columns of one method; a table is the list of its methods (benchmark.py:35-39 [add_level], 561-566 the joins, whose
    indices are equal). *)
Definition columns := variable -> column.
Definition table := list (string * columns).
Fixpoint lookup {A} (name : string) (t : list (string * A)) : option A :=
  match t with [] => None | (n, a) :: t => if String.eqb name n then Some a else lookup name t end.

(** benchmark.py:127-132 [calc_error] with relative=False (the only use). *)
Definition calc_error (m o : columns) : columns := fun v =>
  match v with
  | Azimuth => zip_with (lift2 azimuth_error) (m v) (o v)
  | _ => zip_with (lift2 Rminus) (m v) (o v)
  end.
(** benchmark.py:125-141 [calc_residues]: every method but the reference; dropping an absent reference is a KeyError. *)
Definition calc_residues (data : table) (reference : string) : res table :=
  match lookup reference data with
  | None => Raise KeyError
  | Some o => Ok (map (fun '(n, m) => (n, calc_error m o)) (filter (fun '(n, _) => negb (String.eqb n reference)) data))
  end.

(** pandas' reductions: missing values are skipped. *)
Definition present (c : column) : list R := flat_map (fun x => match x with Some r => [r] | None => [] end) c.
Fixpoint total (l : list R) : R := match l with [] => 0 | x :: l => x + total l end.
Definition count (l : list R) : R := INR (List.length l).
(** [Series.mean()] *)
Definition c_mean (c : column) : cell := match present c with [] => None | l => Some (total l / count l) end.
(** [Series.std()]: ddof = 1, missing for fewer than two values. *)
Definition c_std (c : column) : cell :=
  match present c with
  | [] | [_] => None
  | l => let m := total l / count l in Some (sqrt (total (map (fun x => (x - m) ^ 2) l) / (count l - 1)))
  end.
(** Sorting, for [Series.quantile]. *)
Fixpoint insert (x : R) (l : list R) : list R :=
  match l with [] => [x] | y :: l' => if Rle_dec x y then x :: l else y :: insert x l' end.
Fixpoint sort (l : list R) : list R := match l with [] => [] | x :: l => insert x (sort l) end.
(** [Series.quantile(a/100)] with the default linear interpolation: at (n-1)*a/100 along the sorted values. *)
Definition c_quantile (a : nat) (c : column) : cell :=
  match sort (present c) with
  | [] => None
  | l => let n1 := (List.length l - 1)%nat in
         let i := ((a * n1) / 100)%nat in
         let lo := nth i l 0 in
         let hi := nth (Nat.min (S i) n1) l 0 in
         Some (lo + (hi - lo) * (INR ((a * n1) mod 100) / 100))
  end.

Record scores := { mbe : cell; std : cell; mae : cell; rmse : cell; p66 : cell; p90 : cell }.
(** benchmark.py:154-163 (and 211-220): the six scores of one column of residuals. *)
Definition score (r : column) : scores :=
  let dev := map (fun x => lift1 Rabs (lift2 Rminus x (c_mean r))) r in
  {| mbe := c_mean r;
     std := c_std r;
     mae := c_mean (map (lift1 Rabs) r);
     rmse := lift1 sqrt (c_mean (map (lift1 (fun x => x ^ 2)) r));
     p66 := c_quantile 66 dev;
     p90 := c_quantile 90 dev |}.

(** [frame.loc[cond]]: the rows whose flag is set. *)
Definition loc (keep : list bool) (c : column) : column := map snd (filter fst (combine keep c)).
(** [series < x]: missing is not less. *)
Definition less (x : R) (c : cell) : bool := match c with Some r => if Rlt_dec r x then true else false | None => false end.

(** benchmark.py:144-181 [get_bulk_ephemeris_errors]. *)
Definition get_bulk_ephemeris_errors (eph : table) : res (list (variable * string * scores)) :=
  do residue <- calc_residues eph "jpl";
  match lookup "jpl" eph with
  | None => Raise KeyError
  | Some jpl =>
      let keep := map (less 180) (jpl Zenith) in
      Ok (flat_map (fun v => map (fun '(n, r) => (v, n, score (loc keep (r v)))) residue) [Zenith; Ecf; Azimuth])
  end.
(** benchmark.py:578-580: arc-seconds, and thousandths of the eccentricity factor. *)
Definition scale (v : variable) : R := match v with Ecf => 1000 | _ => 3600 end.
Definition rescale (v : variable) (s : scores) : scores :=
  let f := lift1 (fun x => x * scale v) in
  {| mbe := f (mbe s); std := f (std s); mae := f (mae s); rmse := f (rmse s); p66 := f (p66 s); p90 := f (p90 s) |}.
Definition printed_ephemeris_errors (eph : table) : res (list (variable * string * scores)) :=
  do l <- get_bulk_ephemeris_errors eph; Ok (map (fun '(v, n, s) => (v, n, rescale v s)) l).

(** ** Clear-sky irradiance *)
Inductive irradiance := Ghi | Dni | Dif.
Section ClearSky.
  (** SPARTA with a fixed atmosphere: the irradiances of a row, from its cosine of zenith and eccentricity factor. *)
  Variable sparta : cell -> cell -> irradiance -> cell.
  (** benchmark.py:185-192 [required_methods_mapping]. *)
  Definition required_methods_mapping : list (string * string) :=
    [("sunwhere.nrel_numexpr", "nrel"); ("sunwhere.psa_numexpr", "psa"); ("sunwhere.iqbal_numexpr", "iqbal");
     ("sunwhere.soltrack_numexpr", "soltrack"); ("sg2.sg2_c++", "sg2"); ("jpl", "jpl")]%string.
  (** benchmark.py:116-122 [add_clearsky_irradiance], one method's rows. *)
  Definition clearsky (m : columns) (i : irradiance) : column :=
    map (fun '(z, e) => sparta (lift1 (fun z => cos (z * (PI / 180))) z) e i) (combine (m Zenith) (m Ecf)).
  (** benchmark.py:184-241 [get_bulk_clearsky_errors]. *)
  Definition get_bulk_clearsky_errors (eph : table) : res (list (irradiance * string * scores)) :=
    match lookup "jpl" eph with
    | None => Raise KeyError
    | Some jpl =>
        let keep := map (less 90) (jpl Zenith) in
        let day (m : columns) : columns := fun v => loc keep (m v) in
        let selected := flat_map (fun '(n, m) => match lookup n required_methods_mapping with Some s => [(s, day m)] | None => [] end) eph in
        let rated := filter (fun '(n, _) => existsb (String.eqb n) ["nrel"; "psa"; "soltrack"; "iqbal"; "sg2"]%string) selected in
        Ok (flat_map (fun i => map (fun '(n, m) => (i, n, score (zip_with (lift2 Rminus) (clearsky m i) (clearsky (day jpl) i)))) rated)
                     [Ghi; Dni; Dif])
    end.
End ClearSky.

(** ** sunwhere's columns *)
Section Sunwhere.
  Context {F : Type} {O : Ops F}.
  Variable numexpr_available : bool.
  (** [method.split('_')] *)
  Fixpoint split_at (sep : Ascii.ascii) (s : string) : list string :=
    match s with
    | EmptyString => [EmptyString]
    | String c s' => if Ascii.eqb c sep then EmptyString :: split_at sep s'
                     else match split_at sep s' with [] => [String c EmptyString] | w :: ws => String c w :: ws end
    end.
  Record sites_kwargs := { kw_algorithm : option string; kw_engine : option string; kw_refraction : option refr_flag }.
  Definition setdefault {A} (x : option A) (d : A) : A := match x with Some a => a | None => d end.
  Definition default_methods : list string :=
    ["nrel_numexpr"; "soltrack_numexpr"; "soltrack_numpy"; "psa_numexpr"; "psa_numpy"; "iqbal_numexpr"; "iqbal_numpy"]%string.
  (** benchmark.py:63-78: the object whose zenith, azimuth and ecf fill the columns of [method]; more or fewer than one
      underscore is a ValueError of the unpacking. *)
  Definition get_ephemeris (times : times_arg) (lat lon : arg F) (kw : sites_kwargs) (method : string) : res (Sunpos F) :=
    match split_at "_"%char method with
    | [algorithm; engine] =>
        sites numexpr_available times lat lon (setdefault (kw_algorithm kw) algorithm)
              (setdefault (kw_refraction kw) RFalse) (setdefault (kw_engine kw) engine)
    | _ => Raise ValueError
    end.
  Fixpoint mapM {A B} (f : A -> res B) (l : list A) : res (list B) :=
    match l with [] => Ok [] | x :: l => do y <- f x; do ys <- mapM f l; Ok (y :: ys) end.
  (** benchmark.py:58-82 [sunwhere_ephemeris]: the objects by label; [methods or default_methods]. *)
  Definition sunwhere_ephemeris (times : times_arg) (lat lon : arg F) (methods : option (list string)) (kw : sites_kwargs)
    : res (list (string * Sunpos F)) :=
    let methods := match methods with Some (m :: ms) => m :: ms | _ => default_methods end in
    do objs <- mapM (get_ephemeris times lat lon kw) methods;
    Ok (combine (map (fun m => ("sunwhere." ++ m)%string) methods) objs).
End Sunwhere.

(** benchmark.py:524-530, [reformat] of print_bulk_errors with reformat_name=True: the printed name of a row;
    str.upper for ASCII. *)
Definition upper1 (c : ascii) : ascii :=
  let n := nat_of_ascii c in if ((97 <=? n) && (n <=? 122))%nat then ascii_of_nat (n - 32) else c.
Fixpoint upper (s : string) : string := match s with EmptyString => EmptyString | String c s => String (upper1 c) (upper s) end.
Definition reformat (name : string) : res string :=
  match split_at "."%char name with
  | [package; method] =>
      if existsb (Ascii.eqb "_"%char) (list_ascii_of_string method) then
        match split_at "_"%char method with
        | [spa; engine] => Ok (package ++ "'s " ++ upper spa ++ " (" ++ engine ++ ")")%string
        | _ => Raise ValueError
        end
      else Ok (package ++ "'s " ++ upper method)%string
  | _ => Raise ValueError
  end.
(** benchmark.py:42-44, 80-81, 561-566: the names of the rated columns of a run. *)
Definition rated_names : list string :=
  map (fun m => ("pvlib." ++ m)%string) ["nrel_numba"; "nrel_numpy"; "ephemeris"; "pyephem"]%string ++ ["sg2.sg2_c++"%string]
  ++ map (fun m => ("sunwhere." ++ m)%string) default_methods.
