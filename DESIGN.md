# sunwhere: design of the Rocq model and of the proofs

Source: /repo (jararias/sunwhere, pinned commit), read as text only; paths below are relative to
/repo/src/sunwhere. Model and proofs: `rocq/theories`. Properties: `properties.jsonl`. Status per property:
`MANIFEST.json` (generated by `tools/manifest.py` from `tools/claims.py`). Assumptions per theorem:
`ASSUMPTIONS.md` (generated by `tools/assumptions.py`). Wrong programs tried: `seeded/` (`mutants.py`, `run.py`,
`LOG.jsonl`).

## 1. How the code is modelled

* **Arithmetic is an interface.** The numerical code is NumPy/NumExpr. The model is written against the class
  `Ops F` (Num.v): one field per elementary operation the code uses, over an arbitrary carrier `F`.
  * Pipeline properties (shapes, independence, NaT, validation, dispatch, time zones, dims, option strings, curves of
    the chart, ...) are proved **for every `F` and every `Ops F`**, hence for IEEE-754 binary64 with any libm.
  * Value properties (ranges, geometry, bounds, engine and almanac agreement) are proved for the instance `ExtOps E`
    (Ext.v): real numbers extended with NaN and the two infinities, i.e. **float64 is exact real arithmetic with
    IEEE's special values**. `E : Env` holds an arbitrary rounding function for the *float32* steps of the code and an
    arbitrary modulo for numexpr's `%` (anything congruent to x and smaller than y in magnitude: C's fmod and the
    floored modulo qualify). Three kinds of statements about float32 occur: for every `rnd`; for `float32_accurate`
    rounding (proved of IEEE binary32, Float32.v); for exact float32 operations (`ideal`, `exact_for`).
  * C69, C72-C77 repeat the main value properties for `DoubleOps D` (Double.v), where **every float64 and float32 operation
    rounds** and the functions of the C library have errors: `double_like D` lists what is assumed of them (relative
    error 2^-53 of the operations, monotone, exact on integers below 2^53; sin, cos, ... within 2^-50 (absolute) and
    2^-48 (pow), float32 functions within 2^-23); binary64/binary32 round-to-nearest with correctly rounded functions
    satisfies it (Float64.v, `float64_like`).
* **Exceptions are values**: `res A := Ok a | Raise e`; sequencing is `do x <- e; k`. The order of checks is the code's.
* **Arrays**: `ndarray` = shape + row-major data. The broadcast expressions of the libspa modules are modelled by one
  *cell function* per `_sunpos_*d` function (what it computes for one cell; one per engine and per ndim, since the
  code has one function per ndim); `sunpos`, `evaluate`, `sites`, ... are list functions that place cells. xarray
  results are `darray`: a list of dimension names and a function from indices (Sunpos.v).
* **Times** are integer ns (Z). Aware inputs are wall-clock readings with UTC offsets and a `tzinfo`, of the three
  kinds the constructor distinguishes (pytz named, pytz fixed offset, no `.zone` attribute: zoneinfo and
  datetime.timezone, the default of pandas>=3, which pyproject.toml requires). Zones are arbitrary functions from
  instants to offsets (with the finite list of their offsets): nothing is assumed about DST rules.

| files | model of |
|---|---|
| Num.v | arithmetic interface, constants, exceptions |
| Calendar.v | datetime64 casts (NumPy's C algorithms) used by `libspa/*_iqbal.py` |
| Psa.v, Soltrack.v, Iqbal.v, Nrel.v, NrelTables.v | `libspa/{py,ne}_{psa,soltrack,iqbal}.py`, `libspa/ne_nrel.py`: every function, both engines, all three ndim (tables generated from the source text by `tools/gen_nrel_tables.py`) |
| Arrays.v, Libspa.v | NumPy array fragment; the `sunpos` entry points |
| Time.v, Core.v | `utils/validate.py`, `_core.py`, the pandas conversions used by `_base.py` incl. `tz_localize(ambiguous='infer')` |
| Usecases.v | `usecases.py`, constructor of `_base.py:Sunpos` |
| Sunpos.v | properties and methods of `_base.py:Sunpos` |
| Labels.v | the same accessors over arrays with coordinate labels, and xarray's alignment by labels |
| Alias.v | which arrays share memory with a result; histories of accessor calls and in-place writes |
| Places.v | the coordinates latitude and longitude (without index) of the arrays of sites and transect |
| Cli.v | `_cli/main.py`, `_cli/position.py` |
| Tools.v | `utils/datetime.py`, `utils/jpl_horizons.py`, `_cli/benchmark.py` (residual, cache name, request) |
| Scores.v | `_cli/benchmark.py`: residuals, scores, clear-sky table, sunwhere's columns, names |
| Chart.v | `_cli/solar_chart.py`: which curves, of which instants, with which labels |

Specifications, independent of the code: Spec.v (calls, cells, zones), Sky.v + AstroSpec.v (sun direction, zenith,
azimuth, tolerances), CalendarSpec.v (Gregorian calendar), Almanac.v (Meeus' low-precision ephemeris), SunposSpec.v
(documented quantities of the container). `Prop*.v` hold the property theorems, each followed by an `Example` showing that a concrete
call meets the hypotheses (Witness.v: times incl. NaT and pre-1970 sub-seconds, a pole, NaN and both ends of the
longitude range). All other files are lemmas: `*Lemmas*.v` (pipeline), `*R.v` and `*Cell.v` (the real-number meaning of each
module), `Astro*.v` (the seven modules uniformly), `Almanac*.v` (comparison with the almanac), `CalendarSweep.v`
(algebraic proof that NumPy's day-to-date conversion is the Gregorian calendar for every day), `TimeFold.v` (repeated hours),
`EngineLemmas.v`, `ExactLaws.v`, `NanCells.v`, `Float32.v`, `Refraction.v`, `SkyClose.v`.

## 2. Trusted base

* Coq 8.16.1's kernel, including its `vm_compute` and primitive integers and floats (used by the Interval tactic's
  reflexive proofs).
* What `Print Assumptions` lists, per theorem, in `ASSUMPTIONS.md`. Four groups: closed; the classical reals of the
  standard library (`ClassicalDedekindReals.sig_forall_dec`, `sig_not_dec`, `functional_extensionality_dep`); the same with
  `Classical_Prop.classic`; and, where the Interval tactic was used, also the primitive `PrimInt63`/`PrimFloat` operations and the
  standard library's specification axioms of them (`Uint63.*`, `FloatAxioms.*`). No axiom is added here, none comes from another library.
  (`vcheck` lists under `library_axioms` names of mathcomp's opaque module signatures that are in the loaded libraries; they are
  lemmas there, and no theorem's `Print Assumptions` shows one.)
* The reading of the code, and of NumPy / NumExpr / pandas / xarray behaviour, recorded in the comments:
  * every elementwise operation depends on its operands only (not on position, array shape or memory layout; `np.sum`
    over one axis depends on the summands in order only); NEP 50 promotion (numpy>=2);
  * a float32 product of float32 operands is the rounded exact product; float32 never overflows on the values that occur
    (angles and coordinates), so `r32` (Float32.v) has no overflow;
  * int64 arithmetic on times does not overflow: value theorems ask for instants in the datetime64[ns] range
    (`representable`), generic ones do not mention it; how pandas reacts to times outside that range is not modelled;
  * casting NaT to float gives some number `nat_float`, left arbitrary;
  * in Ext.v there is one zero, a division by zero is NaN, `tan` is infinite at its poles; where these choices
    could matter the theorems prove the results are finite reals or exclude the case;
  * pandas' `tz_localize(ambiguous='infer')`: each maximal run of ambiguous readings must have exactly one place
    where the readings do not increase; with `'raise'` any ambiguous or missing reading raises;
  * Python's `float(text)` is an arbitrary function; `strftime` of NaT and formatting NaN in the CLI's table raise
    (unreachable except in polar day/night, where C57 uses it for NaT);
  * JPL: the parser of one data line, the HTTP service and the parquet writer are arbitrary functions.
* In the double-precision theorems (`DoubleOps`) the result of +, -, *, /, sqrt, exp, powers, sums and the degree/radian conversions overflows
  to an infinity from 2^1024 on (`fin64`); the theorems prove it does not happen (results are numbers), or cope with it (tan(pole) products).
  float32, literals, sin, cos, tan, asin, acos, atan and log do not overflow there (arguments and results are far below 2^1024).
* Not modelled: rounding and overflow of binary64 except in C69, C72-C98 (C78-C85, C88: the theorems named _double; the other value theorems are exact-real statements; generic theorems cover floats); logging
  and warnings, attrs/names of DataArrays (the index-free coordinates latitude/longitude are in Places.v; xarray's alignment by coordinate
  *labels* is modelled in Labels.v, with an arbitrary outcome for differing labels; C99 shows that Sunpos.v may ignore it), matplotlib in `solar_chart.py` and `benchmark.py`, the external
  packages compared in `benchmark.py`, click/rich/loguru, `__init__` re-exports, package metadata.

## 3. Per property: model and proof

Properties that are false of the code are *refuted* by a theorem (for all inputs of a class, or by a concrete reachable call) and the
largest true part found is proved beside it (`_partial`).

| id | plan |
|---|---|
| C01 | generic; from any `Ok` of the three use cases compute the shapes and data lengths; no `AssertionError` is ever returned. |
| C02-C05 | generic; pointwise characterisation of the outputs through the cell functions (PipelineLemmas, UsecaseLemmas); equality of cells of different ndim needs the ndim variants to be the same function; where they are not: the arithmetic law under which they agree, its proof for ExtOps, and refutation for binary32 (C04, iqbal/numexpr). |
| C06 | generic; scatter/select lemmas. |
| C07 | validation generic; NaN propagation for ExtOps (NanCells). |
| C08, C09 | generic iff on coordinates, real form for ExtOps; C09 refuted by 180.0. |
| C10, C11 | generic case analysis, also of `evaluate` itself. |
| C12, C13 | generic; through `to_utc` and `floor_s`. |
| C14, C15 | generic; positive theorems for the zones and readings where it holds (TimeFold for repeated hours); refuted for zoneinfo zones, pytz fixed offsets, single ambiguous readings, increasing and decreasing runs. |
| C16, C17 | generic; C17 refuted for truthy flags other than True. |
| C18-C23, C54 | ExtOps: real meaning of each cell function, atan2 geometry against Sky's east-north-up vector, monotonicity of parallax, range of refraction. Restrictions on float32 rounding are in `exact_for`/`range_ok_for`. |
| C24-C26 | ExtOps + Interval: bounds of the series over the ns range, every float32 rounding. |
| C27 | ExtOps: returned declination and eot are those of one ecliptic point and one mean longitude. |
| C28, C29 | ExtOps with exact float32; C29's zenith refuted overhead and at the horizon (rounding of cos to 6 decimals, clipping). |
| C30, C31 | Z and ExtOps: calendar by algebra (ytd_spec, civil_spec) against CalendarSpec; local apparent time. |
| C32-C44 | Sunpos.v: cellwise values for ExtOps, calculus for monotonicity (C39), vector algebra (C43). |
| C45 | dims computed generically; refuted for incidence. |
| C46 | refuted: attribute of a dict. |
| C47-C49, C56-C59 | Cli.v: exact decision rules and the printed report; refuted where wrong. |
| C50-C52, C60, C61 | Tools.v: month windows by CalendarSpec; histories of calls by induction over a store. |
| C53 | ExtOps + Interval. |
| C55 | each algorithm within stated tolerances of Almanac.v for every second 1677-2262 (Interval, Lipschitz arguments), hence of each other; positions by a chord-length argument (AlmanacPos). |
| C62-C67 | Chart.v: curves as lists of instants and positions; C63, C64, C66, C67 refuted by zones/dates, right parts proved. |
| C68 | SingleSpec.v states it; every rounding step of z_cell/azimuth bounded (SingleLemmas, SingleCell), IEEE binary32 shown float32_like in Float32L. Gives C20 for all pairs and the float32 version of C04/C28/C29; PropSinglePos.v: C23 and C55 in IEEE float32; SingleRefute.v: C18 fails overhead in IEEE float32 (iqbal, soltrack/numpy). |
| C69 | Double.v: `DoubleOps D` rounds after every operation; `double_like D` states what is assumed of the arithmetic and the C library, proved of binary64/binary32 round-to-nearest in Float64.v. *D.v bound the error of each time step by forward error analysis with explicit margins (DoubleTac, DoubleLemmas), DoubleCore/DoubleCell/DoublePos the cells; PropDouble.v, PropDoublePos.v conclude. Not covered: overflow (impossible in these ranges but not part of the model), nrel (C72), the zenith with refraction (C73). |
| C70, C71 | Scores.v: the residuals, the six scores, the filters, the irradiance table and sunwhere's columns of `benchmark.py`, over tables of `option R` (missing = None). PropScores.v: list algebra (variance identity, Cauchy-Schwarz), sorted-list quantiles, per-row residuals; C71 from C08's acceptance theorem. pandas' reductions are read as documented: missing values skipped, `std` with ddof 1, linear `quantile`. |
| C72 | TopoSpec.v states the topocentric sun; NrelD.v bounds the rounding error of every time step of nrel (series evaluated term by term), NrelCellD.v that of the cell, NrelPos.v assembles them, TopoDist.v compares topocentric directions with each other and with the geocentric one; PropNrelD.v concludes. |
| C73 | RefrSpec.v states the published corrections as real functions of the elevation. RefrD.v shows that the cell with refraction is the cell without it followed by a correction, and bounds the rounding error of that correction: a relative bound for the tangent (which may be next to its pole, at the zenith), then its quotient. PropRefrD.v concludes for the API. |
| C74, C75 | SunposD.v: forward error analysis of the accessors (degrees, cosine, eth, air mass, the three corrections) over `DoubleOps D`; exp, ln and powers with real exponents are assumed accurate to 2^-50 and 2^-48 relative (`dl_exp`, `dl_ln`, `dl_powf`). PropSunposD.v concludes for the API. |
| C76, C77 | SunposE.v: the product of the tangents against the height of the sun (multiplied by the cosines, so that the poles need no exception), the arc cosine, and the times in ns with their truncations. The refutation of nanosecond accuracy computes two roundings in binary64. |
| C78, C79 | SmoothR.v, SmoothN.v (rates of the ecliptic elements and of the sidereal angle of psa, soltrack and nrel, from the derivatives of their series term by term), SmoothE.v (reduction to the equator), SmoothI.v (iqbal's Fourier series and the calendar), SmoothPos.v (a direction is a composition of rotations of a unit vector, each of which moves it by at most its angle; parallax). PropSmooth.v states the rates for pairs of calls, PropSmoothD.v the motion in double precision (each returned direction is close to that of an exact evaluation of the same instant and place). |
| C80, C81 | DayR.v (an instant lies between sunrise and sunset iff the hour angle of its true solar time is within the half-day, reals and integers only; hour angles at the two crossings), PropDay.v (the returned zenith is that of the returned declination and equation of time; the two instants from C40/C76 and C42/C77; sign of the sun's height from C37/C76; the second call via the rates of C79). Tolerance 0.05 degrees: parallax, whole seconds, psa's six decimals, iqbal's and soltrack's float32 coordinates. |
| C82, C83, C84 | SeasonSpec.v (the table), SeasonR.v (generated by tools/gen_season.py: interval bounds of the almanac of C55 over each month's mean longitudes and six centuries, and of iqbal's series), PropSeasons.v (mean longitude at the start of each year 1677-2262 by computation with exact integers, months from the calendar axioms, tolerances of C55; then sunrise via C37/C40/C76 and heights via PropDay). |
| C85 | PropClimb.v: height of the sun as a function of true solar time; the gain of cos H over half an hour outweighs the change of declination (C79) and the tolerances (C55/C69/C72) |
| C86 | PropNoon.v: the south and west components of the direction given by C69/C72 at the hour angle of the returned true solar time (C77); plane trigonometry |
| C87 | PropTrack.v: distance of the returned direction from that of the returned declination at the hour angle of the returned true solar time; scalar products with the normal differ by no more. |
| C88 | AirmassR.v, PropAirmass.v: derivative of the slant path, mean value theorem, grid bounds of its second term (monotone) for the agreement of the models; binary64 through C75. |
| C89 | AirmassR.v, PropAirmass.v: cos z times each correction is non-increasing; near the horizon, where gonzalez_and_calbo_1999 rises, cos z falls faster; binary64 through C74. |
| C90 | PropRefrOrder.v: derivative of elevation + correction is positive for the three Saemundsson variants and for Rigollier's; at the switch the correction only raises the higher sun; binary64 through C73. |
| C91 | PropEarth.v: off_track (spec) gives equal hour angles up to whole turns and the equation of time; heights and directions from C69/C72 (height64, direction64), season from C79's rates. |
| C92 | PropEarth.v: sun_U(-phi, d, h + pi) = - sun_U(phi, d, h); at phi = +-90 the height is +-sin d, inverted on 23.61 degrees. |
| C93 | PropTurn.v: cross product of the two horizontal directions, 2 cos d sin(D/2) (sin phi cos d cos(D/2) - cos phi sin d cos m), is positive for phi >= 30 degrees; computed azimuths are within azimuth64's tolerance of those directions (C69, C72), the season moves at C79's rates. |
| C94 | PropRepeat.v: the almanac's mean longitude, anomaly, obliquity and distance change by at most 0.00054 rad, 0.00067 rad, 0.00001 rad, 0.00004 (1/R^2) in 1461 days modulo turns, so elements near it afterwards are near it before (C27's elements); binary64 through twin64; iqbal: the calendar fields used are those of the day of the year and time of day (C30), so lib_time is the same value. |
| C95 | PropRise.v: C76's instants of sunrise and sunset against the midnight of the true solar day; the half day has cos w between -0.7581 and 0.7581 (latitudes within 60 degrees, declinations within 23.62), so it changes by at most 3.36 times the declination, which C79 bounds with the elapsed time, as it does the equation of time. Same evaluation: the same declination and latitude give the same rounded sunrise angle. |
| C96 | PropDial.v: the true solar time is the hour angle to 7.3e-5 rad (C77, whole seconds); hor phi d (-h) is the mirror image of hor phi d h; height64 and direction64 at the two hour angles; C79 for the declinations. |
| C97 | PropDays.v: C77 (true solar time = UTC + longitude + equation of time to microseconds) for both requests, C79 for the equations of time. |
| C98 | PropDays.v: C95 with equal longitudes, the elapsed time bounded through the true solar times (C77); half a day is 40 to 140 degrees of hour angle because cos h = tan-tan bound at 60 degrees. |
| C99 | Labels.v: the accessors over arrays with indexes, each binary operation aligning its operands; PropLabels.v: by induction over the expression, operands always bear equal labels, so alignment is the identity and the elements are those of Sunpos.v. |
| C100 | PropLabels.v: every accessor is a function of the stored numbers, coordinates and times of its own cell (unfolding of da_map/da_map2); C02/C03 for the stored numbers, C14 for the times. |
| C101 | PropLabels.v: the labels are the arguments (C99), hence C100 with the single call; the Berlin series of C15. |
| C102 | Alias.v: histories of accessor calls and in-place writes over a heap of buffers; PropAlias.v: invariant (the container's buffers are intact; answers lie in fresh buffers or in one of the four shared ones), by induction over the history. False without the proviso: refuted on a concrete call, and the effect of such a write stated for every call and accessor. |
| C103 | Places.v: the coordinates of each accessor's expression, xarray's merge; PropPlaces.v: both operands bear the same or none, whatever reflexive comparison xarray uses. False for sites' accessors not computed from zenith or azimuth: refuted for every call. |
