{
 "claims": [
  {
   "property": "C01",
   "status": "proved",
   "theorems": [
    "C01_shapes",
    "C01_no_assertion"
   ],
   "note": "For every arithmetic."
  },
  {
   "property": "C02",
   "status": "proved",
   "theorems": [
    "C02_independence",
    "C02_single_call"
   ],
   "note": "For every arithmetic and all three use cases."
  },
  {
   "property": "C03",
   "status": "proved",
   "theorems": [
    "C03_grid_eq_sites",
    "C03_grid_is_sites"
   ],
   "note": "C03_grid_is_sites: exact float64, every float32 rounding. C03_grid_eq_sites: every arithmetic, the azimuth of soltrack/numexpr then needs tan = sin/cos at the computed declination."
  },
  {
   "property": "C04",
   "status": "partial",
   "theorems": [
    "C04_transect_eq_sites",
    "C04_transect_is_sites_partial",
    "C04_iqbal_numexpr_refuted",
    "C68_agreement"
   ],
   "note": "True for every float32 rounding except iqbal/numexpr, where IEEE float32 makes transect and sites differ (longitude/15 is computed in float64 by one and float32 by the other); C68_agreement bounds that difference."
  },
  {
   "property": "C05",
   "status": "proved",
   "theorems": [
    "C05_pick",
    "C05_concat"
   ],
   "note": "For every arithmetic."
  },
  {
   "property": "C06",
   "status": "proved",
   "theorems": [
    "C06_nat_rows",
    "C06_nat_others"
   ],
   "note": "For every arithmetic."
  },
  {
   "property": "C07",
   "status": "proved",
   "theorems": [
    "C07_nan_cells",
    "C07_nan_local"
   ],
   "note": ""
  },
  {
   "property": "C08",
   "status": "proved",
   "theorems": [
    "C08_real_form",
    "C08_accept",
    "C08_reject",
    "C08_never_evaluated"
   ],
   "note": "C08_real_form in degrees; the others for every arithmetic."
  },
  {
   "property": "C09",
   "status": "partial",
   "theorems": [
    "C09_longitude_180_refuted",
    "C09_other_longitudes_partial"
   ],
   "note": "False of the code for exactly 180 degrees; true of every other documented longitude."
  },
  {
   "property": "C10",
   "status": "proved",
   "theorems": [
    "C10_mismatch",
    "C10_multi",
    "C10_multi_times",
    "C10_good_shapes_accepted",
    "C10_evaluate"
   ],
   "note": "A >=2-dim times array raises TypeError (from pandas), the rest ValueError."
  },
  {
   "property": "C11",
   "status": "proved",
   "theorems": [
    "C11_unsupported_evaluate",
    "C11_unsupported_call",
    "C11_dispatch",
    "C11_unique",
    "C10_evaluate"
   ],
   "note": ""
  },
  {
   "property": "C12",
   "status": "proved",
   "theorems": [
    "C12_seconds"
   ],
   "note": ""
  },
  {
   "property": "C13",
   "status": "proved",
   "theorems": [
    "C13_same_instants"
   ],
   "note": ""
  },
  {
   "property": "C14",
   "status": "partial",
   "theorems": [
    "C14_times_utc_partial",
    "C14_times_utc_refuted",
    "C14_fixed_offset_refuted",
    "C14_decreasing_refuted"
   ],
   "note": "False of the code for zoneinfo zones (offset dropped) and pytz.FixedOffset (TypeError); proved for the remaining kinds."
  },
  {
   "property": "C15",
   "status": "partial",
   "theorems": [
    "C15_fold_partial",
    "C15_fold_refuted",
    "C15_increasing_refuted"
   ],
   "note": "False of the code: a single instant in a repeated hour raises AmbiguousTimeError (C15_fold_refuted), so does an increasing index (C15_increasing_refuted); proved under the conditions of C15_fold_partial."
  },
  {
   "property": "C16",
   "status": "proved",
   "theorems": [
    "C16_refraction_only_zenith"
   ],
   "note": ""
  },
  {
   "property": "C17",
   "status": "partial",
   "theorems": [
    "C17_has_refraction_partial",
    "C17_has_refraction_refuted"
   ],
   "note": "True for booleans, false for other truthy flags."
  },
  {
   "property": "C18",
   "status": "partial",
   "theorems": [
    "C18_zenith_range_partial",
    "C18_float32_partial",
    "C18_overhead_refuted"
   ],
   "note": "Every float32 rounding for psa/numexpr, soltrack/numexpr, nrel; accurate rounding (IEEE binary32 is) for psa/numpy; exact float32 operations only for soltrack/numpy and iqbal, where a single-precision zenith is NaN for some overhead suns (C18_overhead_refuted: latitude 4, 2021-03-30; C18_float32_partial: nowhere else)."
  },
  {
   "property": "C19",
   "status": "partial",
   "theorems": [
    "C19_refracted_range_partial",
    "C19_soltrack_iqbal_partial",
    "C19_soltrack_refuted",
    "C19_iqbal_refuted"
   ],
   "note": "True of psa and nrel; false of soltrack (unbounded below the horizon) and of iqbal (negative overhead)."
  },
  {
   "property": "C20",
   "status": "proved",
   "theorems": [
    "C20_azimuth_range",
    "C20_azimuth_range_partial"
   ],
   "note": "Every float32 arithmetic with IEEE-like rounding (float32_like, proved of binary32), all pairs."
  },
  {
   "property": "C21",
   "status": "proved",
   "theorems": [
    "C21_position_geometric",
    "C68_single_precision"
   ],
   "note": "exact_for: every rounding for nrel and the numexpr psa/soltrack, exact float32 operations otherwise; in IEEE float32 within the tolerance of C68_single_precision."
  },
  {
   "property": "C22",
   "status": "proved",
   "theorems": [
    "C22_azimuth_geometric",
    "C68_single_precision"
   ],
   "note": "As C21."
  },
  {
   "property": "C23",
   "status": "proved",
   "theorems": [
    "C23_morning_afternoon",
    "C23_single_precision"
   ],
   "note": "As C21; hour angle within hour_tol (at most 0.021 degrees) of a multiple of 180 degrees excluded; C23_single_precision: the same in IEEE float32."
  },
  {
   "property": "C24",
   "status": "proved",
   "theorems": [
    "C24_declination_bound"
   ],
   "note": "For every float32 rounding."
  },
  {
   "property": "C25",
   "status": "proved",
   "theorems": [
    "C25_ecf_bound"
   ],
   "note": "For every float32 rounding."
  },
  {
   "property": "C26",
   "status": "proved",
   "theorems": [
    "C26_eot_bound"
   ],
   "note": "For every float32 rounding."
  },
  {
   "property": "C28",
   "status": "proved",
   "theorems": [
    "C28_engines_time",
    "C28_engines_agree",
    "C68_agreement"
   ],
   "note": "Exact float32 operations, as stated; C68_agreement bounds the difference in IEEE float32 (the location-independent outputs for every float32 rounding)."
  },
  {
   "property": "C29",
   "status": "partial",
   "theorems": [
    "C29_psa_engines_partial",
    "C29_overhead_refuted",
    "C29_horizon_refuted",
    "C68_agreement"
   ],
   "note": "Azimuth, declination, ecf, eot and cos(zenith) as claimed; the zenith agrees within 0.002 degrees from 2 to 178 degrees and is refuted overhead and (with refraction) at the horizon."
  },
  {
   "property": "C53",
   "status": "proved",
   "theorems": [
    "C53_refraction_size",
    "C53_refraction_size_others"
   ],
   "note": ""
  },
  {
   "property": "C54",
   "status": "proved",
   "theorems": [
    "C21_position_geometric"
   ],
   "note": "hour_tol: 0.021 degrees for psa, 0.0012 for soltrack and nrel, 0 for iqbal."
  },
  {
   "property": "C32",
   "status": "partial",
   "theorems": [
    "C32_elevation_cosz",
    "C32_ranges_partial"
   ],
   "note": "The relations hold for every call; the documented ranges without refraction (C19 refutes them for soltrack and iqbal with refraction)."
  },
  {
   "property": "C33",
   "status": "proved",
   "theorems": [
    "C33_eth"
   ],
   "note": ""
  },
  {
   "property": "C34",
   "status": "partial",
   "theorems": [
    "C34_corrected_eth",
    "C34_night"
   ],
   "note": "Sun up: as claimed. At night: zero for skarveith_1998, NaN (refuted) for perez_1990 and gonzalez_and_calbo_1999."
  },
  {
   "property": "C35",
   "status": "proved",
   "theorems": [
    "C35_airmass",
    "C35_negative_zenith_refuted"
   ],
   "note": "For zenith angles in [0,180]; the negative zeniths iqbal returns with refraction have no Gueymard air mass."
  },
  {
   "property": "C36",
   "status": "partial",
   "theorems": [
    "C36_airmass_options",
    "C36_eth_options",
    "C36_sunrise_options_refuted"
   ],
   "note": "sunrise and sunset raise AssertionError instead of ValueError."
  },
  {
   "property": "C37",
   "status": "proved",
   "theorems": [
    "C37_sunrise_exists",
    "C37_midlatitudes"
   ],
   "note": "Excluding the poles at declination exactly 0, where the sun is on the horizon all day."
  },
  {
   "property": "C38",
   "status": "proved",
   "theorems": [
    "C38_sunrise_horizon"
   ],
   "note": ""
  },
  {
   "property": "C39",
   "status": "proved",
   "theorems": [
    "C39_daylight_range",
    "C39_daylight_opposite"
   ],
   "note": ""
  },
  {
   "property": "C40",
   "status": "proved",
   "theorems": [
    "C40_sunrise_sunset_times",
    "C40_polar"
   ],
   "note": "To the nanosecond truncations."
  },
  {
   "property": "C41",
   "status": "partial",
   "theorems": [
    "C41_sunset_angle_refuted"
   ],
   "note": "Refuted: every call raises UnboundLocalError."
  },
  {
   "property": "C42",
   "status": "proved",
   "theorems": [
    "C42_true_solar_time"
   ],
   "note": ""
  },
  {
   "property": "C43",
   "status": "proved",
   "theorems": [
    "C43_incidence",
    "C43_facing"
   ],
   "note": ""
  },
  {
   "property": "C44",
   "status": "proved",
   "theorems": [
    "C44_horizontal",
    "C44_horizontal_is_cosz"
   ],
   "note": ""
  },
  {
   "property": "C45",
   "status": "partial",
   "theorems": [
    "C45_dims_partial",
    "C45_incidence_refuted"
   ],
   "note": "incidence returns (location, time) / (latitude, time, longitude); grid quantities that do not depend on a coordinate lack its dimension."
  },
  {
   "property": "C30",
   "status": "proved",
   "theorems": [
    "C30_fields",
    "C30_iqbal_series"
   ],
   "note": "For every integer second and every numbering of dates satisfying the calendar recurrences."
  },
  {
   "property": "C31",
   "status": "proved",
   "theorems": [
    "C31_local_apparent_time"
   ],
   "note": ""
  },
  {
   "property": "C47",
   "status": "proved",
   "theorems": [
    "C47_latitude",
    "C47_longitude",
    "C47_accepts_numbers"
   ],
   "note": "For any behaviour of Python's float()."
  },
  {
   "property": "C48",
   "status": "partial",
   "theorems": [
    "C48_eot_display_partial",
    "C48_sign_refuted"
   ],
   "note": "The sign is lost between -1 and 0 minutes (C48_example: reachable)."
  },
  {
   "property": "C49",
   "status": "partial",
   "theorems": [
    "C49_now_partial",
    "C49_now_refuted"
   ],
   "note": "'now' is the machine's wall clock read in the requested zone; wrong unless both offsets agree."
  },
  {
   "property": "C56",
   "status": "partial",
   "theorems": [
    "C56_same_clock_refuted",
    "C56_sunrise_partial"
   ],
   "note": "Sunrise/sunset in UTC and local are always the same time of day; right only for offset 0."
  },
  {
   "property": "C57",
   "status": "partial",
   "theorems": [
    "C57_polar_refuted",
    "C57_report_exists"
   ],
   "note": "Exit 1 in polar day/night."
  },
  {
   "property": "C58",
   "status": "partial",
   "theorems": [
    "C58_offset_text_refuted",
    "C58_folds_and_gaps"
   ],
   "note": "A time text with a UTC offset always exits 1."
  },
  {
   "property": "C59",
   "status": "proved",
   "theorems": [
    "C59_report"
   ],
   "note": ""
  },
  {
   "property": "C46",
   "status": "partial",
   "theorems": [
    "C46_refuted",
    "C46_attribute_error"
   ],
   "note": "Refuted: every call of either function raises."
  },
  {
   "property": "C50",
   "status": "proved",
   "theorems": [
    "C50_windows",
    "C50_requests",
    "C50_year",
    "C50_limit"
   ],
   "note": ""
  },
  {
   "property": "C51",
   "status": "partial",
   "theorems": [
    "C51_read",
    "C51_read_only",
    "C51_load_refuted",
    "C51_aware_refuted"
   ],
   "note": "Reading a file works; loading a year raises in every history of calls."
  },
  {
   "property": "C52",
   "status": "partial",
   "theorems": [
    "C52_azimuth_error_partial",
    "C52_sign_refuted"
   ],
   "note": "Right up to 180 degrees; opposite sign across the north; not wrapped in between."
  },
  {
   "property": "C60",
   "status": "partial",
   "theorems": [
    "C60_cache_partial",
    "C60_request",
    "C60_zero_refuted"
   ],
   "note": "ZeroDivisionError on the equator and the Greenwich meridian."
  },
  {
   "property": "C61",
   "status": "partial",
   "theorems": [
    "C61_site_refuted"
   ],
   "note": "Refuted: the monthly files do not name the site."
  },
  {
   "property": "C27",
   "status": "proved",
   "theorems": [
    "C27_elements"
   ],
   "note": "psa, soltrack and nrel; the equation of time of iqbal is a Fourier series (C30) without such an identity, compared with the almanac in C55."
  },
  {
   "property": "C55",
   "status": "proved",
   "theorems": [
    "C55_almanac",
    "C55_agree",
    "C55_positions",
    "C55_single_positions"
   ],
   "note": "Tolerances in Almanac.v; positions without refraction, for exact float32 operations (C55_positions) and for IEEE-like float32 (C55_single_positions)."
  },
  {
   "property": "C62",
   "status": "proved",
   "theorems": [
    "C62_solstices",
    "C62_user_path"
   ],
   "note": ""
  },
  {
   "property": "C63",
   "status": "partial",
   "theorems": [
    "C63_hour_lines_partial",
    "C63_hour_lines_refuted",
    "C63_which_hours"
   ],
   "note": "Labels right in every zone; the lines are those of h:m UTC, hence right only where the zone's offset is zero."
  },
  {
   "property": "C64",
   "status": "partial",
   "theorems": [
    "C64_days_partial",
    "C64_swapped_refuted",
    "C64_which_days",
    "C64_default_days"
   ],
   "note": "Day and month are exchanged for days up to 12; right otherwise, in particular for the default days."
  },
  {
   "property": "C65",
   "status": "proved",
   "theorems": [
    "C65_sites"
   ],
   "note": ""
  },
  {
   "property": "C66",
   "status": "partial",
   "theorems": [
    "C66_made",
    "C66_default_refuted",
    "C66_times_refuted"
   ],
   "note": "Made for every reading shown once (if the full hours of 21 June are); never for the default user_datetime=None, a text with an offset, or a reading not shown exactly once."
  },
  {
   "property": "C67",
   "status": "partial",
   "theorems": [
    "C67_analemma_partial",
    "C67_analemma_refuted"
   ],
   "note": "False on the last UTC day of a leap year when the local year is over; right otherwise (up to UTC readings that the zone's clock skips or repeats)."
  },
  {
   "property": "C68",
   "status": "proved",
   "theorems": [
    "C68_single_precision",
    "C68_same_direction",
    "C68_azimuth_difference",
    "C68_zenith_difference",
    "C68_agreement"
   ],
   "note": "All pairs but nrel (which works in float64 as modelled)."
  },
  {
   "property": "C69",
   "status": "proved",
   "theorems": [
    "C69_double_time",
    "C69_double_position",
    "C69_ranges",
    "C69_position_ranges",
    "C69_same_direction",
    "C69_agreement",
    "C69_agree",
    "C69_agree64",
    "C55_double_positions",
    "C55_double_double",
    "C23_double_precision",
    "float64_like"
   ],
   "note": "Every arithmetic satisfying double_like (Double.v), which binary64/binary32 round-to-nearest is (float64_like). nrel is excluded by the property (see C72), and the zenith with refraction."
  },
  {
   "property": "C70",
   "status": "partial",
   "theorems": [
    "C70_score_values",
    "C70_score_order",
    "C70_ephemeris_scores",
    "C70_no_reference",
    "C70_perfect",
    "C70_azimuth_partial",
    "C70_azimuth_bias_refuted",
    "C70_printed",
    "C70_clearsky_scores"
   ],
   "note": "All true but the azimuth bias (mbe), whose sign is reversed for rows that cross the north (refuted), and azimuth differences between 180 and 330 degrees (C52)."
  },
  {
   "property": "C71",
   "status": "partial",
   "theorems": [
    "C71_columns",
    "C71_kwargs_refuted",
    "C71_names"
   ],
   "note": "True of the benchmark's own call; refuted for callers who pass algorithm and engine: every column then holds that pair whatever its name."
  },
  {
   "property": "C72",
   "status": "proved",
   "theorems": [
    "C72_nrel_time",
    "C72_nrel_position",
    "C72_ranges",
    "C72_position_ranges",
    "C72_exact_position",
    "C72_same_direction",
    "C72_agree",
    "C72_positions",
    "C72_double_double",
    "C72_noon"
   ],
   "note": "Every arithmetic satisfying double_like (Double.v), which binary64/binary32 round-to-nearest is (float64_like). The zenith with refraction is excluded by the property."
  },
  {
   "property": "C73",
   "status": "proved",
   "theorems": [
    "C73_refraction",
    "C73_refraction_size"
   ],
   "note": "Every arithmetic satisfying double_like (Double.v). RefrSpec.v states the published corrections. Soltrack between -0.11 and -0.07 rad is excluded by the property."
  },
  {
   "property": "C74",
   "status": "proved",
   "theorems": [
    "C74_ranges",
    "C74_elevation_cosz",
    "C74_nan",
    "C74_eth",
    "C74_corrected_eth",
    "C74_night",
    "C74_number_outside_tropics"
   ],
   "note": "Every arithmetic satisfying double_like (Double.v), which binary64/binary32 round-to-nearest is (float64_like)."
  },
  {
   "property": "C75",
   "status": "proved",
   "theorems": [
    "C75_airmass"
   ],
   "note": "Every arithmetic satisfying double_like (Double.v), which binary64/binary32 round-to-nearest is (float64_like)."
  },
  {
   "property": "C76",
   "status": "proved",
   "theorems": [
    "C76_sunrise",
    "C76_midlatitudes",
    "C76_times",
    "C76_polar"
   ],
   "note": "Every arithmetic satisfying double_like (Double.v), which binary64/binary32 round-to-nearest is (float64_like)."
  },
  {
   "property": "C77",
   "status": "proved",
   "theorems": [
    "C77_true_solar_time",
    "C77_nanosecond_refuted",
    "C77_incidence"
   ],
   "note": "Every arithmetic satisfying double_like (Double.v), which binary64/binary32 round-to-nearest is (float64_like). C77_nanosecond_refuted is the negative half of the property."
  },
  {
   "property": "C78",
   "status": "proved",
   "theorems": [
    "C78_motion",
    "C78_motion_double"
   ],
   "note": "Real arithmetic with IEEE special values (ideal float32), 1677-2262, refraction off; C78_motion_double: the same in IEEE double precision, with the rounding of each direction added (motion_tol; C78_double_size gives numbers). Hypotheses met by C78_example for the four algorithms, C78_double_example; C78_sizes gives numbers."
  },
  {
   "property": "C79",
   "status": "proved",
   "theorems": [
    "C79_rates",
    "C79_rates_double",
    "C79_leap_jump"
   ],
   "note": "Every float32 arithmetic, 1677-2262; C79_rates_double: every double_like arithmetic. C79_leap_jump shows that iqbal's exception is needed."
  },
  {
   "property": "C80",
   "status": "proved",
   "theorems": [
    "C80_daylight",
    "C80_polar",
    "C80_daylight_double",
    "C80_polar_double"
   ],
   "note": "Every float32_like arithmetic (real doubles) and every double_like arithmetic, refraction off. Hypotheses met by C80_example for the four algorithms, by day and by night."
  },
  {
   "property": "C81",
   "status": "proved",
   "theorems": [
    "C81_horizon",
    "C81_horizon_double"
   ],
   "note": "Every float32_like arithmetic (real doubles) and every double_like arithmetic, refraction off in the second call. Hypotheses met by C80_example."
  },
  {
   "property": "C82",
   "status": "proved",
   "theorems": [
    "C82_seasons",
    "C82_seasons_double"
   ],
   "note": "Every float32 arithmetic (real doubles) and every double_like arithmetic, 1677-2262. Table in SeasonSpec.v. Hypotheses met by C83_example for the four algorithms."
  },
  {
   "property": "C83",
   "status": "proved",
   "theorems": [
    "C83_day_length",
    "C83_polar",
    "C83_day_length_double",
    "C83_polar_double"
   ],
   "note": "Every float32 arithmetic (real doubles; float32_like for the zenith) and every double_like arithmetic. Hypotheses met by C83_example for the four algorithms."
  },
  {
   "property": "C84",
   "status": "proved",
   "theorems": [
    "C84_heights",
    "C84_heights_double"
   ],
   "note": "Every float32_like arithmetic (real doubles) and every double_like arithmetic, refraction off. Hypotheses met by C83_example."
  },
  {
   "property": "C85",
   "status": "proved",
   "theorems": [
    "C85_climb",
    "C85_climb_double"
   ],
   "note": "Every float32_like arithmetic (real doubles) and every double_like arithmetic, refraction off. Heights from C55/C69/C72 and the rates of C79. Hypotheses met by C85_example."
  },
  {
   "property": "C86",
   "status": "proved",
   "theorems": [
    "C86_noon"
   ],
   "note": "Every double_like arithmetic, refraction on or off. From C69/C72 (azimuth) and C77 (true solar time). Hypotheses met by C86_example for every supported pair."
  },
  {
   "property": "C87",
   "status": "proved",
   "theorems": [
    "C87_incidence"
   ],
   "note": "Every double_like arithmetic, refraction off. From C69/C72 (direction), C77 (incidence, true solar time). Hypotheses met by C87_example for every supported pair."
  },
  {
   "property": "C88",
   "status": "proved",
   "theorems": [
    "C88_airmass_grows",
    "C88_airmass_grows_double",
    "C88_secant",
    "C88_models_agree"
   ],
   "note": "Exact reals (first theorem) and every double_like arithmetic. The slant path falls from 1 degree to the horizon (mean value theorem), and is at least 1 below 1 degree. Hypotheses met by C88_example for every pair of models."
  },
  {
   "property": "C89",
   "status": "proved",
   "theorems": [
    "C89_irradiance_falls"
   ],
   "note": "Every double_like arithmetic; all four corrections. Hypotheses met by C89_example for every correction."
  },
  {
   "property": "C90",
   "status": "proved",
   "theorems": [
    "C90_refraction_order"
   ],
   "note": "Every double_like arithmetic. The apparent elevation grows at least 0.1 times as fast as the elevation (mean value theorem on the published corrections, C73). Hypotheses met by C90_example."
  },
  {
   "property": "C91",
   "status": "proved",
   "theorems": [
    "C91_turning_earth"
   ],
   "note": "Every double_like arithmetic; the two calls may use different engines and use cases. Per-second rate from C79 (declination and equation of time). Hypotheses met by C91_example for every algorithm and engine."
  },
  {
   "property": "C92",
   "status": "proved",
   "theorems": [
    "C92_antipodes",
    "C92_poles"
   ],
   "note": "Every double_like arithmetic. Hypotheses met by C92_example and C92_pole_example for every algorithm and engine."
  },
  {
   "property": "C93",
   "status": "proved",
   "theorems": [
    "C93_azimuth_turns"
   ],
   "note": "Every double_like arithmetic; engines, use cases and refraction flags of the two calls may differ. Hypotheses met by C93_example for every algorithm and engine in both hemispheres."
  },
  {
   "property": "C94",
   "status": "proved",
   "theorems": [
    "C94_four_years",
    "C94_four_years_height",
    "C94_iqbal_repeats"
   ],
   "note": "First two: every double_like arithmetic; third: any arithmetic. Tolerances dec_repeat and eot_repeat are the almanac tolerances of C55 at both instants plus the almanac's own change (0.00027 rad, 0.28 minutes). Hypotheses met by C94_example and C94_iqbal_example."
  },
  {
   "property": "C95",
   "status": "proved",
   "theorems": [
    "C95_sunrise_moves",
    "C95_along_a_parallel"
   ],
   "note": "Every double_like arithmetic; engines and use cases of the two calls of the first theorem may differ. Hypotheses met by C95_example and C95_parallel_example for every algorithm and engine."
  },
  {
   "property": "C96",
   "status": "proved",
   "theorems": [
    "C96_sundial"
   ],
   "note": "b = false: same hour, b = true: mirror image. Every double_like arithmetic; engines and use cases of the two calls may differ. Hypotheses met by C96_example (both forms) for every algorithm and engine."
  },
  {
   "property": "C97",
   "status": "proved",
   "theorems": [
    "C97_clock",
    "C97_forward"
   ],
   "note": "Every double_like arithmetic. Hypotheses met by C97_example (10:00 UTC of two consecutive days at 40 N 3 W) for every algorithm and engine."
  },
  {
   "property": "C98",
   "status": "proved",
   "theorems": [
    "C98_days"
   ],
   "note": "Every double_like arithmetic; refraction and engine of the two calls may differ. Hypotheses met by C98_example (two consecutive days at 40 N 3 W) for every algorithm and engine."
  },
  {
   "property": "C99",
   "status": "proved",
   "theorems": [
    "C99_labels"
   ],
   "note": "Labels.v repeats the accessors with labelled arrays. Generic in the arithmetic, in the index comparison (reflexive) and in what alignment does to differing indexes. Hypotheses met by C99_example."
  },
  {
   "property": "C100",
   "status": "proved",
   "theorems": [
    "C100_answers",
    "C100_own_cell",
    "C100_grid_is_sites"
   ],
   "note": "Generic in the arithmetic (C100_grid_is_sites: exact reals). faithful_times: the kinds of times for which C14 holds. Hypotheses met by C99_example."
  },
  {
   "property": "C101",
   "status": "proved",
   "theorems": [
    "C101_selection",
    "C101_selection_zone",
    "C101_repeated_hour"
   ],
   "note": "Naive times: every accessor and unit; zones: all but 'local' (whose clock is another). C101_repeated_hour: the label alone does not name the instant. Hypotheses met by C99_example and C101_example."
  },
  {
   "property": "C102",
   "status": "partial",
   "theorems": [
    "C102_unaffected_partial",
    "C102_shared",
    "C102_refuted"
   ],
   "note": "Alias.v: a heap of buffers, np.array copies, rename/assign_attrs share. The full property is false: C102_refuted, C102_shared (what a write into an answer of latitude, longitude, ecf or eot does to every later answer). Proved for all histories without such writes, any arithmetic; hypotheses met by C102_example."
  },
  {
   "property": "C103",
   "status": "partial",
   "theorems": [
    "C103_transect",
    "C103_sites_partial",
    "C103_sites_refuted"
   ],
   "note": "Places.v: which stored arrays carry the index-free coordinates and how binary operations merge them. transect: as claimed. sites: true of the accessors computed from zenith or azimuth, refuted for the others. Hypotheses met by C103_example."
  }
 ]
}