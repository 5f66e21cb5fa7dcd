c("C01","proved",["C01_shapes","C01_no_assertion"],"For every arithmetic.")
c("C02","proved",["C02_independence","C02_single_call"],"For every arithmetic and all three use cases.")
c("C03","proved",["C03_grid_eq_sites","C03_grid_is_sites"],"C03_grid_is_sites: exact float64, every float32 rounding. C03_grid_eq_sites: every arithmetic, the azimuth of soltrack/numexpr then needs tan = sin/cos at the computed declination.")
c("C04","partial",["C04_transect_eq_sites","C04_transect_is_sites_partial","C04_iqbal_numexpr_refuted","C68_agreement"],"True for every float32 rounding except iqbal/numexpr, where IEEE float32 makes transect and sites differ (longitude/15 is computed in float64 by one and float32 by the other); C68_agreement bounds that difference.")
c("C05","proved",["C05_pick","C05_concat"],"For every arithmetic.")
c("C06","proved",["C06_nat_rows","C06_nat_others"],"For every arithmetic.")
c("C07","proved",["C07_nan_cells","C07_nan_local"],"")
c("C08","proved",["C08_real_form","C08_accept","C08_reject","C08_never_evaluated"],"C08_real_form in degrees; the others for every arithmetic.")
c("C09","partial",["C09_longitude_180_refuted","C09_other_longitudes_partial"],"False of the code for exactly 180 degrees; true of every other documented longitude.")
c("C10","proved",["C10_mismatch","C10_multi","C10_multi_times","C10_good_shapes_accepted","C10_evaluate"],"A >=2-dim times array raises TypeError (from pandas), the rest ValueError.")
c("C11","proved",["C11_unsupported_evaluate","C11_unsupported_call","C11_dispatch","C11_unique","C10_evaluate"],"")
c("C12","proved",["C12_seconds"],"")
c("C13","proved",["C13_same_instants"],"")
c("C14","partial",["C14_times_utc_partial","C14_times_utc_refuted","C14_fixed_offset_refuted","C14_decreasing_refuted"],"False of the code for zoneinfo zones (offset dropped) and pytz.FixedOffset (TypeError); proved for the remaining kinds.")
c("C15","partial",["C15_fold_partial","C15_fold_refuted","C15_increasing_refuted"],"False of the code: a single instant in a repeated hour raises AmbiguousTimeError (C15_fold_refuted), so does an increasing index (C15_increasing_refuted); proved under the conditions of C15_fold_partial.")
c("C16","proved",["C16_refraction_only_zenith"],"")
c("C17","partial",["C17_has_refraction_partial","C17_has_refraction_refuted"],"True for booleans, false for other truthy flags.")
c("C18","partial",["C18_zenith_range_partial","C18_float32_partial","C18_overhead_refuted"],"Every float32 rounding for psa/numexpr, soltrack/numexpr, nrel; accurate rounding (IEEE binary32 is) for psa/numpy; exact float32 operations only for soltrack/numpy and iqbal, where a single-precision zenith is NaN for some overhead suns (C18_overhead_refuted: latitude 4, 2021-03-30; C18_float32_partial: nowhere else).")
c("C19","partial",["C19_refracted_range_partial","C19_soltrack_iqbal_partial","C19_soltrack_refuted","C19_iqbal_refuted"],"True of psa and nrel; false of soltrack (unbounded below the horizon) and of iqbal (negative overhead).")
c("C20","proved",["C20_azimuth_range","C20_azimuth_range_partial"],"Every float32 arithmetic with IEEE-like rounding (float32_like, proved of binary32), all pairs.")
c("C21","proved",["C21_position_geometric","C68_single_precision"],"exact_for: every rounding for nrel and the numexpr psa/soltrack, exact float32 operations otherwise; in IEEE float32 within the tolerance of C68_single_precision.")
c("C22","proved",["C22_azimuth_geometric","C68_single_precision"],"As C21.")
c("C23","proved",["C23_morning_afternoon","C23_single_precision"],"As C21; hour angle within hour_tol (at most 0.021 degrees) of a multiple of 180 degrees excluded; C23_single_precision: the same in IEEE float32.")
c("C24","proved",["C24_declination_bound"],"For every float32 rounding.")
c("C25","proved",["C25_ecf_bound"],"For every float32 rounding.")
c("C26","proved",["C26_eot_bound"],"For every float32 rounding.")
c("C28","proved",["C28_engines_time","C28_engines_agree","C68_agreement"],"Exact float32 operations, as stated; C68_agreement bounds the difference in IEEE float32 (the location-independent outputs for every float32 rounding).")
c("C29","partial",["C29_psa_engines_partial","C29_overhead_refuted","C29_horizon_refuted","C68_agreement"],"Azimuth, declination, ecf, eot and cos(zenith) as claimed; the zenith agrees within 0.002 degrees from 2 to 178 degrees and is refuted overhead and (with refraction) at the horizon.")
c("C53","proved",["C53_refraction_size","C53_refraction_size_others"],"")
c("C54","proved",["C21_position_geometric"],"hour_tol: 0.021 degrees for psa, 0.0012 for soltrack and nrel, 0 for iqbal.")
c("C32","partial",["C32_elevation_cosz","C32_ranges_partial"],"The relations hold for every call; the documented ranges without refraction (C19 refutes them for soltrack and iqbal with refraction).")
c("C33","proved",["C33_eth"],"")
c("C34","partial",["C34_corrected_eth","C34_night"],"Sun up: as claimed. At night: zero for skarveith_1998, NaN (refuted) for perez_1990 and gonzalez_and_calbo_1999.")
c("C35","proved",["C35_airmass","C35_negative_zenith_refuted"],"For zenith angles in [0,180]; the negative zeniths iqbal returns with refraction have no Gueymard air mass.")
c("C36","partial",["C36_airmass_options","C36_eth_options","C36_sunrise_options_refuted"],"sunrise and sunset raise AssertionError instead of ValueError.")
c("C37","proved",["C37_sunrise_exists","C37_midlatitudes"],"Excluding the poles at declination exactly 0, where the sun is on the horizon all day.")
c("C38","proved",["C38_sunrise_horizon"],"")
c("C39","proved",["C39_daylight_range","C39_daylight_opposite"],"")
c("C40","proved",["C40_sunrise_sunset_times","C40_polar"],"To the nanosecond truncations.")
c("C41","partial",["C41_sunset_angle_refuted"],"Refuted: every call raises UnboundLocalError.")
c("C42","proved",["C42_true_solar_time"],"")
c("C43","proved",["C43_incidence","C43_facing"],"")
c("C44","proved",["C44_horizontal","C44_horizontal_is_cosz"],"")
c("C45","partial",["C45_dims_partial","C45_incidence_refuted"],"incidence returns (location, time) / (latitude, time, longitude); grid quantities that do not depend on a coordinate lack its dimension.")
c("C30","proved",["C30_fields","C30_iqbal_series"],"For every integer second and every numbering of dates satisfying the calendar recurrences.")
c("C31","proved",["C31_local_apparent_time"],"")
c("C47","proved",["C47_latitude","C47_longitude","C47_accepts_numbers"],"For any behaviour of Python's float().")
c("C48","partial",["C48_eot_display_partial","C48_sign_refuted"],"The sign is lost between -1 and 0 minutes (C48_example: reachable).")
c("C49","partial",["C49_now_partial","C49_now_refuted"],"'now' is the machine's wall clock read in the requested zone; wrong unless both offsets agree.")
c("C56","partial",["C56_same_clock_refuted","C56_sunrise_partial"],"Sunrise/sunset in UTC and local are always the same time of day; right only for offset 0.")
c("C57","partial",["C57_polar_refuted","C57_report_exists"],"Exit 1 in polar day/night.")
c("C58","partial",["C58_offset_text_refuted","C58_folds_and_gaps"],"A time text with a UTC offset always exits 1.")
c("C59","proved",["C59_report"],"")
c("C46","partial",["C46_refuted","C46_attribute_error"],"Refuted: every call of either function raises.")
c("C50","proved",["C50_windows","C50_requests","C50_year","C50_limit"],"")
c("C51","partial",["C51_read","C51_read_only","C51_load_refuted","C51_aware_refuted"],"Reading a file works; loading a year raises in every history of calls.")
c("C52","partial",["C52_azimuth_error_partial","C52_sign_refuted"],"Right up to 180 degrees; opposite sign across the north; not wrapped in between.")
c("C60","partial",["C60_cache_partial","C60_request","C60_zero_refuted"],"ZeroDivisionError on the equator and the Greenwich meridian.")
c("C61","partial",["C61_site_refuted"],"Refuted: the monthly files do not name the site.")
c("C27","proved",["C27_elements"],"psa, soltrack and nrel; the equation of time of iqbal is a Fourier series (C30) without such an identity, compared with the almanac in C55.")
c("C55","proved",["C55_almanac","C55_agree","C55_positions","C55_single_positions"],"Tolerances in Almanac.v; positions without refraction, for exact float32 operations (C55_positions) and for IEEE-like float32 (C55_single_positions).")
c("C62","proved",["C62_solstices","C62_user_path"],"")
c("C63","partial",["C63_hour_lines_partial","C63_hour_lines_refuted","C63_which_hours"],"Labels right in every zone; the lines are those of h:m UTC, hence right only where the zone's offset is zero.")
c("C64","partial",["C64_days_partial","C64_swapped_refuted","C64_which_days","C64_default_days"],"Day and month are exchanged for days up to 12; right otherwise, in particular for the default days.")
c("C65","proved",["C65_sites"],"")
c("C66","partial",["C66_made","C66_default_refuted","C66_times_refuted"],"Made for every reading shown once (if the full hours of 21 June are); never for the default user_datetime=None, a text with an offset, or a reading not shown exactly once.")
c("C67","partial",["C67_analemma_partial","C67_analemma_refuted"],"False on the last UTC day of a leap year when the local year is over; right otherwise (up to UTC readings that the zone's clock skips or repeats).")
c("C68","proved",["C68_single_precision","C68_same_direction","C68_azimuth_difference","C68_zenith_difference","C68_agreement"],"All pairs but nrel (which works in float64 as modelled).")
c("C69","proved",["C69_double_time","C69_double_position","C69_ranges","C69_position_ranges","C69_same_direction","C69_agreement","C69_agree","C69_agree64","C55_double_positions","C55_double_double","C23_double_precision","float64_like"],"Every arithmetic satisfying double_like (Double.v), which binary64/binary32 round-to-nearest is (float64_like). nrel is excluded by the property (see C72), and the zenith with refraction.")
c("C70","partial",["C70_score_values","C70_score_order","C70_ephemeris_scores","C70_no_reference","C70_perfect","C70_azimuth_partial","C70_azimuth_bias_refuted","C70_printed","C70_clearsky_scores"],"All true but the azimuth bias (mbe), whose sign is reversed for rows that cross the north (refuted), and azimuth differences between 180 and 330 degrees (C52).")
c("C71","partial",["C71_columns","C71_kwargs_refuted","C71_names"],"True of the benchmark's own call; refuted for callers who pass algorithm and engine: every column then holds that pair whatever its name.")
c("C72","proved",["C72_nrel_time","C72_nrel_position","C72_ranges","C72_position_ranges","C72_exact_position","C72_same_direction","C72_agree","C72_positions","C72_double_double","C72_noon"],"Every arithmetic satisfying double_like (Double.v), which binary64/binary32 round-to-nearest is (float64_like). The zenith with refraction is excluded by the property.")
c("C73","proved",["C73_refraction","C73_refraction_size"],"Every arithmetic satisfying double_like (Double.v). RefrSpec.v states the published corrections. Soltrack between -0.11 and -0.07 rad is excluded by the property.")
c("C74","proved",["C74_ranges","C74_elevation_cosz","C74_nan","C74_eth","C74_corrected_eth","C74_night","C74_number_outside_tropics"],"Every arithmetic satisfying double_like (Double.v), which binary64/binary32 round-to-nearest is (float64_like).")
c("C75","proved",["C75_airmass"],"Every arithmetic satisfying double_like (Double.v), which binary64/binary32 round-to-nearest is (float64_like).")
c("C76","proved",["C76_sunrise","C76_midlatitudes","C76_times","C76_polar"],"Every arithmetic satisfying double_like (Double.v), which binary64/binary32 round-to-nearest is (float64_like).")
c("C77","proved",["C77_true_solar_time","C77_nanosecond_refuted","C77_incidence"],"Every arithmetic satisfying double_like (Double.v), which binary64/binary32 round-to-nearest is (float64_like). C77_nanosecond_refuted is the negative half of the property.")
c("C78","proved",["C78_motion","C78_motion_double"],"Real arithmetic with IEEE special values (ideal float32), 1677-2262, refraction off; C78_motion_double: the same in IEEE double precision, with the rounding of each direction added (motion_tol; C78_double_size gives numbers). Hypotheses met by C78_example for the four algorithms, C78_double_example; C78_sizes gives numbers.")
c("C79","proved",["C79_rates","C79_rates_double","C79_leap_jump"],"Every float32 arithmetic, 1677-2262; C79_rates_double: every double_like arithmetic. C79_leap_jump shows that iqbal's exception is needed.")
c("C80","proved",["C80_daylight","C80_polar","C80_daylight_double","C80_polar_double"],"Every float32_like arithmetic (real doubles) and every double_like arithmetic, refraction off. Hypotheses met by C80_example for the four algorithms, by day and by night.")
c("C81","proved",["C81_horizon","C81_horizon_double"],"Every float32_like arithmetic (real doubles) and every double_like arithmetic, refraction off in the second call. Hypotheses met by C80_example.")
c("C82","proved",["C82_seasons","C82_seasons_double"],"Every float32 arithmetic (real doubles) and every double_like arithmetic, 1677-2262. Table in SeasonSpec.v. Hypotheses met by C83_example for the four algorithms.")
c("C83","proved",["C83_day_length","C83_polar","C83_day_length_double","C83_polar_double"],"Every float32 arithmetic (real doubles; float32_like for the zenith) and every double_like arithmetic. Hypotheses met by C83_example for the four algorithms.")
c("C84","proved",["C84_heights","C84_heights_double"],"Every float32_like arithmetic (real doubles) and every double_like arithmetic, refraction off. Hypotheses met by C83_example.")
c("C85","proved",["C85_climb","C85_climb_double"],"Every float32_like arithmetic (real doubles) and every double_like arithmetic, refraction off. Heights from C55/C69/C72 and the rates of C79. Hypotheses met by C85_example.")
c("C86","proved",["C86_noon"],"Every double_like arithmetic, refraction on or off. From C69/C72 (azimuth) and C77 (true solar time). Hypotheses met by C86_example for every supported pair.")
c("C87","proved",["C87_incidence"],"Every double_like arithmetic, refraction off. From C69/C72 (direction), C77 (incidence, true solar time). Hypotheses met by C87_example for every supported pair.")
c("C88","proved",["C88_airmass_grows","C88_airmass_grows_double","C88_secant","C88_models_agree"],"Exact reals (first theorem) and every double_like arithmetic. The slant path falls from 1 degree to the horizon (mean value theorem), and is at least 1 below 1 degree. Hypotheses met by C88_example for every pair of models.")
c("C89","proved",["C89_irradiance_falls"],"Every double_like arithmetic; all four corrections. Hypotheses met by C89_example for every correction.")
c("C90","proved",["C90_refraction_order"],"Every double_like arithmetic. The apparent elevation grows at least 0.1 times as fast as the elevation (mean value theorem on the published corrections, C73). Hypotheses met by C90_example.")
c("C91","proved",["C91_turning_earth"],"Every double_like arithmetic; the two calls may use different engines and use cases. Per-second rate from C79 (declination and equation of time). Hypotheses met by C91_example for every algorithm and engine.")
c("C92","proved",["C92_antipodes","C92_poles"],"Every double_like arithmetic. Hypotheses met by C92_example and C92_pole_example for every algorithm and engine.")
c("C93","proved",["C93_azimuth_turns"],"Every double_like arithmetic; engines, use cases and refraction flags of the two calls may differ. Hypotheses met by C93_example for every algorithm and engine in both hemispheres.")
c("C94","proved",["C94_four_years","C94_four_years_height","C94_iqbal_repeats"],"First two: every double_like arithmetic; third: any arithmetic. Tolerances dec_repeat and eot_repeat are the almanac tolerances of C55 at both instants plus the almanac's own change (0.00027 rad, 0.28 minutes). Hypotheses met by C94_example and C94_iqbal_example.")
c("C95","proved",["C95_sunrise_moves","C95_along_a_parallel"],"Every double_like arithmetic; engines and use cases of the two calls of the first theorem may differ. Hypotheses met by C95_example and C95_parallel_example for every algorithm and engine.")
c("C96","proved",["C96_sundial"],"b = false: same hour, b = true: mirror image. Every double_like arithmetic; engines and use cases of the two calls may differ. Hypotheses met by C96_example (both forms) for every algorithm and engine.")
c("C97","proved",["C97_clock","C97_forward"],"Every double_like arithmetic. Hypotheses met by C97_example (10:00 UTC of two consecutive days at 40 N 3 W) for every algorithm and engine.")
c("C98","proved",["C98_days"],"Every double_like arithmetic; refraction and engine of the two calls may differ. Hypotheses met by C98_example (two consecutive days at 40 N 3 W) for every algorithm and engine.")
c("C99","proved",["C99_labels"],"Labels.v repeats the accessors with labelled arrays. Generic in the arithmetic, in the index comparison (reflexive) and in what alignment does to differing indexes. Hypotheses met by C99_example.")
c("C100","proved",["C100_answers","C100_own_cell","C100_grid_is_sites"],"Generic in the arithmetic (C100_grid_is_sites: exact reals). faithful_times: the kinds of times for which C14 holds. Hypotheses met by C99_example.")
c("C101","proved",["C101_selection","C101_selection_zone","C101_repeated_hour"],"Naive times: every accessor and unit; zones: all but 'local' (whose clock is another). C101_repeated_hour: the label alone does not name the instant. Hypotheses met by C99_example and C101_example.")
c("C102","partial",["C102_unaffected_partial","C102_shared","C102_refuted"],"Alias.v: a heap of buffers, np.array copies, rename/assign_attrs share. The full property is false: C102_refuted, C102_shared (what a write into an answer of latitude, longitude, ecf or eot does to every later answer). Proved for all histories without such writes, any arithmetic; hypotheses met by C102_example.")
c("C103","partial",["C103_transect","C103_sites_partial","C103_sites_refuted"],"Places.v: which stored arrays carry the index-free coordinates and how binary operations merge them. transect: as claimed. sites: true of the accessors computed from zenith or azimuth, refuted for the others. Hypotheses met by C103_example.")
