# Print Assumptions of every theorem in MANIFEST.json

Generated by tools/assumptions.py; the theorems are grouped by the set of axioms.

## Closed under the global context

Theorems: C01_no_assertion, C01_shapes, C02_independence, C02_single_call, C03_grid_eq_sites, C04_transect_eq_sites, C05_concat, C05_pick, C06_nat_others, C06_nat_rows, C08_accept, C08_never_evaluated, C08_reject, C100_answers, C100_own_cell, C101_repeated_hour, C101_selection, C101_selection_zone, C102_shared, C102_unaffected_partial, C103_sites_partial, C103_sites_refuted, C103_transect, C10_evaluate, C10_good_shapes_accepted, C10_mismatch, C10_multi, C10_multi_times, C11_dispatch, C11_unique, C11_unsupported_call, C11_unsupported_evaluate, C12_seconds, C13_same_instants, C14_decreasing_refuted, C14_fixed_offset_refuted, C14_times_utc_partial, C14_times_utc_refuted, C15_fold_partial, C15_fold_refuted, C15_increasing_refuted, C16_refraction_only_zenith, C17_has_refraction_partial, C17_has_refraction_refuted, C30_fields, C36_airmass_options, C36_eth_options, C36_sunrise_options_refuted, C41_sunset_angle_refuted, C45_dims_partial, C45_incidence_refuted, C46_refuted, C50_windows, C50_year, C62_solstices, C62_user_path, C63_hour_lines_partial, C63_hour_lines_refuted, C63_which_hours, C64_days_partial, C64_default_days, C64_swapped_refuted, C64_which_days, C66_default_refuted, C66_made, C66_times_refuted, C67_analemma_partial, C67_analemma_refuted, C71_columns, C71_kwargs_refuted, C71_names, C94_iqbal_repeats, C99_labels

## 2 names

Theorems: C47_accepts_numbers, C47_latitude, C47_longitude, C48_eot_display_partial, C48_sign_refuted, C50_limit, C50_requests, C52_azimuth_error_partial, C52_sign_refuted, C60_cache_partial, C60_request, C60_zero_refuted

Axioms and primitives:

* `ClassicalDedekindReals.sig_forall_dec`
* `FunctionalExtensionality.functional_extensionality_dep`

## 3 names

Theorems: C70_azimuth_bias_refuted, C70_azimuth_partial, C70_clearsky_scores, C70_ephemeris_scores, C70_no_reference, C70_perfect, C70_printed, C70_score_order, C70_score_values

Axioms and primitives:

* `ClassicalDedekindReals.sig_forall_dec`
* `ClassicalDedekindReals.sig_not_dec`
* `FunctionalExtensionality.functional_extensionality_dep`

## 4 names

Theorems: C07_nan_cells, C07_nan_local, C08_real_form, C09_longitude_180_refuted, C09_other_longitudes_partial, C102_refuted, C30_iqbal_series, C32_elevation_cosz, C46_attribute_error, C49_now_partial, C49_now_refuted, C51_aware_refuted, C51_load_refuted, C51_read, C51_read_only, C56_same_clock_refuted, C56_sunrise_partial, C58_folds_and_gaps, C58_offset_text_refuted, C59_report, C61_site_refuted, C65_sites, C68_azimuth_difference

Axioms and primitives:

* `ClassicalDedekindReals.sig_forall_dec`
* `ClassicalDedekindReals.sig_not_dec`
* `Classical_Prop.classic`
* `FunctionalExtensionality.functional_extensionality_dep`

## 63 names

Theorems: C03_grid_is_sites, C04_iqbal_numexpr_refuted, C04_transect_is_sites_partial, C100_grid_is_sites, C18_overhead_refuted, C19_soltrack_refuted, C24_declination_bound, C25_ecf_bound, C26_eot_bound, C28_engines_agree, C28_engines_time, C33_eth, C37_midlatitudes, C37_sunrise_exists, C38_sunrise_horizon, C39_daylight_opposite, C39_daylight_range, C40_polar, C40_sunrise_sunset_times, C42_true_solar_time, C43_facing, C43_incidence, C44_horizontal, C57_polar_refuted, C68_zenith_difference, C69_double_time, C69_ranges, C74_elevation_cosz, C79_leap_jump

Axioms and primitives:

* `ClassicalDedekindReals.sig_forall_dec`
* `ClassicalDedekindReals.sig_not_dec`
* `Classical_Prop.classic`
* `FloatAxioms.Prim2SF_SF2Prim`
* `FloatAxioms.Prim2SF_valid`
* `FloatAxioms.SF2Prim_Prim2SF`
* `FloatAxioms.abs_spec`
* `FloatAxioms.add_spec`
* `FloatAxioms.classify_spec`
* `FloatAxioms.compare_spec`
* `FloatAxioms.div_spec`
* `FloatAxioms.eqb_spec`
* `FloatAxioms.frshiftexp_spec`
* `FloatAxioms.ldshiftexp_spec`
* `FloatAxioms.ltb_spec`
* `FloatAxioms.mul_spec`
* `FloatAxioms.next_down_spec`
* `FloatAxioms.next_up_spec`
* `FloatAxioms.normfr_mantissa_spec`
* `FloatAxioms.of_uint63_spec`
* `FloatAxioms.opp_spec`
* `FloatAxioms.sqrt_spec`
* `FloatAxioms.sub_spec`
* `FunctionalExtensionality.functional_extensionality_dep`
* `PrimFloat.abs`
* `PrimFloat.add`
* `PrimFloat.classify`
* `PrimFloat.compare`
* `PrimFloat.div`
* `PrimFloat.eqb`
* `PrimFloat.float`
* `PrimFloat.frshiftexp`
* `PrimFloat.ldshiftexp`
* `PrimFloat.ltb`
* `PrimFloat.mul`
* `PrimFloat.next_down`
* `PrimFloat.next_up`
* `PrimFloat.normfr_mantissa`
* `PrimFloat.of_uint63`
* `PrimFloat.opp`
* `PrimFloat.sqrt`
* `PrimFloat.sub`
* `PrimInt63.add`
* `PrimInt63.eqb`
* `PrimInt63.int`
* `PrimInt63.land`
* `PrimInt63.leb`
* `PrimInt63.lor`
* `PrimInt63.lsl`
* `PrimInt63.lsr`
* `PrimInt63.ltb`
* `PrimInt63.sub`
* `Uint63.add_spec`
* `Uint63.eqb_correct`
* `Uint63.eqb_refl`
* `Uint63.land_spec`
* `Uint63.leb_spec`
* `Uint63.lor_spec`
* `Uint63.lsl_spec`
* `Uint63.lsr_spec`
* `Uint63.ltb_spec`
* `Uint63.of_to_Z`
* `Uint63.sub_spec`

## 93 names

Theorems: C18_float32_partial, C18_zenith_range_partial, C19_iqbal_refuted, C19_refracted_range_partial, C19_soltrack_iqbal_partial, C20_azimuth_range, C20_azimuth_range_partial, C21_position_geometric, C22_azimuth_geometric, C23_double_precision, C23_morning_afternoon, C23_single_precision, C27_elements, C29_horizon_refuted, C29_overhead_refuted, C29_psa_engines_partial, C31_local_apparent_time, C32_ranges_partial, C34_corrected_eth, C34_night, C35_airmass, C35_negative_zenith_refuted, C44_horizontal_is_cosz, C53_refraction_size, C53_refraction_size_others, C55_agree, C55_almanac, C55_double_double, C55_double_positions, C55_positions, C55_single_positions, C57_report_exists, C68_agreement, C68_same_direction, C68_single_precision, C69_agree, C69_agree64, C69_agreement, C69_double_position, C69_position_ranges, C69_same_direction, C72_agree, C72_double_double, C72_exact_position, C72_noon, C72_nrel_position, C72_nrel_time, C72_position_ranges, C72_positions, C72_ranges, C72_same_direction, C73_refraction, C73_refraction_size, C74_corrected_eth, C74_eth, C74_nan, C74_night, C74_number_outside_tropics, C74_ranges, C75_airmass, C76_midlatitudes, C76_polar, C76_sunrise, C76_times, C77_incidence, C77_nanosecond_refuted, C77_true_solar_time, C78_motion, C78_motion_double, C79_rates, C79_rates_double, C80_daylight, C80_daylight_double, C80_polar, C80_polar_double, C81_horizon, C81_horizon_double, C82_seasons, C82_seasons_double, C83_day_length, C83_day_length_double, C83_polar, C83_polar_double, C84_heights, C84_heights_double, C85_climb, C85_climb_double, C86_noon, C87_incidence, C88_airmass_grows, C88_airmass_grows_double, C88_models_agree, C88_secant, C89_irradiance_falls, C90_refraction_order, C91_turning_earth, C92_antipodes, C92_poles, C93_azimuth_turns, C94_four_years, C94_four_years_height, C95_along_a_parallel, C95_sunrise_moves, C96_sundial, C97_clock, C97_forward, C98_days, float64_like

Axioms and primitives:

* `ClassicalDedekindReals.sig_forall_dec`
* `ClassicalDedekindReals.sig_not_dec`
* `Classical_Prop.classic`
* `FloatAxioms.Prim2SF_SF2Prim`
* `FloatAxioms.Prim2SF_valid`
* `FloatAxioms.SF2Prim_Prim2SF`
* `FloatAxioms.abs_spec`
* `FloatAxioms.add_spec`
* `FloatAxioms.classify_spec`
* `FloatAxioms.compare_spec`
* `FloatAxioms.div_spec`
* `FloatAxioms.eqb_spec`
* `FloatAxioms.frshiftexp_spec`
* `FloatAxioms.ldshiftexp_spec`
* `FloatAxioms.ltb_spec`
* `FloatAxioms.mul_spec`
* `FloatAxioms.next_down_spec`
* `FloatAxioms.next_up_spec`
* `FloatAxioms.normfr_mantissa_spec`
* `FloatAxioms.of_uint63_spec`
* `FloatAxioms.opp_spec`
* `FloatAxioms.sqrt_spec`
* `FloatAxioms.sub_spec`
* `FunctionalExtensionality.functional_extensionality_dep`
* `PrimFloat.abs`
* `PrimFloat.add`
* `PrimFloat.classify`
* `PrimFloat.compare`
* `PrimFloat.div`
* `PrimFloat.eqb`
* `PrimFloat.float`
* `PrimFloat.frshiftexp`
* `PrimFloat.ldshiftexp`
* `PrimFloat.ltb`
* `PrimFloat.mul`
* `PrimFloat.next_down`
* `PrimFloat.next_up`
* `PrimFloat.normfr_mantissa`
* `PrimFloat.of_uint63`
* `PrimFloat.opp`
* `PrimFloat.sqrt`
* `PrimFloat.sub`
* `PrimInt63.add`
* `PrimInt63.addc`
* `PrimInt63.addcarryc`
* `PrimInt63.addmuldiv`
* `PrimInt63.compare`
* `PrimInt63.div`
* `PrimInt63.diveucl`
* `PrimInt63.diveucl_21`
* `PrimInt63.eqb`
* `PrimInt63.head0`
* `PrimInt63.int`
* `PrimInt63.land`
* `PrimInt63.leb`
* `PrimInt63.lor`
* `PrimInt63.lsl`
* `PrimInt63.lsr`
* `PrimInt63.ltb`
* `PrimInt63.lxor`
* `PrimInt63.mod`
* `PrimInt63.mul`
* `PrimInt63.mulc`
* `PrimInt63.sub`
* `PrimInt63.subc`
* `PrimInt63.subcarryc`
* `PrimInt63.tail0`
* `Uint63.add_spec`
* `Uint63.addc_def_spec`
* `Uint63.addcarryc_def_spec`
* `Uint63.addmuldiv_def_spec`
* `Uint63.compare_def_spec`
* `Uint63.div_spec`
* `Uint63.diveucl_21_spec`
* `Uint63.diveucl_def_spec`
* `Uint63.eqb_correct`
* `Uint63.eqb_refl`
* `Uint63.head0_spec`
* `Uint63.land_spec`
* `Uint63.leb_spec`
* `Uint63.lor_spec`
* `Uint63.lsl_spec`
* `Uint63.lsr_spec`
* `Uint63.ltb_spec`
* `Uint63.lxor_spec`
* `Uint63.mod_spec`
* `Uint63.mul_spec`
* `Uint63.mulc_spec`
* `Uint63.of_to_Z`
* `Uint63.sub_spec`
* `Uint63.subc_def_spec`
* `Uint63.subcarryc_def_spec`
* `Uint63.tail0_spec`
