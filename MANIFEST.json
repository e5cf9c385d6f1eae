{
 "claims": [
  {
   "property": "C01",
   "status": "proved",
   "theorems": [
    "C01_mass_conservation"
   ],
   "note": "exact extended reals; every statistics argument, also malformed ones"
  },
  {
   "property": "C02",
   "status": "proved",
   "theorems": [
    "C02_float_nonnegative"
   ],
   "note": "binary64 via primitive floats and Flocq; amounts up to 2^900, fewer than 2^46 days"
  },
  {
   "property": "C03",
   "status": "proved",
   "theorems": [
    "C03_dry_days_exactly_dry"
   ],
   "note": "binary64"
  },
  {
   "property": "C04",
   "status": "proved",
   "theorems": [
    "C04_missing_days_exact",
    "C04_missing_days_float",
    "C04_missing_counts_as_dry",
    "C04_missing_counts_as_dry_float"
   ],
   "note": "exact and binary64"
  },
  {
   "property": "C05",
   "status": "proved",
   "theorems": [
    "C05_hourly_time_stamps",
    "C05_fewer_than_two_days",
    "C05_not_at_hour_zero"
   ],
   "note": "any arithmetic"
  },
  {
   "property": "C06",
   "status": "proved",
   "theorems": [
    "C06_shift"
   ],
   "note": "any arithmetic"
  },
  {
   "property": "C07",
   "status": "proved",
   "theorems": [
    "C07_branching_rule_exact",
    "C07_branching_rule_float",
    "C07_no_early_return_exact",
    "C07_no_early_return_float"
   ],
   "note": "cascade_steps in SpecCascade.v describes draws consumed, table cell, class and halves of every box"
  },
  {
   "property": "C08",
   "status": "proved",
   "theorems": [
    "C08_never_fails_exact",
    "C08_never_fails_float",
    "C08_never_fails_five_minutes"
   ],
   "note": ""
  },
  {
   "property": "C09",
   "status": "proved",
   "theorems": [
    "C09_sample_statistics_crash_refuted",
    "C09_default_weights_crash_refuted",
    "C09_stale_weight_refuted"
   ],
   "note": "negative result: witnesses"
  },
  {
   "property": "C10",
   "status": "proved",
   "theorems": [
    "C10_list_length",
    "C10_option_type",
    "C10_too_few_thresholds",
    "C10_unknown_method",
    "C10_cascade_without_statistics"
   ],
   "note": ""
  },
  {
   "property": "C11",
   "status": "proved",
   "theorems": [
    "C11_five_minutes",
    "C11_returns"
   ],
   "note": ""
  },
  {
   "property": "C12",
   "status": "proved",
   "theorems": [
    "C12_level_statistics",
    "C12_single_object"
   ],
   "note": "binary64; per-level list and single object spelled out for the five hourly levels"
  },
  {
   "property": "C13",
   "status": "proved",
   "theorems": [
    "C13_pairs",
    "C13_total"
   ],
   "note": "structure for any arithmetic; total in exact arithmetic"
  },
  {
   "property": "C14",
   "status": "proved",
   "theorems": [
    "C14_branching_distribution",
    "C14_default_tables",
    "C14_shipped_tables"
   ],
   "note": "exact arithmetic; missing values allowed"
  },
  {
   "property": "C15",
   "status": "proved",
   "theorems": [
    "C15_weight_distribution"
   ],
   "note": "exact arithmetic"
  },
  {
   "property": "C16",
   "status": "proved",
   "theorems": [
    "C16_statistics_or_sample",
    "C16_threshold_in_range",
    "C16_shipped_weights"
   ],
   "note": "exact characterisation of the returned tables as relative frequencies; np.percentile modelled for integer percentages, linear interpolation"
  },
  {
   "property": "C17",
   "status": "proved",
   "theorems": [
    "C17_check_accepts",
    "C17_rejects_only_zero"
   ],
   "note": "exact: only tables whose sums all vanish are rejected"
  },
  {
   "property": "C18",
   "status": "proved",
   "theorems": [
    "C18_weighted_means",
    "C18_mean_of_distributions",
    "C18_mean_of_weights"
   ],
   "note": "exact arithmetic, heap model"
  },
  {
   "property": "C19",
   "status": "proved",
   "theorems": [
    "C19_levels_undisturbed",
    "C19_other_instances_untouched",
    "C19_succeeds"
   ],
   "note": "heap model with aliasing; any arithmetic"
  },
  {
   "property": "C20",
   "status": "proved",
   "theorems": [
    "C20_fills_callers_data",
    "C20_depends_on_position",
    "C20_depends_on_history"
   ],
   "note": "any arithmetic; the two dependence theorems are binary64 witnesses"
  },
  {
   "property": "C21",
   "status": "proved",
   "theorems": [
    "C21_master_station",
    "C21_current_pandas",
    "C21_days_without_master"
   ],
   "note": "needs Series.iteritems; the second theorem covers pandas without it"
  },
  {
   "property": "C22",
   "status": "proved",
   "theorems": [
    "C22_equal_distribution"
   ],
   "note": ""
  },
  {
   "property": "C23",
   "status": "proved",
   "theorems": [
    "C23_selects_months",
    "C23_all",
    "C23_groupings_partition",
    "C23_empty_raises"
   ],
   "note": "strictly ascending index"
  },
  {
   "property": "C24",
   "status": "proved",
   "theorems": [
    "C24_gap_free",
    "C24_gaps",
    "C24_ascending"
   ],
   "note": "both generations of pandas"
  },
  {
   "property": "C25",
   "status": "proved",
   "theorems": [
    "C25_own_day_float",
    "C25_own_day",
    "C25_own_day_divided"
   ],
   "note": ""
  },
  {
   "property": "C26",
   "status": "proved",
   "theorems": [
    "C26_count",
    "C26_zero_iff_equidistant",
    "C26_current_pandas"
   ],
   "note": "count, equidistance, AttributeError on pandas without Timedelta.delta"
  },
  {
   "property": "C27",
   "status": "proved",
   "theorems": [
    "C27_block",
    "C27_contiguous",
    "C27_invalid_shift",
    "C27_incomplete_survives"
   ],
   "note": "exact block for sorted frames; single-row deviation"
  },
  {
   "property": "C28",
   "status": "proved",
   "theorems": [
    "C28_precip_roundtrip",
    "C28_mean_roundtrip"
   ],
   "note": "exact extended reals, at the level of daily_from_hourly frames"
  },
  {
   "property": "C29",
   "status": "proved",
   "theorems": [
    "C29_columns",
    "C29_no_other_columns",
    "C29_missing_day",
    "C29_min_mean_max"
   ],
   "note": "columns of finite and missing values"
  },
  {
   "property": "C30",
   "status": "proved",
   "theorems": [
    "C30_rows",
    "C30_normalised_span",
    "C30_normalised_affine",
    "C30_constant_nan",
    "C30_plain_means"
   ],
   "note": "records of finite and missing values"
  },
  {
   "property": "C31",
   "status": "proved",
   "theorems": [
    "C31_linear_positive",
    "C31_increasing",
    "C31_continuous_at_0C",
    "C31_missing",
    "C31_elementwise"
   ],
   "note": "exact reals; temperatures above 0.53 K (the formula has a pole at 0.53 K)"
  },
  {
   "property": "C32",
   "status": "proved",
   "theorems": [
    "C32_dewpoint",
    "C32_monotone",
    "C32_dry_air",
    "C32_inverse_refuted"
   ],
   "note": "exact reals; inverse law refuted across the freezing point"
  },
  {
   "property": "C33",
   "status": "proved",
   "theorems": [
    "C33_sun_times"
   ],
   "note": "exact reals"
  },
  {
   "property": "C34",
   "status": "proved",
   "theorems": [
    "C34_between"
   ],
   "note": "exact real arithmetic; all options for the times of minimum and maximum; days of at least 3 h"
  },
  {
   "property": "C35",
   "status": "proved",
   "theorems": [
    "C35_attained",
    "C35_minimum_missed_refuted"
   ],
   "note": "exact real arithmetic; witness for the missed minimum"
  },
  {
   "property": "C36",
   "status": "proved",
   "theorems": [
    "C36_mean_and_range"
   ],
   "note": "exact real arithmetic"
  },
  {
   "property": "C37",
   "status": "proved",
   "theorems": [
    "C37_min_max",
    "C37_course_from_data"
   ],
   "note": "second theorem: courses computed from hourly data have the required form when all 24 hours of the months were observed and the mean course is not constant"
  },
  {
   "property": "C38",
   "status": "proved",
   "theorems": [
    "C38_mean"
   ],
   "note": ""
  },
  {
   "property": "C39",
   "status": "proved",
   "theorems": [
    "C39_night"
   ],
   "note": ""
  },
  {
   "property": "C40",
   "status": "proved",
   "theorems": [
    "C40_polar_raises",
    "C40_only_long_days",
    "C40_example_value_error"
   ],
   "note": "raises for every pandas version; the unreachable remainder of the branch is not modelled"
  },
  {
   "property": "C41",
   "status": "proved",
   "theorems": [
    "C41_potential_shape",
    "C41_mean_course",
    "C41_negative_is_zero",
    "C41_missing_is_missing"
   ],
   "note": ""
  },
  {
   "property": "C42",
   "status": "proved",
   "theorems": [
    "C42_polar_night",
    "C42_sun_below_horizon"
   ],
   "note": "negative result"
  },
  {
   "property": "C43",
   "status": "proved",
   "theorems": [
    "C43_flat",
    "C43_any_terrain",
    "C43_sum",
    "C43_zenith_nan"
   ],
   "note": "exact real arithmetic; the zenith case (excluded by the property) is shown to give NaN"
  },
  {
   "property": "C44",
   "status": "proved",
   "theorems": [
    "C44_angstroem_bounds",
    "C44_via_ssd",
    "C44_no_daylight",
    "C44_via_bc"
   ],
   "note": ""
  },
  {
   "property": "C45",
   "status": "proved",
   "theorems": [
    "C45_angstroem_groups",
    "C45_bristcamp_groups",
    "C45_monthly_skips_bristcamp",
    "C45_untouched",
    "C45_interrupted"
   ],
   "note": "scipy fits are arbitrary functions that may raise"
  },
  {
   "property": "C46",
   "status": "proved",
   "theorems": [
    "C46_between_0_and_100",
    "C46_between_0_and_100_binary64"
   ],
   "note": "exact reals, and binary64 for arbitrary saturation-pressure and sine functions"
  },
  {
   "property": "C47",
   "status": "proved",
   "theorems": [
    "C47_min_max",
    "C47_isothermal_day_missing",
    "C47_any_hours"
   ],
   "note": ""
  },
  {
   "property": "C48",
   "status": "proved",
   "theorems": [
    "C48_minimal"
   ],
   "note": ""
  },
  {
   "property": "C49",
   "status": "proved",
   "theorems": [
    "C49_preserved_mean",
    "C49_no_observation",
    "C49_clipping_refuted"
   ],
   "note": ""
  },
  {
   "property": "C50",
   "status": "proved",
   "theorems": [
    "C50_cosine",
    "C50_equal",
    "C50_refused"
   ],
   "note": ""
  },
  {
   "property": "C51",
   "status": "proved",
   "theorems": [
    "C51_random",
    "C51_mean_refuted"
   ],
   "note": "includes the witness that the daily mean is not preserved"
  },
  {
   "property": "C52",
   "status": "proved",
   "theorems": [
    "C52_in_sync",
    "C52_shared_overwritten",
    "C52_sharing_refuted",
    "C52_location",
    "C52_statistics"
   ],
   "note": "worlds of stations and statistics objects with references; the fitting routines are arbitrary functions"
  },
  {
   "property": "C53",
   "status": "proved",
   "theorems": [
    "C53_gap_free",
    "C53_accepted"
   ],
   "note": ""
  },
  {
   "property": "C54",
   "status": "proved",
   "theorems": [
    "C54_refused_unchanged",
    "C54_stepped_frequency",
    "C54_no_coordinates",
    "C54_constructor",
    "C54_constructor_refused",
    "C54_exception"
   ],
   "note": ""
  },
  {
   "property": "C55",
   "status": "proved",
   "theorems": [
    "C55_own_column",
    "C55_other_objects",
    "C55_statistics"
   ],
   "note": ""
  },
  {
   "property": "C56",
   "status": "proved",
   "theorems": [
    "C56_only_changed_by",
    "C56_stale",
    "C56_stale_timezone"
   ],
   "note": ""
  },
  {
   "property": "C57",
   "status": "proved",
   "theorems": [
    "C57_equality",
    "C57_reflexive",
    "C57_roundtrip",
    "C57_wrong_shape",
    "C57_incomplete"
   ],
   "note": "JSON values (trees) as exchanged with json.dump/json.load; the text layer and its float printing are trusted to be exact for doubles"
  },
  {
   "property": "C58",
   "status": "proved",
   "theorems": [
    "C58_roundtrip",
    "C58_writable",
    "C58_temperature_month_missing",
    "C58_humidity_single_row",
    "C58_radiation_month_missing",
    "C58_second_trip"
   ],
   "note": "at exact reals; pandas' to_json with double_precision=10 is modelled as rounding to ten decimals, the JSON text layer is trusted"
  },
  {
   "property": "C59",
   "status": "proved",
   "theorems": [
    "C59_access_agrees",
    "C59_write_read",
    "C59_reserved_refuted",
    "C59_copy_independent",
    "C59_copy_shares",
    "C59_copy_self_refuted",
    "C59_deepcopy",
    "C59_deepcopy_ends",
    "C59_deepcopy_cycle",
    "C59_deepcopy_sharing_refuted",
    "C59_type_names"
   ],
   "note": "object heap with dict objects whose __dict__ slot is the dict itself; keys that are attributes of dict are the exception shown by C59_reserved_refuted"
  },
  {
   "property": "C60",
   "status": "proved",
   "theorems": [
    "C60_roundtrip",
    "C60_current_pandas",
    "C60_missing",
    "C60_value_lost",
    "C60_close"
   ],
   "note": "string level; values exact reals and infinities; frames and headers restricted by frame_ok and header_ok (SpecSmet); pandas to_string and read_table are modelled, not verified; read_smet succeeds only with pandas that allows del index.name"
  },
  {
   "property": "C61",
   "status": "proved",
   "theorems": [
    "C61_exchanged"
   ],
   "note": "same restrictions as C60; time stamps cut to days"
  },
  {
   "property": "C62",
   "status": "proved",
   "theorems": [
    "C62_metadata",
    "C62_header",
    "C62_clean_entry",
    "C62_no_equals"
   ],
   "note": "headers restricted by header_ok: distinct keys, single lines, no quotes; C62_header also needs keys that differ after stripping"
  },
  {
   "property": "C63",
   "status": "proved",
   "theorems": [
    "C63_file_lost",
    "C63_no_rows"
   ],
   "note": "the error is NameError before Python 3.12 (comprehension scope) and UnboundLocalError after; the model uses the latter"
  },
  {
   "property": "C64",
   "status": "proved",
   "theorems": [
    "C64_stamps",
    "C64_hours",
    "C64_rejected",
    "C64_current_pandas",
    "C64_dataset",
    "C64_values",
    "C64_precip_f64",
    "C64_sunshine"
   ],
   "note": "records instead of CSV text; date text of eight digits; the pandas CSV reader and the order of glob are outside the model"
  },
  {
   "property": "C65",
   "status": "proved",
   "theorems": [
    "C65_false_is_true",
    "C65_last_line_ignored",
    "C65_none_keeps",
    "C65_several_files"
   ],
   "note": "for every function from lines to tables in place of pandas.read_csv"
  },
  {
   "property": "C66",
   "status": "proved",
   "theorems": [
    "C66_station",
    "C66_limit",
    "C66_placement",
    "C66_keeps_observations",
    "C66_between",
    "C66_far_and_ends",
    "C66_current_pandas"
   ],
   "note": "exact reals; AttributeError on pandas without Series.append"
  },
  {
   "property": "C67",
   "status": "proved",
   "theorems": [
    "C67_series_rejected_by_equal",
    "C67_frame_accepted_by_equal"
   ],
   "note": "negative result about the documented argument type"
  },
  {
   "property": "C68",
   "status": "proved",
   "theorems": [
    "C68_hours_from_boxes"
   ],
   "note": ""
  },
  {
   "property": "C69",
   "status": "proved",
   "theorems": [
    "C69_no_rain",
    "C69_single_pair"
   ],
   "note": "exact arithmetic"
  },
  {
   "property": "C70",
   "status": "proved",
   "theorems": [
    "C70_listing",
    "C70_misleading_refuted"
   ],
   "note": "any index"
  },
  {
   "property": "C71",
   "status": "proved",
   "theorems": [
    "C71_default_sun_times",
    "C71_all_defaults",
    "C71_needs_temp",
    "C71_invalid_method"
   ],
   "note": "negative result"
  },
  {
   "property": "C72",
   "status": "proved",
   "theorems": [
    "C72_jump"
   ],
   "note": "negative result"
  },
  {
   "property": "C73",
   "status": "proved",
   "theorems": [
    "C73_monthly_shift"
   ],
   "note": ""
  },
  {
   "property": "C74",
   "status": "proved",
   "theorems": [
    "C74_slope_at_night",
    "C74_midnight"
   ],
   "note": "negative result"
  },
  {
   "property": "C75",
   "status": "proved",
   "theorems": [
    "C75_negative_range_is_nan"
   ],
   "note": "negative result"
  },
  {
   "property": "C76",
   "status": "proved",
   "theorems": [
    "C76_table",
    "C76_lookup",
    "C76_missing_class"
   ],
   "note": ""
  },
  {
   "property": "C77",
   "status": "proved",
   "theorems": [
    "C77_combined_by_position",
    "C77_wrong_length"
   ],
   "note": "negative result"
  },
  {
   "property": "C78",
   "status": "proved",
   "theorems": [
    "C78_exact_fit"
   ],
   "note": "the fit itself (scipy.optimize.curve_fit) is not modelled, only the rows handed to it"
  },
  {
   "property": "C79",
   "status": "proved",
   "theorems": [
    "C79_linear_dewpoint",
    "C79_wave_mean_zero",
    "C79_refused"
   ],
   "note": ""
  },
  {
   "property": "C80",
   "status": "proved",
   "theorems": [
    "C80_season_with_gap"
   ],
   "note": "current pandas (Index.to_datetime removed)"
  },
  {
   "property": "C81",
   "status": "proved",
   "theorems": [
    "C81_cascade_conserves"
   ],
   "note": "exact reals, shift 0; success is a hypothesis, shown reachable by C81_met"
  },
  {
   "property": "C82",
   "status": "proved",
   "theorems": [
    "C82_humidity_before_temperature",
    "C82_silent"
   ],
   "note": ""
  },
  {
   "property": "C83",
   "status": "proved",
   "theorems": [
    "C83_shift_ignored",
    "C83_shift_acts",
    "C83_unknown_method",
    "C83_master_current"
   ],
   "note": ""
  },
  {
   "property": "C84",
   "status": "proved",
   "theorems": [
    "C84_failed_statistics"
   ],
   "note": ""
  },
  {
   "property": "C85",
   "status": "proved",
   "theorems": [
    "C85_precipitation_equal",
    "C85_wind"
   ],
   "note": ""
  },
  {
   "property": "C86",
   "status": "proved",
   "theorems": [
    "C86_dropped",
    "C86_empty_column_written"
   ],
   "note": "same restrictions as C60; the reading half uses pandas that allows del index.name"
  },
  {
   "property": "C87",
   "status": "proved",
   "theorems": [
    "C87_columns",
    "C87_no_temp",
    "C87_mode",
    "C87_header",
    "C87_no_header"
   ],
   "note": "for every function from lines to tables in place of pandas.read_csv"
  },
  {
   "property": "C88",
   "status": "proved",
   "theorems": [
    "C88_joined",
    "C88_overlap",
    "C88_no_files"
   ],
   "note": "times without repetition within a file; pandas' outer join is modelled, not verified"
  },
  {
   "property": "C89",
   "status": "proved",
   "theorems": [
    "C89_wind",
    "C89_wind_outcome",
    "C89_temperature",
    "C89_humidity",
    "C89_data",
    "C89_radiation",
    "C89_precipitation",
    "C89_no_season"
   ],
   "note": "fitting routines are parameters; is_pairs (regression pairs) for complete hourly indices; for the percentile of the cascade statistics numpy's linear percentile is modelled"
  },
  {
   "property": "C90",
   "status": "proved",
   "theorems": [
    "C90_wind"
   ],
   "note": "the residual bound of the fit is a hypothesis on the fitting routine"
  },
  {
   "property": "C91",
   "status": "proved",
   "theorems": [
    "C91_temperature"
   ],
   "note": "exact reals"
  },
  {
   "property": "C92",
   "status": "proved",
   "theorems": [
    "C92_formulas",
    "C92_reproduces",
    "C92_categories"
   ],
   "note": "least squares is a hypothesis on the regression routine (LinReg.ols shows it can be met); exact reals; temperatures above 0.53 K"
  },
  {
   "property": "C93",
   "status": "proved",
   "theorems": [
    "C93_calibrates",
    "C93_disaggregates",
    "C93_conserves"
   ],
   "note": "exact reals; integer percentile 0..100; record index strictly increasing; draws above 1 - 10^-15 are excluded because the default tables sum up to slightly less than 1 (C09)"
  },
  {
   "property": "C94",
   "status": "proved",
   "theorems": [
    "C94_cascade_up_to_rounding",
    "C94_own_amount_refuted",
    "C94_equal_up_to_rounding"
   ],
   "note": "binary64 through Flocq; the sums on the left-hand side are exact sums of the returned doubles"
  },
  {
   "property": "C95",
   "status": "proved",
   "theorems": [
    "C95_own_sky",
    "C95_sunshine",
    "C95_temperature",
    "C95_mean_course",
    "C95_sunshine_calibrated"
   ],
   "note": "Exact arithmetic; the scipy fit is any function whose residuals are at most eps. Examples: a station on the equator with 12 hour days, uncalibrated and calibrated."
  },
  {
   "property": "C96",
   "status": "proved",
   "theorems": [
    "C96_objective",
    "C96_reproduces",
    "C96_day_before_gap"
   ],
   "note": "Exact arithmetic. The minimiser is any function with the stated bias; the example uses one that is exact on single days."
  },
  {
   "property": "C97",
   "status": "proved",
   "theorems": [
    "C97_gap_free",
    "C97_fill_gaps",
    "C97_gaps",
    "C97_equally_spaced_refuted"
   ],
   "note": "Daily stamps at midnight. C97_equally_spaced_refuted shows the deviation at level 8. That current pandas also drops the frequency alias 'L' of fmin_index is not modelled."
  },
  {
   "property": "C98",
   "status": "proved",
   "theorems": [
    "C98_order",
    "C98_repeat",
    "C98_anywhere",
    "C98_last_call",
    "C98_untouched",
    "C98_humidity",
    "C98_sun_times",
    "C98_order_refuted"
   ],
   "note": "Random draws are an argument of each call; with numpy's global generator the draws themselves depend on the order of calls. C98_order_refuted is the witness for stations without sun times."
  },
  {
   "property": "C99",
   "status": "proved",
   "theorems": [
    "C99_sample_data",
    "C99_new_object",
    "C99_nearly_distributions",
    "C99_distributions_refuted",
    "C99_works",
    "C99_new_object_fails"
   ],
   "note": "Exact arithmetic; the tables are compared with a second copy generated from the text of cascade.py. C99_distributions_refuted: some cells do not add up to 1 exactly."
  },
  {
   "property": "C100",
   "status": "proved",
   "theorems": [
    "C100_master_up_to_rounding",
    "C100_left_to_right",
    "C100_call",
    "C100_exact_refuted"
   ],
   "note": "binary64. Master values must be complete on the day considered; the summation order of pandas is left open. C100_exact_refuted is the witness that the amount is not kept exactly."
  },
  {
   "property": "C101",
   "status": "proved",
   "theorems": [
    "C101_same_success",
    "C101_five_minutes_up_to_rounding",
    "C101_plain_sum",
    "C101_compensated_sum"
   ],
   "note": "binary64. kahan in FiveModel is a model of the summation in pandas, not code of the repository; the theorem only needs sums_within."
  },
  {
   "property": "C102",
   "status": "proved",
   "theorems": [
    "C102_table",
    "C102_normalised",
    "C102_min_max",
    "C102_same_formula",
    "C102_maximum_refuted"
   ],
   "note": "binary64. C102_same_formula ties the generic function to the modelled disaggregate_temperature. C102_maximum_refuted is the witness above tmax."
  },
  {
   "property": "C103",
   "status": "proved",
   "theorems": [
    "C103_same_on_complete_days",
    "C103_by_position",
    "C103_conservation_refuted",
    "C103_agreement_refuted"
   ],
   "note": "The by-position reading is precip_master_station_pos; the by-label one is the model of C21/C100. Which of the two applies depends on the installed pandas; versions without iteritems raise before (C21_current_pandas)."
  },
  {
   "property": "C104",
   "status": "proved",
   "theorems": [
    "C104_same_outcome",
    "C104_arrays_of_the_cascade",
    "C104_every_level_conserves",
    "C104_quarter_hours",
    "C104_box_series"
   ],
   "note": "C104_same_outcome for every number type; sums over the reals. Test mode is the separate definition disagg_prec_cascade_test, tied to the ordinary one by C104_same_outcome."
  },
  {
   "property": "C105",
   "status": "proved",
   "theorems": [
    "C105_coarse_levels",
    "C105_conservation",
    "C105_rows_absent",
    "C105_always_returned",
    "C105_too_fine",
    "C105_level_zero"
   ],
   "note": "Exact arithmetic for the values; the rejected levels for every number type. C105_rows_absent is the deviation at the end of the index."
  },
  {
   "property": "C106",
   "status": "proved",
   "theorems": [
    "C106_same_formula",
    "C106_sine_min_max",
    "C106_within",
    "C106_extremes",
    "C106_sine_mean"
   ],
   "note": "Doubles via Flocq; the cosine is any function of the stated accuracy (the correctly rounded one is shown to be such a function), the hours of minimum and maximum are given integers. C106_same_formula ties the formulas to the model of C34-C40."
  },
  {
   "property": "C107",
   "status": "proved",
   "theorems": [
    "C107_same_formula",
    "C107_cosine"
   ],
   "note": "Doubles via Flocq; cosine as in C106. C107_same_formula ties the formula to the model of C50."
  },
  {
   "property": "C108",
   "status": "proved",
   "theorems": [
    "C108_equal_precipitation",
    "C108_cascade_precipitation",
    "C108_wind",
    "C108_temperature_extremes",
    "C108_temperature_mean",
    "C108_radiation",
    "C108_unfilled",
    "C108_humidity_extremes"
   ],
   "note": "Exact arithmetic. last_call names the deciding call; that a call fails in the session exactly when it fails on the untouched station is C98_anywhere. Humidity: the min_max method without preserving the mean."
  },
  {
   "property": "C109",
   "status": "proved",
   "theorems": [
    "C109_means",
    "C109_same_formula",
    "C109_pot_rad",
    "C109_mean_course",
    "C109_back"
   ],
   "note": "Doubles via Flocq; the mean is any function with the stated error, shown for every order of additions and for compensated summation (C109_means). C109_same_formula ties the formula to the model of C38 to C41."
  },
  {
   "property": "C110",
   "status": "proved",
   "theorems": [
    "C110_min_max",
    "C110_minimum_refuted"
   ],
   "note": "binary64 via Flocq; temperatures of modest size, hours at most twice the daily range above the daily minimum; C110_minimum_refuted shows the daily minimum of humidity is not a lower bound."
  },
  {
   "property": "C111",
   "status": "proved",
   "theorems": [
    "C111_refused",
    "C111_radiation_refused",
    "C111_sun_times_stay",
    "C111_names",
    "C111_options"
   ],
   "note": "The order in which a missing frame and a wrong name are noticed is not represented; either way the call raises."
  },
  {
   "property": "C112",
   "status": "proved",
   "theorems": [
    "C112_sums",
    "C112_same_formula",
    "C112_mean_min_max",
    "C112_sum_columns",
    "C112_mean_within_refuted"
   ],
   "note": "How pandas adds is left open: any order of the additions, or compensated summation as in its groupby kernels, is covered. Negative values and days with more than 24 records are outside the bounds stated."
  },
  {
   "property": "C113",
   "status": "proved",
   "theorems": [
    "C113_station",
    "C113_subnormal_refuted"
   ],
   "note": "np.interp is read as slope * distance + left value, each operation rounded once (no fused multiply-add)."
  },
  {
   "property": "C114",
   "status": "proved",
   "theorems": [
    "C114_mean",
    "C114_same_formula",
    "C114_exact_mean_refuted"
   ],
   "note": "The mean of the course is left open (means_within); Kahan sums and any order of plain additions meet it."
  },
  {
   "property": "C115",
   "status": "proved",
   "theorems": [
    "C115_read",
    "C115_wrong_count",
    "C115_current_pandas",
    "C115_other_entries",
    "C115_own_multiplier_refuted"
   ],
   "note": "pandas.read_table is modelled as tokenizer by blanks; cells are plain decimals (no exponents), time stamps YYYY-MM-DDThh:mm, no quotation marks."
  },
  {
   "property": "C116",
   "status": "proved",
   "theorems": [
    "C116_consistent",
    "C116_ready",
    "C116_stale_refuted"
   ],
   "note": "Frames assigned by the program are assumed to be frames as pandas allows them (columns as long as the index; an index with a frequency has no repeated stamps)."
  },
  {
   "property": "C117",
   "status": "proved",
   "theorems": [
    "C117_labels",
    "C117_after_the_end",
    "C117_station",
    "C117_repeated_labels",
    "C117_covered_hours"
   ],
   "note": "Exact arithmetic; the station's sun times are known."
  },
  {
   "property": "C118",
   "status": "proved",
   "theorems": [
    "C118_no_data",
    "C118_wind",
    "C118_humidity",
    "C118_temperature",
    "C118_precipitation",
    "C118_radiation",
    "C118_no_temperature"
   ],
   "note": "Success for temperature is stated for sun times with at least three hours of daylight (see C40 for the others) and monthly shifts that are numbers; for radiation without supplied potential radiation, with sun times of the same days and parameter tables for all months. Success of 'cascade' and 'masterstation' is the subject of C79-C83 and C88-C89."
  },
  {
   "property": "C119",
   "status": "proved",
   "theorems": [
    "C119_wind",
    "C119_temperature",
    "C119_humidity",
    "C119_precipitation",
    "C119_radiation",
    "C119_no_record"
   ],
   "note": "Daily data given to calc_radiation_stats cover consecutive days; the records hold no infinities for wind; scipy's routines are arbitrary functions that may raise."
  },
  {
   "property": "C120",
   "status": "proved",
   "theorems": [
    "C120_level",
    "C120_statistics",
    "C120_hourly",
    "C120_five_minutes",
    "C120_percentile",
    "C120_all_draws_refuted"
   ],
   "note": "np.percentile is an arbitrary function that raises for an empty array. The range of the observations excludes quotients that underflow."
  },
  {
   "property": "C121",
   "status": "proved",
   "theorems": [
    "C121_step",
    "C121_statistics",
    "C121_averaged"
   ],
   "note": "Counts over pairs of observations in SpecCountRound, independent of the loop; np.percentile is an arbitrary function (raising for an empty array in C121_averaged)."
  },
  {
   "property": "C122",
   "status": "proved",
   "theorems": [
    "C122_same_formula",
    "C122_daily_mean",
    "C122_no_observation",
    "C122_dew_point",
    "C122_minimal",
    "C122_saturation_refuted"
   ],
   "note": "The mean is a parameter (means_within); C122_same_formula shows that the modelled function is the instance with nanmean. The vapour pressure is an arbitrary function."
  },
  {
   "property": "C123",
   "status": "proved",
   "theorems": [
    "C123_same_function",
    "C123_record",
    "C123_no_level",
    "C123_only_no_level"
   ],
   "note": "BuildRecordModel is build_casc with the caller's column as part of the outcome; C123_same_function shows that it is the function the other properties speak of."
  },
  {
   "property": "C124",
   "status": "proved",
   "theorems": [
    "C124_same_angstroem",
    "C124_same_bristow",
    "C124_same_random",
    "C124_angstroem",
    "C124_angstroem_refuted",
    "C124_bristow",
    "C124_random",
    "C124_random_zero"
   ],
   "note": "The functions exp, log, power and mean are parameters with the stated accuracy or monotonicity; C124_exp_exists, C124_pow_exists, C124_functions_exist and C124_mean_exists exhibit such functions (the correctly rounded ones)."
  },
  {
   "property": "C125",
   "status": "proved",
   "theorems": [
    "C125_same",
    "C125_same_series",
    "C125_flat",
    "C125_flat_exact",
    "C125_nan",
    "C125_night",
    "C125_any_terrain"
   ],
   "note": "Sine, cosine, arc sine and arc cosine are parameters; only sine and cosine need to be accurate. C125_functions_exist exhibits the correctly rounded ones."
  },
  {
   "property": "C126",
   "status": "proved",
   "theorems": [
    "C126_same",
    "C126_range",
    "C126_near",
    "C126_midnight_sun",
    "C126_polar_night"
   ],
   "note": "Sine, cosine, tangent and arc cosine are parameters; C126_functions_exist exhibits such functions. Between 0.999 and 1 + 1e-10 in size of the exact cosine only C126_range speaks (the arc cosine is badly conditioned there)."
  },
  {
   "property": "C127",
   "status": "proved",
   "theorems": [
    "C127_same",
    "C127_pressure",
    "C127_dew_point",
    "C127_missing",
    "C127_humidity"
   ],
   "note": "Exponential function and logarithm are parameters; C127_functions_exist exhibits such functions. A double t counts as water when t >= the double next to 273.15, as in the code."
  },
  {
   "property": "C128",
   "status": "proved",
   "theorems": [
    "C128_same",
    "C128_linear"
   ],
   "note": "Exponential function and sine are parameters; C128_met exhibits such functions."
  },
  {
   "property": "C129",
   "status": "proved",
   "theorems": [
    "C129_same",
    "C129_hours",
    "C129_temperatures",
    "C129_sine_mean"
   ],
   "note": "Rounding, integer conversion and trigonometric functions are parameters; C129_functions_exist exhibits the former. C129_met: at 45 degrees north all days qualify."
  },
  {
   "property": "C130",
   "status": "proved",
   "theorems": [
    "C130_same",
    "C130_shift",
    "C130_then_hours"
   ],
   "note": "Trigonometric functions and the mean of a month are parameters; C130_mean_exists exhibits such a mean."
  },
  {
   "property": "C131",
   "status": "proved",
   "theorems": [
    "C131_absent_month",
    "C131_missing_shift",
    "C131_other_months",
    "C131_calibrated"
   ],
   "note": "Completes C118, which assumes numbers in the table."
  },
  {
   "property": "C132",
   "status": "proved",
   "theorems": [
    "C132_same",
    "C132_table",
    "C132_humidity"
   ],
   "note": "Sum and mean are parameters; C132_total_exists shows that adding from left to right is such a sum, C130_mean_exists exhibits such a mean."
  },
  {
   "property": "C133",
   "status": "proved",
   "theorems": [
    "C133_clear_sky"
   ],
   "note": "The trigonometric functions and pandas' mean are parameters; C125_functions_exist and C109_means exhibit such functions."
  },
  {
   "property": "C134",
   "status": "proved",
   "theorems": [
    "C134_number",
    "C134_flat",
    "C134_clear_sky",
    "C134_equator"
   ],
   "note": "Nothing is claimed for the sun due east or west, where the arc sine's argument is 1 up to rounding. C134_functions_exist exhibits functions as required."
  },
  {
   "property": "C135",
   "status": "proved",
   "theorems": [
    "C135_slope",
    "C135_series"
   ],
   "note": "Closer to east and west the error grows without bound of this size; there only C134 and C125_any_terrain speak. C135_arcsine_exists and C134_functions_exist exhibit functions as required."
  },
  {
   "property": "C136",
   "status": "proved",
   "theorems": [
    "C136_same_formula",
    "C136_via_ssd",
    "C136_clear_sky"
   ],
   "note": "C136_same_formula ties the model for any kind of number to the exact model. C136_clear_sky asks, like C133, that no computed potential value of the day is missing and that the clear-sky mean is at least 1 W/m2."
  },
  {
   "property": "C137",
   "status": "proved",
   "theorems": [
    "C137_same_formula",
    "C137_via_bc"
   ],
   "note": "C137_same_formula ties the model for any kind of number to the exact model; C137_functions_exist exhibits functions as required."
  },
  {
   "property": "C138",
   "status": "proved",
   "theorems": [
    "C138_some_days",
    "C138_other_days",
    "C138_long_sunshine"
   ],
   "note": "Deviation: missing sun times are not reported."
  },
  {
   "property": "C139",
   "status": "proved",
   "theorems": [
    "C139_any_days",
    "C139_exact_days"
   ],
   "note": ""
  },
  {
   "property": "C140",
   "status": "proved",
   "theorems": [
    "C140_equal",
    "C140_wind",
    "C140_temperature",
    "C140_humidity_equal",
    "C140_humidity_min_max",
    "C140_humidity_dew",
    "C140_humidity_table",
    "C140_radiation",
    "C140_radiation_course",
    "C140_humidity_linear",
    "C140_sine",
    "C140_temperature_range_refuted"
   ],
   "note": "The correction of humidity to the daily mean (preserve_daily_mean) is covered for all methods of humidity but 'month_hour_precip_mean', where the claim is for results without it."
  }
 ]
}