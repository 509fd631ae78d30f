{
 "claims": [
  {
   "property": "C01",
   "status": "proved",
   "theorems": [
    "C01_jul_day_next",
    "C01_jul_day_counts_days",
    "C01_jul_day_order",
    "C01_jul_day_rejects"
   ],
   "note": "Proved in full about the model."
  },
  {
   "property": "C02",
   "status": "proved",
   "theorems": [
    "C02_time_difference_elapsed",
    "C02_time_difference_antisym",
    "C02_time_difference_additive",
    "C02_time_difference_sign",
    "C02_time_difference_missing",
    "C02_time_difference_bad_hour",
    "C02_sign_without_valid_dates_refuted"
   ],
   "note": "Proved in full about the model, with the conditions stated in the theorems. Where a wider reading fails of the code, the failure itself is proved: C02_sign_without_valid_dates_refuted: Without validity of the dates the sign can be wrong: 31 February against 1 March."
  },
  {
   "property": "C03",
   "status": "proved",
   "theorems": [
    "C03_day_in_year_elapsed",
    "C03_feb29_is_mar1",
    "C03_day_in_year_rejects",
    "C03_day_in_year_range",
    "C03_day_in_year_surjective",
    "C03_which_pentad",
    "C03_which_pentad_range",
    "C03_pentad_to_month_day",
    "C03_day_in_year_exact",
    "C03_which_pentad_exact"
   ],
   "note": "Proved in full about the model."
  },
  {
   "property": "C04",
   "status": "proved",
   "theorems": [
    "C04_yesterday",
    "C04_next_month",
    "C04_last_month",
    "C04_months_inverse",
    "C04_season_zero_refuted",
    "C04_season"
   ],
   "note": "Proved in full about the model, with the conditions stated in the theorems. Where a wider reading fails of the code, the failure itself is proved: C04_season_zero_refuted: season(0) should be rejected but is answered like December."
  },
  {
   "property": "C05",
   "status": "proved",
   "theorems": [
    "C05_year_month_gen",
    "C05_termination_refuted"
   ],
   "note": "Proved in full about the model, with the conditions stated in the theorems. Where a wider reading fails of the code, the failure itself is proved: C05_termination_refuted: Finding: with an end month before the start month in the same year, or an end month outside 1..12, the assertions pass and the generator never stops."
  },
  {
   "property": "C06",
   "status": "proved",
   "theorems": [
    "C06_date_check",
    "C06_date_check_missing",
    "C06_date_check_low_month",
    "C06_bad_month_fails_refuted",
    "C06_month_match"
   ],
   "note": "Proved in full about the model, with the conditions stated in the theorems. Where a wider reading fails of the code, the failure itself is proved: C06_bad_month_fails_refuted: Finding: a month above 12 (or below -11) with a positive day raises IndexError instead of failing the check."
  },
  {
   "property": "C07",
   "status": "proved",
   "theorems": [
    "C07_position_check",
    "C07_position_check_missing",
    "C07_time_check",
    "C07_nan_hour_fails_refuted",
    "C07_report_longitude"
   ],
   "note": "Proved in full about the model, with the conditions stated in the theorems. Where a wider reading fails of the code, the failure itself is proved: C07_nan_hour_fails_refuted: Finding: an hour that is NaN (not None) passes the time check."
  },
  {
   "property": "C08",
   "status": "proved",
   "theorems": [
    "C08_climatology_check",
    "C08_climatology_check_missing",
    "C08_climatology_check_bool",
    "C08_climatology_check_mono",
    "C08_nan_fails_climatology_refuted",
    "C08_value_check",
    "C08_no_normal_check",
    "C08_hard_limit",
    "C08_hard_limit_missing_or_not_finite",
    "C08_hard_limit_bad_limits",
    "C08_hard_limit_mono",
    "C08_supersat_check",
    "C08_supersat_missing",
    "C08_freeze_check",
    "C08_freeze_missing",
    "C08_freeze_mono"
   ],
   "note": "Proved in full about the model, with the conditions stated in the theorems. Where a wider reading fails of the code, the failure itself is proved: C08_nan_fails_climatology_refuted: Finding: a NaN value passes every climatology limit."
  },
  {
   "property": "C09",
   "status": "proved",
   "theorems": [
    "C09_stdev_check",
    "C09_stdev_check_missing",
    "C09_stdev_check_raises",
    "C09_stdev_check_mono",
    "C09_stdev_nan_fails_refuted",
    "C09_lowbar_check",
    "C09_lowbar_other"
   ],
   "note": "Proved in full about the model, with the conditions stated in the theorems. Where a wider reading fails of the code, the failure itself is proved: C09_stdev_nan_fails_refuted: A value that is not a number passes the check against the standard deviation."
  },
  {
   "property": "C10",
   "status": "proved",
   "theorems": [
    "C10_lat_row",
    "C10_lat_clamped_outside",
    "C10_lat_monotone",
    "C10_lon_column",
    "C10_lon_periodic",
    "C10_lat_centre",
    "C10_lat_centre_inverse",
    "C10_lon_centre",
    "C10_lon_centre_inverse"
   ],
   "note": "Proved in full about the model."
  },
  {
   "property": "C11",
   "status": "proved",
   "theorems": [
    "C11_mds_lat_row",
    "C11_mds_lon_column",
    "C11_mds_lat_agrees",
    "C11_mds_lon_agrees",
    "C11_mds_lon_above_180_refuted",
    "C11_mds_lat_exact",
    "C11_mds_lon_exact"
   ],
   "note": "Proved in full about the model, with the conditions stated in the theorems. Where a wider reading fails of the code, the failure itself is proved: C11_mds_lon_above_180_refuted: Finding: for longitudes above 180 (accepted by the position check and by get_sst_daily) the MDS column does not exist."
  },
  {
   "property": "C12",
   "status": "proved",
   "theorems": [
    "C12_bilinear_bounded",
    "C12_bilinear_exact",
    "C12_bilinear_corners",
    "C12_bilinear_raises"
   ],
   "note": "Proved in full about the model."
  },
  {
   "property": "C13",
   "status": "proved",
   "theorems": [
    "C13_four_points",
    "C13_four_points_on_grid",
    "C13_four_points_raises",
    "C13_degenerate_at_895S_refuted"
   ],
   "note": "Proved in full about the model, with the conditions stated in the theorems. Where a wider reading fails of the code, the failure itself is proved: C13_degenerate_at_895S_refuted: Finding: at latitude -89.5 the two latitudes coincide."
  },
  {
   "property": "C14",
   "status": "proved",
   "theorems": [
    "C14_fill",
    "C14_fill_exact",
    "C14_all_missing",
    "C14_missing_mean"
   ],
   "note": "Proved in full about the model."
  },
  {
   "property": "C15",
   "status": "proved",
   "theorems": [
    "C15_get_value",
    "C15_get_value_bad_date",
    "C15_get_value_mds_style",
    "C15_mds_style_above_180_refuted",
    "C15_get_value_ostia",
    "C15_interpolated",
    "C15_interpolated_range",
    "C15_interpolated_exact",
    "C15_interpolated_895S_refuted",
    "C15_interpolated_fine_grid_refuted",
    "C15_get_sst",
    "C15_get_sst_bad_args",
    "C15_get_sst_daily",
    "C15_get_sst_daily_above_180_refuted",
    "C15_get_hires_sst"
   ],
   "note": "Proved in full about the model, with the conditions stated in the theorems. Where a wider reading fails of the code, the failure itself is proved: C15_mds_style_above_180_refuted: Longitudes above 180 are within the documented range but beyond the array. C15_interpolated_895S_refuted: Finding: at latitude -89.5 interpolation raises whenever there is data at the position. C15_interpolated_fine_grid_refuted: Finding: on a finer grid a position with data can make the interpolation raise, because the corners are always one-degree cell centres. C15_get_sst_daily_above_180_refuted: So they are in a daily climatology."
  },
  {
   "property": "C16",
   "status": "proved",
   "theorems": [
    "C16_value",
    "C16_empty_raises",
    "C16_permutation_invariant",
    "C16_bounded",
    "C16_resistant",
    "C16_monotone",
    "C16_affine",
    "C16_integer_list_floor",
    "C16_integer_list_refuted"
   ],
   "note": "Proved in full about the model, with the conditions stated in the theorems. Where a wider reading fails of the code, the failure itself is proved: C16_integer_list_refuted: A list of integers does not get the mean of the same numbers as floats: Python 2 divides integers downwards."
  },
  {
   "property": "C17",
   "status": "proved",
   "theorems": [
    "C17_same_function",
    "C17_value",
    "C17_untrimmed",
    "C17_permutation_invariant",
    "C17_resistant",
    "C17_monotone",
    "C17_affine",
    "C17_std_value",
    "C17_std_untrimmed",
    "C17_variance_affine",
    "C17_variance_zero",
    "C17_nothing_left_refuted"
   ],
   "note": "Proved in full about the model, with the conditions stated in the theorems. Where a wider reading fails of the code, the failure itself is proved: C17_nothing_left_refuted: Finding: trimming by 1, or by 2 with an even number of values, leaves nothing and gives NaN."
  },
  {
   "property": "C18",
   "status": "proved",
   "theorems": [
    "C18_blacklist",
    "C18_id_is_generic"
   ],
   "note": "Proved in full about the model."
  },
  {
   "property": "C19",
   "status": "proved",
   "theorems": [
    "C19_lookup",
    "C19_zero",
    "C19_negative_raises",
    "C19_bad_table_raises",
    "C19_antitone"
   ],
   "note": "Proved in full about the model."
  },
  {
   "property": "C20",
   "status": "proved",
   "theorems": [
    "C20_get_chunks",
    "C20_cover",
    "C20_counter",
    "C20_large_gap_refuted"
   ],
   "note": "Proved in full about the model, with the conditions stated in the theorems. Where a wider reading fails of the code, the failure itself is proved: C20_large_gap_refuted: Finding: the scan starts from 10 \"empty\" months, so with a gap above 10 a record of one month gives no chunk, and a chunk can end before it starts."
  },
  {
   "property": "C21",
   "status": "proved",
   "theorems": [
    "C21_standard_stable",
    "C21_new_once",
    "C21_new_complete",
    "C21_append",
    "C21_prepend"
   ],
   "note": "Proved in full about the model."
  },
  {
   "property": "C22",
   "status": "proved",
   "theorems": [
    "C22_set_qc_accepts",
    "C22_set_get_same",
    "C22_set_get_other",
    "C22_history_last",
    "C22_history_none",
    "C22_range",
    "C22_keys_distinct",
    "C22_types_are_names",
    "C22_distinct_flags_refuted"
   ],
   "note": "Proved in full about the model, with the conditions stated in the theorems. Where a wider reading fails of the code, the failure itself is proved: C22_distinct_flags_refuted: Finding: in general two different flags can share a key: 'AT2'+'x' is 'AT'+'2x'."
  },
  {
   "property": "C23",
   "status": "proved",
   "theorems": [
    "C23_test_report",
    "C23_split",
    "C23_split_partition"
   ],
   "note": "Proved in full about the model."
  },
  {
   "property": "C24",
   "status": "proved",
   "theorems": [
    "C24_platforms",
    "C24_sort_refuted",
    "C24_pop_refuted"
   ],
   "note": "Proved in full about the model, with the conditions stated in the theorems. Where a wider reading fails of the code, the failure itself is proved: C24_sort_refuted: Finding: sorting the deck indexes every report a second time, so voyages then hold reports twice; and popping leaves the index pointing past the end. C24_pop_refuted: Taking a report from the deck does not update the index by identifier, which then leads beyond the list."
  },
  {
   "property": "C25",
   "status": "proved",
   "theorems": [
    "C25_saturated_runs"
   ],
   "note": "Proved in full about the model."
  },
  {
   "property": "C26",
   "status": "proved",
   "theorems": [
    "C26_repeated_values"
   ],
   "note": "Proved in full about the model."
  },
  {
   "property": "C27",
   "status": "proved",
   "theorems": [
    "C27_rounded_values",
    "C27_negative_count_refuted"
   ],
   "note": "Proved in full about the model, with the conditions stated in the theorems. Where a wider reading fails of the code, the failure itself is proved: C27_negative_count_refuted: Finding: a negative minimum count divides by zero on a voyage without values."
  },
  {
   "property": "C28",
   "status": "proved",
   "theorems": [
    "C28_buoy_types",
    "C28_iquam",
    "C28_greedy_facts",
    "C28_generic_pass"
   ],
   "note": "Proved in full about the model."
  },
  {
   "property": "C29",
   "status": "proved",
   "theorems": [
    "C29_spike"
   ],
   "note": "Proved in full about the model."
  },
  {
   "property": "C30",
   "status": "proved",
   "theorems": [
    "C30_track_check",
    "C30_interior",
    "C30_one_limit",
    "C30_not_checked",
    "C30_deck_720",
    "C30_mds_track_check",
    "C30_unsorted_refuted",
    "C30_one_flag_each_refuted"
   ],
   "note": "Proved in full about the model, with the conditions stated in the theorems. Where a wider reading fails of the code, the failure itself is proved: C30_unsorted_refuted: Out of time order, the check fails: a voyage that was not sorted. C30_one_flag_each_refuted: One report of deck 720 before 1891: the MDS check returns two flags."
  },
  {
   "property": "C31",
   "status": "proved",
   "theorems": [
    "C31_full_track_check",
    "C31_generic_passes",
    "C31_monotone"
   ],
   "note": "Proved in full about the model."
  },
  {
   "property": "C32",
   "status": "proved",
   "theorems": [
    "C32_modal_speed",
    "C32_modal_unique",
    "C32_too_short",
    "C32_speed_limits",
    "C32_limits_without_mode",
    "C32_limits_ordered",
    "C32_middle_limit_refuted"
   ],
   "note": "Proved in full about the model, with the conditions stated in the theorems. Where a wider reading fails of the code, the failure itself is proved: C32_middle_limit_refuted: Not every computed modal speed keeps the middle limit above the upper one: at 25.5 knots it is below."
  },
  {
   "property": "C33",
   "status": "proved",
   "theorems": [
    "C33_built_records",
    "C33_aground_check",
    "C33_new_aground_check",
    "C33_suffix",
    "C33_moving_end",
    "C33_rejects"
   ],
   "note": "Proved in full about the model."
  },
  {
   "property": "C34",
   "status": "proved",
   "theorems": [
    "C34_speed_check",
    "C34_new_speed_check",
    "C34_slow_passes",
    "C34_zero_window_refuted"
   ],
   "note": "Proved in full about the model, with the conditions stated in the theorems. Where a wider reading fails of the code, the failure itself is proved: C34_zero_window_refuted: A minimum window of zero days passes the parameter checks, but then every record of two or more reports ends in an IndexError."
  },
  {
   "property": "C35",
   "status": "proved",
   "theorems": [
    "C35_tail_check",
    "C35_comparisons_unique",
    "C35_tails_unique",
    "C35_room",
    "C35_start_prefix",
    "C35_end_suffix",
    "C35_disjoint",
    "C35_all_bad",
    "C35_unreliable",
    "C35_rejects"
   ],
   "note": "Proved in full about the model."
  },
  {
   "property": "C36",
   "status": "proved",
   "theorems": [
    "C36_bias_noise_check",
    "C36_uniform",
    "C36_exclusive",
    "C36_nothing_compared",
    "C36_steady",
    "C36_rejects"
   ],
   "note": "Proved in full about the model."
  },
  {
   "property": "C37",
   "status": "proved",
   "theorems": [
    "C37_accepts",
    "C37_flags",
    "C37_order",
    "C37_out_of_reach",
    "C37_neighbours_once",
    "C37_lonely",
    "C37_reach",
    "C37_reach_bounds",
    "C37_double_count_refuted",
    "C37_own_cell_refuted",
    "C37_missing_anomaly_refuted",
    "C37_bayes_accepts",
    "C37_bayes_flags",
    "C37_old_limits",
    "C37_pole_refuted"
   ],
   "note": "Proved in full about the model, with the conditions stated in the theorems. Where a wider reading fails of the code, the failure itself is proved: C37_double_count_refuted: \"Each neighbouring cell counts once\" fails next to the poles: with two columns at the equator, the cell half way round the world is counted twice. C37_own_cell_refuted: With four columns the report's own cell is among its neighbours. C37_missing_anomaly_refuted: A report without anomaly that passes the filter stops the check. C37_pole_refuted: \"Neighbours are nearby\" fails at the poles: a report at 89.5N is flagged because of one at 89.5S."
  },
  {
   "property": "C38",
   "status": "proved",
   "theorems": [
    "C38_bayes",
    "C38_refuses",
    "C38_good",
    "C38_gross",
    "C38_probability",
    "C38_prior",
    "C38_distance",
    "C38_distributions",
    "C38_saturation_refuted",
    "C38_flag",
    "C38_flag_monotone"
   ],
   "note": "Proved in full about the model, with the conditions stated in the theorems. Where a wider reading fails of the code, the failure itself is proved: C38_saturation_refuted: \"Sensible arguments always get an answer\" fails for an error function that is constant at its ends, such as the floating point one: when it does not change over the whole range the check divides by zero."
  },
  {
   "property": "C39",
   "status": "proved",
   "theorems": [
    "C39_central_angle",
    "C39_symmetric",
    "C39_zero",
    "C39_triangle",
    "C39_half_circumference",
    "C39_longitudes",
    "C39_meridian",
    "C39_equator",
    "C39_destination",
    "C39_destination_range_refuted",
    "C39_course",
    "C39_round_trip",
    "C39_course_special",
    "C39_second_formula_refuted",
    "C39_intermediate",
    "C39_intermediate_accepts",
    "C39_predict"
   ],
   "note": "Proved in full about the model, with the conditions stated in the theorems. Where a wider reading fails of the code, the failure itself is proved: C39_destination_range_refuted: \"The longitude of the destination is between -180 and 180\" fails when sailing west across the date line. C39_second_formula_refuted: When rounding makes the first formula of the course invalid, a second formula is used. It takes longitudes to grow to the west: over all pairs of points it gives the course mirrored east to west (the course that leads to the second point is its negative), and between -180 and 180 instead of between 0 and 360. East along the equator becomes west."
  },
  {
   "property": "C40",
   "status": "proved",
   "theorems": [
    "C40_smallest",
    "C40_symmetric",
    "C40_negative_refuted"
   ],
   "note": "Proved in full about the model, with the conditions stated in the theorems. Where a wider reading fails of the code, the failure itself is proved: C40_negative_refuted: \"Never negative\" fails for angles more than a turn apart."
  },
  {
   "property": "C41",
   "status": "proved",
   "theorems": [
    "C41_formulas",
    "C41_one_value",
    "C41_missing",
    "C41_increasing",
    "C41_increasing_refuted",
    "C41_saturated",
    "C41_relative_humidity",
    "C41_supersaturated",
    "C41_relative_humidity_refuted",
    "C41_wet_bulb",
    "C41_specific",
    "C41_specific_back",
    "C41_dew_point",
    "C41_report",
    "C41_report_missing",
    "C41_report_names"
   ],
   "note": "Proved in full about the model, with the conditions stated in the theorems. Where a wider reading fails of the code, the failure itself is proved: C41_increasing_refuted: Finding: the vapour pressure of a report need not grow with its dew point: at 2.85 degrees and 1000 hPa the pressure for -25 is taken over water, for -24 over ice: 0.8 and 0.7 hPa. C41_relative_humidity_refuted: Finding: unrounded, air below saturation can have a relative humidity above 100 (ice against water)."
  },
  {
   "property": "C42",
   "status": "proved",
   "theorems": [
    "C42_base36",
    "C42_base36_refuted",
    "C42_integers",
    "C42_decode",
    "C42_meaning_unique",
    "C42_widths",
    "C42_round_trip",
    "C42_record",
    "C42_ends",
    "C42_negative_refuted",
    "C42_latitude_refuted",
    "C42_attachments_refuted",
    "C42_nu_refuted",
    "C42_layout"
   ],
   "note": "Proved in full about the model, with the conditions stated in the theorems. Where a wider reading fails of the code, the failure itself is proved: C42_base36_refuted: 36 has no digit; it is written as nothing (a blank in its field). C42_negative_refuted: Negative numbers are not kept: a number below zero, in a field with a unit, is written one unit too high. C42_latitude_refuted: A ship at 45 degrees south is read back at 44.99 degrees south. C42_attachments_refuted: Attachment 8 is written with a three digit length, which shifts its fields on reading (a missing temperature becomes 0.002); attachment 99 is read with its header as data; an attachment with no values is lost if it is the last. C42_nu_refuted: Attachment 5 has a text field with a unit, which no text can be written to."
  },
  {
   "property": "C43",
   "status": "proved",
   "theorems": [
    "C43_template",
    "C43_digits_unique",
    "C43_negative_year",
    "C43_filename",
    "C43_distinct",
    "C43_distinct_refuted",
    "C43_directories",
    "C43_month_directory",
    "C43_directories_refuted",
    "C43_bad_ids",
    "C43_excluded",
    "C43_excluded_refuted",
    "C43_first_file",
    "C43_no_file",
    "C43_icoads_total",
    "C43_icoads_distinct",
    "C43_background",
    "C43_background_refuted",
    "C43_background_plain_refuted"
   ],
   "note": "Proved in full about the model, with the conditions stated in the theorems. Where a wider reading fails of the code, the failure itself is proved: C43_distinct_refuted: Without the bounds it fails: month 67 of the year 12345 and month 567 of the year 1234 share a file. C43_directories_refuted: Any other error is swallowed: the directory given need not exist. C43_excluded_refuted: A line of more than nine characters is kept whole, and excludes no report. C43_background_refuted: The copy is not made from the compressed file but from a file with .bz2 added once more. C43_background_plain_refuted: And a plain file is passed over, and its copy looked for in the scratch directory, if a compressed one lies beside it."
  },
  {
   "property": "C44",
   "status": "proved",
   "theorems": [
    "C44_humidity",
    "C44_window",
    "C44_month",
    "C44_month_match",
    "C44_base_flags",
    "C44_climate",
    "C44_ships",
    "C44_order",
    "C44_run",
    "C44_background",
    "C44_blank_line_refuted",
    "C44_unreadable_refuted",
    "C44_no_position_refuted",
    "C44_empty_refuted",
    "C44_background_refuted",
    "C44_checks",
    "C44_drifters",
    "C44_readable"
   ],
   "note": "Proved in full about the model, with the conditions stated in the theorems. Where a wider reading fails of the code, the failure itself is proved: C44_blank_line_refuted: One blank line in any of the three files stops the program. C44_unreadable_refuted: So does a line with an unreadable field before the identifier. C44_no_position_refuted: So does a usable record without latitude or longitude. C44_empty_refuted: And a window without any usable line. C44_background_refuted: The fields in memory are not marked with their month: a report of 15 March that comes first after one of 15 February gets the background of 14 February."
  },
  {
   "property": "C45",
   "status": "proved",
   "theorems": [
    "C45_day_test",
    "C45_instant",
    "C45_instant_exact",
    "C45_day_of_year",
    "C45_rejects",
    "C45_no_year",
    "C45_track_day_test",
    "C45_hour_24_refuted",
    "C45_elevation",
    "C45_longitude_turn",
    "C45_pole",
    "C45_declination",
    "C45_time",
    "C45_time_refuted",
    "C45_day_test_sun"
   ],
   "note": "Proved in full about the model, with the conditions stated in the theorems. Where a wider reading fails of the code, the failure itself is proved: C45_hour_24_refuted: Both tests accept hour 24 in their own checks and then fail on it: hour 24 is not an hour for the elevation. C45_time_refuted: In the other years before 1980 it is a day too early: the correction for years before 1980 is applied on top of a division that already rounds down."
  },
  {
   "property": "C46",
   "status": "proved",
   "theorems": [
    "C46_base_qc",
    "C46_names",
    "C46_report_alone",
    "C46_repeat",
    "C46_wind",
    "C46_slp",
    "C46_sst",
    "C46_old",
    "C46_raises",
    "C46_humidity_limits_refuted",
    "C46_no_relative_humidity",
    "C46_at2_limits_refuted",
    "C46_dat_refuted",
    "C46_old_disagrees_refuted"
   ],
   "note": "Proved in full about the model, with the conditions stated in the theorems. Where a wider reading fails of the code, the failure itself is proved: C46_humidity_limits_refuted: The relative humidity is looked up under a name no report has, so every report fails the humidity limits. C46_at2_limits_refuted: The hard limits of the second air temperature are applied to the first. C46_dat_refuted: Quality control of daytime air temperature always stops: DAT is not a known variable. C46_old_disagrees_refuted: The two routines disagree: deck 193 in 1893, and where the flag is stored; longitudes up to 540 pass the older position test; without an hour the older routine stops."
  },
  {
   "property": "C47",
   "status": "proved",
   "theorems": [
    "C47_trichotomy",
    "C47_gt_trans",
    "C47_ge_le",
    "C47_chronological",
    "C47_stamp",
    "C47_stamp_exists",
    "C47_sort",
    "C47_missing_time_refuted"
   ],
   "note": "Proved in full about the model, with the conditions stated in the theorems. Where a wider reading fails of the code, the failure itself is proved: C47_missing_time_refuted: Finding: reports without a time stamp break the order: a sorted list can keep a later report first."
  },
  {
   "property": "C48",
   "status": "proved",
   "theorems": [
    "C48_safe",
    "C48_safe_chars",
    "C48_safe_twice",
    "C48_safe_refuted"
   ],
   "note": "Proved in full about the model, with the conditions stated in the theorems. Where a wider reading fails of the code, the failure itself is proved: C48_safe_refuted: Different identifiers may get the same safe name."
  },
  {
   "property": "C49",
   "status": "proved",
   "theorems": [
    "C49_fields_unique",
    "C49_lines_unique",
    "C49_variable_block",
    "C49_flag_block",
    "C49_flag_digit",
    "C49_no_columns_refuted",
    "C49_no_uid_refuted",
    "C49_deck_output",
    "C49_deck_min_output",
    "C49_same_reports",
    "C49_empty_deck_refuted",
    "C49_voyage_output",
    "C49_voyage_name_refuted",
    "C49_comma_refuted",
    "C49_tracking_output"
   ],
   "note": "Proved in full about the model, with the conditions stated in the theorems. Where a wider reading fails of the code, the failure itself is proved: C49_no_columns_refuted: With no columns the header is an empty line, the row is not. C49_no_uid_refuted: A report without UID cannot be printed. C49_empty_deck_refuted: Writing the output of an empty deck raises. C49_voyage_name_refuted: A platform with a slash in its identifier: the files of flags lie in another directory than the file of variables. C49_comma_refuted: An identifier with a comma makes a row one field too long."
  },
  {
   "property": "C50",
   "status": "proved",
   "theorems": [
    "C50_wind_consistency",
    "C50_wind_consistency_bool",
    "C50_wind_consistency_missing"
   ],
   "note": "Proved in full about the model."
  },
  {
   "property": "C51",
   "status": "proved",
   "theorems": [
    "C51_jobs",
    "C51_jobs_once",
    "C51_all_covers",
    "C51_noend_exact",
    "C51_noend_refuted"
   ],
   "note": "Proved in full about the model, with the conditions stated in the theorems. Where a wider reading fails of the code, the failure itself is proved: C51_noend_refuted: ... but, against the documentation, also a chunk that touches both ends of the series."
  },
  {
   "property": "C52",
   "status": "proved",
   "theorems": [
    "C52_set_get",
    "C52_set_other",
    "C52_set_keeps_flags",
    "C52_unknown",
    "C52_data_length",
    "C52_time_stamp_current",
    "C52_month_stamp_refuted"
   ],
   "note": "Proved in full about the model, with the conditions stated in the theorems. Where a wider reading fails of the code, the failure itself is proved: C52_month_stamp_refuted: ... but (finding) changing the month does not."
  },
  {
   "property": "C53",
   "status": "proved",
   "theorems": [
    "C53_add_reports",
    "C53_sort",
    "C53_first_after_sort_refuted"
   ],
   "note": "Proved in full about the model, with the conditions stated in the theorems. Where a wider reading fails of the code, the failure itself is proved: C53_first_after_sort_refuted: Finding: the report that sorting puts first keeps the speed computed from its former predecessor."
  },
  {
   "property": "C54",
   "status": "proved",
   "theorems": [
    "C54_load",
    "C54_lookup",
    "C54_steps",
    "C54_no_coordinates",
    "C54_no_file",
    "C54_coarse_refuted",
    "C54_levels_refuted",
    "C54_levels_accepted"
   ],
   "note": "Proved in full about the model, with the conditions stated in the theorems. Where a wider reading fails of the code, the failure itself is proved: C54_coarse_refuted: \"Columns may start at Greenwich\" fails for grids of two degrees and coarser: every value ends up on the opposite side of the world. C54_levels_refuted: \"A level axis is harmless\" fails: rows are never put into order, and with columns from Greenwich the rows are turned instead of the columns."
  },
  {
   "property": "C55",
   "status": "proved",
   "theorems": [
    "C55_motion_codes",
    "C55_course_range"
   ],
   "note": "Proved in full about the model."
  },
  {
   "property": "C56",
   "status": "proved",
   "theorems": [
    "C56_longitude",
    "C56_anomaly",
    "C56_zero_stdev_refuted"
   ],
   "note": "Proved in full about the model, with the conditions stated in the theorems. Where a wider reading fails of the code, the failure itself is proved: C56_zero_stdev_refuted: \"A report always has a normalised anomaly when its parts are present\" fails for a standard deviation of zero."
  },
  {
   "property": "C57",
   "status": "proved",
   "theorems": [
    "C57_track_checks",
    "C57_unfit_untouched",
    "C57_output",
    "C57_same_minute_refuted",
    "C57_no_position_refuted"
   ],
   "note": "Proved in full about the model, with the conditions stated in the theorems. Where a wider reading fails of the code, the failure itself is proved: C57_same_minute_refuted: Two reports in the same minute: the time stamps carry no seconds, so sorting leaves them as they came; if the later one comes first the control stops with an error. C57_no_position_refuted: A report the main program found to have no position is left out by every check, but it stops the output of all the others."
  },
  {
   "property": "C58",
   "status": "proved",
   "theorems": [
    "C58_csv",
    "C58_lines",
    "C58_lines_exist",
    "C58_longer",
    "C58_blank",
    "C58_nothing",
    "C58_read_back",
    "C58_written",
    "C58_incomplete",
    "C58_lengths",
    "C58_other_reports",
    "C58_tracking",
    "C58_unsafe_id_refuted",
    "C58_quote_refuted"
   ],
   "note": "Proved in full about the model, with the conditions stated in the theorems. Where a wider reading fails of the code, the failure itself is proved: C58_unsafe_id_refuted: The main program replaces stars and slashes in the name of the file of variables, the tracking control does not: for such a platform it stops. C58_quote_refuted: An identifier with a quotation mark is read back as another one."
  },
  {
   "property": "C59",
   "status": "proved",
   "theorems": [
    "C59_identifiers",
    "C59_file_name",
    "C59_arguments",
    "C59_identifier",
    "C59_job_names",
    "C59_runs_apart",
    "C59_logs",
    "C59_run",
    "C59_missing_file",
    "C59_blank_inside_refuted",
    "C59_comma_refuted",
    "C59_same_file_refuted"
   ],
   "note": "Proved in full about the model, with the conditions stated in the theorems. Where a wider reading fails of the code, the failure itself is proved: C59_blank_inside_refuted: C59, findings. An identifier with a blank inside is passed to the tracking control as two words, which it does not accept. C59_comma_refuted: An identifier with a comma loses what follows it. C59_same_file_refuted: Two identifiers that differ in a blank have the same job file: the second job replaces the first."
  },
  {
   "property": "C60",
   "status": "proved",
   "theorems": [
    "C60_window",
    "C60_climate",
    "C60_base_flags",
    "C60_checks",
    "C60_month",
    "C60_drifters",
    "C60_run",
    "C60_blank_line_refuted",
    "C60_spike_refuted",
    "C60_empty_refuted"
   ],
   "note": "Proved in full about the model, with the conditions stated in the theorems. Where a wider reading fails of the code, the failure itself is proved: C60_blank_line_refuted: Finding: one blank line in any of the three files stops the program. C60_spike_refuted: Finding: the column of the spike check is written, but the check is never made: the flag of every report is 9, not set. C60_empty_refuted: Finding: the program of high resolution stops in the same case."
  },
  {
   "property": "C61",
   "status": "proved",
   "theorems": [
    "C61_window",
    "C61_climate",
    "C61_base_flags",
    "C61_checks",
    "C61_background",
    "C61_drifters",
    "C61_run",
    "C61_no_output_refuted",
    "C61_blank_line_refuted",
    "C61_empty"
   ],
   "note": "Proved in full about the model, with the conditions stated in the theorems. Where a wider reading fails of the code, the failure itself is proved: C61_no_output_refuted: Finding: without the option for tracking the program does all its work and writes nothing. C61_blank_line_refuted: Finding: one blank line in any of the three files stops the program."
  },
  {
   "property": "C62",
   "status": "proved",
   "theorems": [
    "C62_get_clim",
    "C62_get_hires_clim",
    "C62_missing",
    "C62_interpolated_same",
    "C62_interpolated_range",
    "C62_interpolated_exact",
    "C62_interpolated_missing",
    "C62_single_field_refuted",
    "C62_library"
   ],
   "note": "Proved in full about the model, with the conditions stated in the theorems. Where a wider reading fails of the code, the failure itself is proved: C62_single_field_refuted: Finding: a single field and a field of pentads with the same values everywhere give different results beside the date line, because the single field is not read west of it."
  },
  {
   "property": "C63",
   "status": "proved",
   "theorems": [
    "C63_checked",
    "C63_month",
    "C63_run",
    "C63_humidity",
    "C63_gross",
    "C63_hour_refuted"
   ],
   "note": "Proved in full about the model, with the conditions stated in the theorems. Where a wider reading fails of the code, the failure itself is proved: C63_hour_refuted: The time check is there to flag an hour that belongs to no day. A report with such an hour does not get that far: one usable line of a valid day with an hour of 24 or more stops the run."
  },
  {
   "property": "C64",
   "status": "proved",
   "theorems": [
    "C64_report",
    "C64_longform",
    "C64_fit",
    "C64_prints",
    "C64_same",
    "C64_identifier_refuted",
    "C64_reset"
   ],
   "note": "Proved in full about the model, with the conditions stated in the theorems. Where a wider reading fails of the code, the failure itself is proved: C64_identifier_refuted: Only nine characters of the identifier are printed: reports of different ships can print the same line."
  },
  {
   "property": "C65",
   "status": "proved",
   "theorems": [
    "C65_simple",
    "C65_laid",
    "C65_nrt",
    "C65_nrt_position",
    "C65_nrt_fields",
    "C65_nrt_end",
    "C65_row",
    "C65_row_short"
   ],
   "note": "Proved in full about the model."
  },
  {
   "property": "C66",
   "status": "proved",
   "theorems": [
    "C66_limit",
    "C66_order",
    "C66_waits",
    "C66_all_sent",
    "C66_other_user_refuted",
    "C66_refused_refuted",
    "C66_others_counted_refuted"
   ],
   "note": "Proved in full about the model, with the conditions stated in the theorems. Where a wider reading fails of the code, the failure itself is proved: C66_other_user_refuted: C66. The name asked for is fixed in the program: for anybody else there is no limit. C66_refused_refuted: C66. A job that sbatch refuses is lost without notice: the wrapper ends as if all had been queued. C66_others_counted_refuted: C66. Jobs of others whose name contains the word count as well: the wrapper can wait for ever with one job of its own in the queue."
  },
  {
   "property": "C67",
   "status": "proved",
   "theorems": [
    "C67_made",
    "C67_missing"
   ],
   "note": "Proved in full about the model."
  },
  {
   "property": "C68",
   "status": "proved",
   "theorems": [
    "C68_hires_checked",
    "C68_hires_month",
    "C68_hires_run",
    "C68_track_checked",
    "C68_track_month",
    "C68_track_run",
    "C68_surroundings",
    "C68_files",
    "C68_hour_refuted"
   ],
   "note": "Proved in full about the model, with the conditions stated in the theorems. Where a wider reading fails of the code, the failure itself is proved: C68_hour_refuted: Finding: as in the main program, one usable line of a valid day with an hour of 24 or more stops both programs before the time check that should flag it."
  },
  {
   "property": "C69",
   "status": "proved",
   "theorems": [
    "C69_mds_row",
    "C69_mds_column",
    "C69_mds_exact",
    "C69_fine_row",
    "C69_fine_column",
    "C69_row",
    "C69_column",
    "C69_climatology",
    "C69_rows_refuted",
    "C69_row_refuted",
    "C69_border_refuted"
   ],
   "note": "Proved in full about the model, with the conditions stated in the theorems. Where a wider reading fails of the code, the failure itself is proved: C69_rows_refuted: Findings. A climatology of 350 rows (and one of 161, 175, 227 and so on): the South Pole gets the index 350, which the array does not have. On exact numbers there is no such case (C15). C69_row_refuted: The cell of lat_to_yindex need not contain the position exactly: a position just north of the equator is put into the row south of it. C69_border_refuted: The documented rule for borders (a latitude of the northern hemisphere on a border goes to the cell north of it) is not kept on cells of 0.05 degrees: 0.15 degrees north, read from a record with 15 hundredths, goes to the cell south of it."
  },
  {
   "property": "C70",
   "status": "proved",
   "theorems": [
    "C70_minute",
    "C70_hundredths",
    "C70_whole_hours",
    "C70_minute_refuted",
    "C70_difference",
    "C70_sign",
    "C70_whole_days",
    "C70_hours",
    "C70_instant_refuted"
   ],
   "note": "Proved in full about the model, with the conditions stated in the theorems. Where a wider reading fails of the code, the failure itself is proved: C70_minute_refuted: Finding: 12.35 hours, that is 12:21, is given the time stamp 12:20. C70_instant_refuted: Finding: two different times of a day, 1e-9 hours apart, are no hours apart; so a difference of zero does not mean the same time."
  },
  {
   "property": "C71",
   "status": "proved",
   "theorems": [
    "C71_encode",
    "C71_fields",
    "C71_output",
    "C71_round"
   ],
   "note": "Proved in full about the model."
  },
  {
   "property": "C72",
   "status": "proved",
   "theorems": [
    "C72_within",
    "C72_beyond",
    "C72_decimal_refuted",
    "C72_flag"
   ],
   "note": "Proved in full about the model, with the conditions stated in the theorems. Where a wider reading fails of the code, the failure itself is proved: C72_decimal_refuted: Finding: the values are doubles near decimal numbers, not the decimal numbers themselves. A value of 8.2, read as 82 tenths, is exactly 8 from an average of 0.2, read as 2 tenths, yet it is flagged for a difference of more than 8."
  },
  {
   "property": "C73",
   "status": "proved",
   "theorems": [
    "C73_close",
    "C73_order",
    "C73_empty",
    "C73_bounded_refuted"
   ],
   "note": "Proved in full about the model, with the conditions stated in the theorems. Where a wider reading fails of the code, the failure itself is proved: C73_bounded_refuted: Finding: the mean need not be between the smallest and the largest number, as it is on exact numbers (C16): three times 0.1, as a double, has a mean above 0.1."
  },
  {
   "property": "C74",
   "status": "proved",
   "theorems": [
    "C74_get",
    "C74_range",
    "C74_read",
    "C74_last",
    "C74_last_empty",
    "C74_set_flag",
    "C74_set_flag_accepts",
    "C74_set_var",
    "C74_read_back",
    "C74_history",
    "C74_pop",
    "C74_pop_index_refuted"
   ],
   "note": "Proved in full about the model, with the conditions stated in the theorems. Where a wider reading fails of the code, the failure itself is proved: C74_pop_index_refuted: pop leaves the platform index of the deck as it was, so the index may name a place that no longer exists: after taking the only report out of a deck, going through its platforms raises IndexError."
  },
  {
   "property": "C75",
   "status": "proved",
   "theorems": [
    "C75_modal",
    "C75_modal_clear",
    "C75_limits",
    "C75_short",
    "C75_border"
   ],
   "note": "Proved in full about the model."
  },
  {
   "property": "C76",
   "status": "proved",
   "theorems": [
    "C76_equal",
    "C76_text",
    "C76_digits",
    "C76_whole",
    "C76_nearest_refuted",
    "C76_share",
    "C76_repeated",
    "C76_rounded"
   ],
   "note": "Proved in full about the model, with the conditions stated in the theorems. Where a wider reading fails of the code, the failure itself is proved: C76_nearest_refuted: The text is needed for that: the text with twelve digits is of the double nearest to n units, the double itself may be another one (3 tenths are 0.30000000000000004)."
  },
  {
   "property": "C77",
   "status": "proved",
   "theorems": [
    "C77_sum",
    "C77_count",
    "C77_cell",
    "C77_buddy",
    "C77_flag",
    "C77_order_refuted"
   ],
   "note": "Proved in full about the model, with the conditions stated in the theorems. Where a wider reading fails of the code, the failure itself is proved: C77_order_refuted: Within the margin the order of the reports may decide: with anomalies of 0.1, 0.2 and 0.3, taken in two orders, an anomaly of 0 and a limit of 0.2 get different flags."
  },
  {
   "property": "C78",
   "status": "proved",
   "theorems": [
    "C78_close",
    "C78_between",
    "C78_corner",
    "C78_raises",
    "C78_constant_refuted"
   ],
   "note": "Proved in full about the model, with the conditions stated in the theorems. Where a wider reading fails of the code, the failure itself is proved: C78_constant_refuted: Inside a cell the error is real: between four corners that are all 0.1 the value exceeds 0.1."
  },
  {
   "property": "C79",
   "status": "proved",
   "theorems": [
    "C79_points",
    "C79_interpolated",
    "C79_south_refuted",
    "C79_west_refuted",
    "C79_north_refuted"
   ],
   "note": "Proved in full about the model, with the conditions stated in the theorems. Where a wider reading fails of the code, the failure itself is proved: C79_south_refuted: The latitude left out: at 89.5 degrees south the two latitudes coincide, and the interpolation raises. C79_west_refuted: Other doubles than those of a report in hundredths may get the wrong points: for the largest double below a half the points are 359.5 W and 1.5 E. C79_north_refuted: And for the smallest double above a half the northern line lies below the latitude, so that the interpolation raises."
  },
  {
   "property": "C80",
   "status": "proved",
   "theorems": [
    "C80_position",
    "C80_time",
    "C80_blacklist",
    "C80_regions",
    "C80_limits",
    "C80_limits_refuted",
    "C80_freezing",
    "C80_supersaturation",
    "C80_wind"
   ],
   "note": "Proved in full about the model, with the conditions stated in the theorems. Where a wider reading fails of the code, the failure itself is proved: C80_limits_refuted: Other limits: a reading equal to a limit in tenths may fail."
  },
  {
   "property": "C81",
   "status": "proved",
   "theorems": [
    "C81_written",
    "C81_repeat",
    "C81_divided",
    "C81_any_order",
    "C81_stale_refuted",
    "C81_cut_flags",
    "C81_cut_variables_refuted"
   ],
   "note": "Proved in full about the model, with the conditions stated in the theorems. Where a wider reading fails of the code, the failure itself is proved: C81_stale_refuted: Files of an earlier run are never removed: if a new run writes none of the three files of a platform and a month, the tracking control goes on reading the old ones. C81_cut_variables_refuted: But the file of variables cut short in its last line is read as if it were whole. Here a run is repeated and stopped while it writes the file of variables of a platform, over the files of the run before: the control reads the last value of the last report, 0.01, as 1."
  },
  {
   "property": "C82",
   "status": "proved",
   "theorems": [
    "C82_longitude",
    "C82_obliquity",
    "C82_elevation",
    "C82_leap_years",
    "C82_day_early_refuted",
    "C82_day_test",
    "C82_equinox_refuted"
   ],
   "note": "Proved in full about the model, with the conditions stated in the theorems. Where a wider reading fails of the code, the failure itself is proved: C82_day_early_refuted: In the other years before 1980 it is the elevation of the almanac at the same time of the day before. C82_equinox_refuted: A report this puts on the wrong side: at 15:00 on 21 March 1979 at the north pole, wherever the longitude is said to be, the sun is more than 0.1 degrees up in the almanac an hour before, and the day test finds night."
  },
  {
   "property": "C83",
   "status": "proved",
   "theorems": [
    "C83_rejects",
    "C83_results",
    "C83_azimuth",
    "C83_azimuth_south_refuted",
    "C83_equator_refuted",
    "C83_zenith_refuted"
   ],
   "note": "Proved in full about the model, with the conditions stated in the theorems. Where a wider reading fails of the code, the failure itself is proved: C83_azimuth_south_refuted: South of the equator north and south are exchanged: the test of which side the sun is on divides an inequality by the sine of the latitude, which is negative there. C83_equator_refuted: On the equator it raises, which is why the day tests step aside by 0.0001 degrees. C83_zenith_refuted: Within a millionth of a radian of the zenith the azimuth is 0 if the sun is south of it, and 180 otherwise: this too is the wrong way round."
  },
  {
   "property": "C84",
   "status": "proved",
   "theorems": [
    "C84_other_ships",
    "C84_background_refuted"
   ],
   "note": "Proved in full about the model, with the conditions stated in the theorems. Where a wider reading fails of the code, the failure itself is proved: C84_background_refuted: With tracking the background temperature of a report can depend on what another ship sent: fields in memory are not marked with their month (C44), so the field of 14 February that SHIP2 needed is used for SHIP1 on 15 March."
  },
  {
   "property": "C85",
   "status": "proved",
   "theorems": [
    "C85_mean",
    "C85_std",
    "C85_std_root",
    "C85_over",
    "C85_window",
    "C85_constant_refuted"
   ],
   "note": "Proved in full about the model, with the conditions stated in the theorems. Where a wider reading fails of the code, the failure itself is proved: C85_constant_refuted: Finding: equal readings need not have a standard deviation of zero, nor a mean equal to them: three readings of 0.1."
  },
  {
   "property": "C86",
   "status": "proved",
   "theorems": [
    "C86_difference",
    "C86_many",
    "C86_biased",
    "C86_noisy",
    "C86_at_the_limit_refuted"
   ],
   "note": "Proved in full about the model, with the conditions stated in the theorems. Where a wider reading fails of the code, the failure itself is proved: C86_at_the_limit_refuted: Finding: right at the limit the verdict can be wrong: a difference of 2.35 degrees is not beyond the root of 1.41^2 + 1.88^2, which is 2.35, but is found to be."
  }
 ]
}