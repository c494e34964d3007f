{
 "claims": [
  {
   "property": "C01",
   "status": "proved",
   "theorems": [
    "C01_migrate_geometric_mean"
   ],
   "note": "Whole output array equals the array of geometric means, in exact real arithmetic; traveltimes within the trailing pad, fewer than 2^31 onset elements."
  },
  {
   "property": "C02",
   "status": "proved",
   "theorems": [
    "C02_coalescence_within_onsets",
    "C02_coalescence_floor_and_ceiling"
   ],
   "note": ""
  },
  {
   "property": "C03",
   "status": "proved",
   "theorems": [
    "C03_reads_stay_in_station_row",
    "C03_scan_pads_cover_traveltimes",
    "C03_raw_api_out_of_bounds_refuted",
    "C03_raw_api_wrong_row_refuted",
    "C03_index_overflow_refuted"
   ],
   "note": "The pads are proved sufficient for whole-number rates and all rates of at least 20 Hz. The refuted theorems are the part of the property saying that the raw API check is not sufficient."
  },
  {
   "property": "C04",
   "status": "proved",
   "theorems": [
    "C04_migrate_any_interleaving",
    "C04_find_max_any_interleaving",
    "C04_executions_are_finite",
    "C04_one_writer_per_element"
   ],
   "note": "Sequentially consistent interleavings of individual loads and stores; every reachable state, any assignment of iterations to threads."
  },
  {
   "property": "C05",
   "status": "proved",
   "theorems": [
    "C05_station_order_irrelevant"
   ],
   "note": "Exact real arithmetic."
  },
  {
   "property": "C06",
   "status": "proved",
   "theorems": [
    "C06_find_max_first_maximum",
    "C06_maximum_decoded"
   ],
   "note": ""
  },
  {
   "property": "C07",
   "status": "proved",
   "theorems": [
    "C07_normalised_is_max_over_mean",
    "C07_normalised_scale_invariant"
   ],
   "note": ""
  },
  {
   "property": "C08",
   "status": "proved",
   "theorems": [
    "C08_window_independent"
   ],
   "note": ""
  },
  {
   "property": "C09",
   "status": "proved",
   "theorems": [
    "C09_overlapping_c",
    "C09_overlapping_python",
    "C09_backends_agree"
   ],
   "note": "Exact real arithmetic; rounding of the running sums is not modelled."
  },
  {
   "property": "C10",
   "status": "proved",
   "theorems": [
    "C10_centred_c",
    "C10_centred_python",
    "C10_backends_agree"
   ],
   "note": "Exact real arithmetic."
  },
  {
   "property": "C11",
   "status": "partial",
   "theorems": [
    "C11_python_always_numbers",
    "C11_c_overlapping_numbers_iff_partial",
    "C11_c_centred_numbers_iff_partial",
    "C11_c_backend_refuted"
   ],
   "note": "True of the Python backend; false of the C kernels: an all-zero signal divides 0 by 0. The exact condition for each kernel is proved."
  },
  {
   "property": "C12",
   "status": "partial",
   "theorems": [
    "C12_overlapping_safe_iff",
    "C12_centred_safe_iff",
    "C12_recursive_always_safe",
    "C12_scan_data_long_enough",
    "C12_short_signal_refuted"
   ],
   "note": "Exact safety conditions, and a proof that scan windows meet them; lib.py itself does not check them, so the raw kernels are unsafe for short signals."
  },
  {
   "property": "C13",
   "status": "partial",
   "theorems": [
    "C13_recursive_is_exponential_partial",
    "C13_recursive_equals_centred_refuted"
   ],
   "note": "The documented equality is false; the recursive kernel computes ratios of exponential averages."
  },
  {
   "property": "C14",
   "status": "proved",
   "theorems": [
    "C14_combined_onset_value",
    "C14_combined_onset_bounds",
    "C14_edges_are_one",
    "C14_floor_checked"
   ],
   "note": ""
  },
  {
   "property": "C15",
   "status": "proved",
   "theorems": [
    "C15_scale_invariance",
    "C15_waveform_units",
    "C15_python_scale_invariance",
    "C15_overlapping_range"
   ],
   "note": "Hilbert-envelope transforms are not modelled."
  },
  {
   "property": "C16",
   "status": "partial",
   "theorems": [
    "C16_scan_is_contiguous_partial",
    "C16_covers_period_partial",
    "C16_last_sample_before_midnight_refuted"
   ],
   "note": "Rates dividing 1000 Hz. False when the period ends at midnight and the last step holds only the final sample."
  },
  {
   "property": "C17",
   "status": "partial",
   "theorems": [
    "C17_step_appends_timestep_samples_partial",
    "C17_complete_data_is_used_partial",
    "C17_locate_times_match_samples_partial",
    "C17_locate_uses_complete_data_partial",
    "C17_off_sample_start_scans_nothing_refuted",
    "C17_rate_not_dividing_1000_refuted"
   ],
   "note": "Rates dividing 1000 Hz and windows on the sample grid; otherwise refuted."
  },
  {
   "property": "C18",
   "status": "proved",
   "theorems": [
    "C18_taper_clear_of_onsets",
    "C18_taper_clear_of_amplitudes"
   ],
   "note": "Whole-number rates of at least 3 Hz, windows in whole milliseconds with 2*LTA - STA longer than 1.5 samples."
  },
  {
   "property": "C19",
   "status": "partial",
   "theorems": [
    "C19_trim2sample_whole_samples_partial",
    "C19_rate_not_dividing_1000_refuted",
    "C19_binary64_refuted"
   ],
   "note": "Exact arithmetic and rates dividing 1000 Hz; refuted otherwise, and in binary64."
  },
  {
   "property": "C20",
   "status": "partial",
   "theorems": [
    "C20_shift_to_sample_partial",
    "C20_interpolation_keeps_length_partial",
    "C20_fractional_rate_refuted"
   ],
   "note": "Sample spacings of a whole number of microseconds."
  },
  {
   "property": "C21",
   "status": "partial",
   "theorems": [
    "C21_upsample_is_linear",
    "C21_upsample_stays_in_range",
    "C21_edges_repeat_end_values_partial",
    "C21_edge_values_truncated_refuted"
   ],
   "note": "The edge fill is truncated to integers."
  },
  {
   "property": "C22",
   "status": "proved",
   "theorems": [
    "C22_read_back_to_half_a_digit",
    "C22_order_preserved"
   ],
   "note": "Exact product data*factor; supported range: non-negative coalescence, |lon|,|lat| <= 2147, |depth| within 2^31 mm."
  },
  {
   "property": "C23",
   "status": "partial",
   "theorems": [
    "C23_each_sample_in_the_file_of_its_date",
    "C23_applies_to_detect_partial",
    "C23_empty_run_raises_refuted",
    "C23_off_sample_start_raises_refuted"
   ],
   "note": "Proved for all append histories on the sample grid with timesteps up to a day; false for runs without timesteps and for starts off the sample grid."
  },
  {
   "property": "C24",
   "status": "proved",
   "theorems": [
    "C24_crash_between_timesteps"
   ],
   "note": "Crash points between timesteps; a crash inside a file write is not modelled."
  },
  {
   "property": "C25",
   "status": "partial",
   "theorems": [
    "C25_runs_on_different_dates_partial",
    "C25_same_date_overwritten_refuted"
   ],
   "note": "False for two periods on one date."
  },
  {
   "property": "C26",
   "status": "partial",
   "theorems": [
    "C26_reads_back_the_run_partial",
    "C26_data_after_a_gap_dropped_refuted"
   ],
   "note": "Requested times on the sample grid and stored data without gaps; false with gaps."
  },
  {
   "property": "C27",
   "status": "proved",
   "theorems": [
    "C27_threshold_from_own_chunk"
   ],
   "note": "Exact rational arithmetic; windows of at least one sample."
  },
  {
   "property": "C28",
   "status": "proved",
   "theorems": [
    "C28_candidates_are_the_maximal_runs"
   ],
   "note": ""
  },
  {
   "property": "C29",
   "status": "proved",
   "theorems": [
    "C29_refinement_merges_linked_candidates"
   ],
   "note": ""
  },
  {
   "property": "C30",
   "status": "proved",
   "theorems": [
    "C30_events_respect_the_interval",
    "C30_interval_setter"
   ],
   "note": "For all parameter values, also ones the setters reject."
  },
  {
   "property": "C31",
   "status": "proved",
   "theorems": [
    "C31_id_spells_the_time",
    "C31_ids_unique"
   ],
   "note": "Years 0 to 9999; the calendar is proved from the rule which date follows which."
  },
  {
   "property": "C32",
   "status": "proved",
   "theorems": [
    "C32_batches_partition_the_period"
   ],
   "note": "C32_off_grid_times_in_no_batch_refuted shows that times off the sample grid can be in no batch."
  },
  {
   "property": "C33",
   "status": "proved",
   "theorems": [
    "C33_event_filter_is_exact"
   ],
   "note": ""
  },
  {
   "property": "C34",
   "status": "partial",
   "theorems": [
    "C34_missing_data_do_not_trigger_partial",
    "C34_chunk_without_data_triggers_refuted"
   ],
   "note": "False for the dynamic thresholds: a chunk without data has threshold 0 and triggers."
  },
  {
   "property": "C35",
   "status": "partial",
   "theorems": [
    "C35_files_hold_the_run_partial",
    "C35_columns_duplicated_refuted",
    "C35_stale_file_refuted"
   ],
   "note": "True for days with a sample above threshold; otherwise the old file stays, and time-window columns accumulate."
  },
  {
   "property": "C36",
   "status": "proved",
   "theorems": [
    "C36_no_event_reported_twice",
    "C36_static_threshold_one_series"
   ],
   "note": "C36_dynamic_thresholds_differ_refuted shows that the condition on the thresholds is needed and is not met by the dynamic methods."
  },
  {
   "property": "C37",
   "status": "proved",
   "theorems": [
    "C37_reads_exactly_the_stored_events"
   ],
   "note": "Without the trigger_file option."
  },
  {
   "property": "C38",
   "status": "partial",
   "theorems": [
    "C38_origin_is_peak",
    "C38_trim_keeps_origin_partial",
    "C38_window_complete",
    "C38_last_sample_dropped_refuted"
   ],
   "note": "Holds except that the map slice of the last sample of the marginal window is always dropped (refuted part)."
  },
  {
   "property": "C39",
   "status": "proved",
   "theorems": [
    "C39_kept_iff_near_trigger",
    "C39_data_cover_cut",
    "C39_days_read_once"
   ],
   "note": "obspy's trim by its documented effect; archive split into day files."
  },
  {
   "property": "C40",
   "status": "proved",
   "theorems": [
    "C40_locations_inside",
    "C40_covariance_formula",
    "C40_spline_location"
   ],
   "note": "For positive coalescence maps; scipy's Rbf is assumed to reproduce its data points."
  },
  {
   "property": "C41",
   "status": "proved",
   "theorems": [
    "C41_windows_disjoint",
    "C41_arrivals_in_onset",
    "C41_unordered_phases_not_picked"
   ],
   "note": "For phases listed in order of arrival; C41_unordered_phases_not_picked shows that the order is needed."
  },
  {
   "property": "C42",
   "status": "partial",
   "theorems": [
    "C42_one_peak",
    "C42_fit_data_partial",
    "C42_no_noise_no_pick",
    "C42_peak_at_first_sample_refuted",
    "C42_picking_total_partial"
   ],
   "note": "scipy's curve_fit is a parameter. False for a peak that begins at the first sample of the onset array; onset functions that begin with 1, as the padded ones do, are not affected."
  },
  {
   "property": "C43",
   "status": "proved",
   "theorems": [
    "C43_index_roundtrip",
    "C43_coordinates_roundtrip",
    "C43_nearest_node",
    "C43_flat_indices",
    "C43_grid_covers_volume",
    "C43_bad_grid_refused"
   ],
   "note": "Exact real arithmetic; the projection is a parameter that moves a node by less than half a spacing there and back. A point outside the volume is converted to an index outside the grid."
  },
  {
   "property": "C44",
   "status": "partial",
   "theorems": [
    "C44_decimated_tables_partial",
    "C44_decimate_keeps_coordinates_partial",
    "C44_coordinates_shifted_refuted"
   ],
   "note": "Shapes and entries for all factors; the coordinates only if (n-1) mod df is 0 or 1 on every axis. Otherwise the kept nodes start at c1 > 0 but the corner of the grid is not moved."
  },
  {
   "property": "C45",
   "status": "partial",
   "theorems": [
    "C45_tables_follow_onsets_partial",
    "C45_migration_pairs_stations_partial",
    "C45_underscore_refuted",
    "C45_missing_station_type_error",
    "C45_unequal_tables_rejected"
   ],
   "note": "Proved end to end through the migration kernel for names without underscore; a name with an underscore raises ValueError."
  },
  {
   "property": "C46",
   "status": "partial",
   "theorems": [
    "C46_equality",
    "C46_sum_partial",
    "C46_shared_station_overwritten_refuted"
   ],
   "note": "Equality proved; for shared stations the second table's arrays replace the first's, against the documentation."
  },
  {
   "property": "C47",
   "status": "proved",
   "theorems": [
    "C47_verdict_exact",
    "C47_stricter_monotone",
    "C47_failed_channels_removed",
    "C47_missing_number_of_channels"
   ],
   "note": "Exact arithmetic (C55 has the binary64 evaluation of the timespan check); traces of one channel have one sampling rate or the rate is checked."
  },
  {
   "property": "C48",
   "status": "partial",
   "theorems": [
    "C48_station_files_partial",
    "C48_missing_column_refuted"
   ],
   "note": "Only a missing latitude column is detected: the test is written with or between strings."
  },
  {
   "property": "C49",
   "status": "partial",
   "theorems": [
    "C49_windows_ordered",
    "C49_pick_order",
    "C49_arrival_in_window",
    "C49_data_in_trace_partial",
    "C49_large_fraction_refuted",
    "C49_picks_leave_trace_refuted"
   ],
   "note": "Order and disjointness for fraction_tt below a half and picks as the picker makes them; data in the trace for modelled arrivals and picks that are not early (P) or late (S). Otherwise false."
  },
  {
   "property": "C50",
   "status": "partial",
   "theorems": [
    "C50_extrema",
    "C50_largest_swing",
    "C50_equal_peaks_refuted"
   ],
   "note": "For the default multiplier 0, or peaks and troughs of different values; false with a positive multiplier and equal peaks."
  },
  {
   "property": "C51",
   "status": "partial",
   "theorems": [
    "C51_network_magnitude",
    "C51_standard_deviation",
    "C51_weights_scale_partial",
    "C51_weighted_error_refuted",
    "C51_zero_distance_refuted",
    "C51_noise_refuted"
   ],
   "note": "Mean and range for a noise filter of at least 1, positive distances and, if weighted, some noise; NaN otherwise. The weighted error is not scale-invariant."
  },
  {
   "property": "C52",
   "status": "partial",
   "theorems": [
    "C52_range",
    "C52_beyond_refused",
    "C52_interpolates_partial",
    "C52_origin_off_spacing_refuted"
   ],
   "note": "Range always; exact at nodes and for linear times if the origin is a multiple of the spacing, otherwise false."
  },
  {
   "property": "C53",
   "status": "partial",
   "theorems": [
    "C53_nlloc",
    "C53_snuffler_partial",
    "C53_snuffler_fraction_refuted"
   ],
   "note": "Snuffler stamps are right for fractions of a second of at least a tenth, or zero."
  },
  {
   "property": "C54",
   "status": "partial",
   "theorems": [
    "C54_locate_arguments_partial",
    "C54_single_time_refuted"
   ],
   "note": "False: the times are converted before they are checked, so the documented error is never raised."
  },
  {
   "property": "C55",
   "status": "partial",
   "theorems": [
    "C17_complete_data_is_used_partial",
    "C17_locate_uses_complete_data_partial",
    "C55_complete_window_rejected_refuted"
   ],
   "note": "True in exact arithmetic; false in binary64 for about one window length in twenty."
  },
  {
   "property": "C56",
   "status": "partial",
   "theorems": [
    "C56_locate_reads_the_triggered_events_partial",
    "C56_same_day_overwritten_refuted"
   ],
   "note": "True for days without older files; false for two runs on parts of one day."
  },
  {
   "property": "C57",
   "status": "partial",
   "theorems": [
    "C57_max_traveltime_partial",
    "C57_combined_tables_exceed_maximum_refuted"
   ],
   "note": "True for the stations in station_data and the phases of the table; false for combined tables."
  },
  {
   "property": "C58",
   "status": "partial",
   "theorems": [
    "C58_events_independent_partial",
    "C58_missing_data_skipped",
    "C58_exception_ends_run_refuted"
   ],
   "note": "Exceptions other than missing data end the run; later events are lost."
  },
  {
   "property": "C59",
   "status": "partial",
   "theorems": [
    "C59_interpolation",
    "C59_nearest_entry_partial",
    "C59_off_node_refuted"
   ],
   "note": "The hypocentre is rounded to the nearest node before the interpolation."
  },
  {
   "property": "C60",
   "status": "partial",
   "theorems": [
    "C60_processed_waveforms_partial",
    "C60_cached_units_refuted"
   ],
   "note": "False without cuts after a magnitude calculation: the cached displacement waveforms of the measured channels are written."
  },
  {
   "property": "C61",
   "status": "proved",
   "theorems": [
    "C61_threshold_from_noise",
    "C61_percentile_in_range",
    "C61_all_windows_masked"
   ],
   "note": "Percentile by linear interpolation, rational arithmetic."
  },
  {
   "property": "C62",
   "status": "proved",
   "theorems": [
    "C62_picks_in_order"
   ],
   "note": "For any fit function."
  },
  {
   "property": "C63",
   "status": "proved",
   "theorems": [
    "C63_pick_table"
   ],
   "note": ""
  },
  {
   "property": "C64",
   "status": "partial",
   "theorems": [
    "C64_availability_roundtrip_partial",
    "C64_underscore_refuted",
    "C64_day_replaced_refuted",
    "C64_old_format"
   ],
   "note": "Names without underscore and one run per day; otherwise false."
  },
  {
   "property": "C65",
   "status": "proved",
   "theorems": [
    "C65_amplitude_table",
    "C65_vertical_distance"
   ],
   "note": ""
  },
  {
   "property": "C66",
   "status": "proved",
   "theorems": [
    "C66_times_used"
   ],
   "note": ""
  },
  {
   "property": "C67",
   "status": "partial",
   "theorems": [
    "C67_coefficient_of_determination",
    "C67_nan_magnitude_refuted",
    "C67_predicted_below_noise_refuted"
   ],
   "note": "For r2_only_used; 1 for a magnitude of NaN."
  },
  {
   "property": "C68",
   "status": "partial",
   "theorems": [
    "C68_station_filter",
    "C68_location_code_refuted"
   ],
   "note": "The location code is compared, too."
  },
  {
   "property": "C69",
   "status": "partial",
   "theorems": [
    "C69_attenuation",
    "C69_documented_names_refuted",
    "C69_UK_units_refuted"
   ],
   "note": "Danakil2017 grows up to 1000 km; two documented names are not accepted; UK is for nanometres."
  },
  {
   "property": "C70",
   "status": "proved",
   "theorems": [
    "C70_multiplier_shifts"
   ],
   "note": "For r2_only_used."
  },
  {
   "property": "C71",
   "status": "partial",
   "theorems": [
    "C71_covers_partial",
    "C71_rounded_top_refuted"
   ],
   "note": "For depths of at most six decimals (in km); NonLinLoc is a parameter that leaves a table on the grid asked for."
  },
  {
   "property": "C72",
   "status": "partial",
   "theorems": [
    "C72_one_velocity",
    "C72_same_model",
    "C72_row_labels_refuted"
   ],
   "note": "For rows labelled 0, 1, ... and six decimals; layers out of order for other labels."
  },
  {
   "property": "C73",
   "status": "proved",
   "theorems": [
    "C73_station_nodes"
   ],
   "note": "The solver is a parameter."
  },
  {
   "property": "C74",
   "status": "proved",
   "theorems": [
    "C74_straight_rays"
   ],
   "note": ""
  },
  {
   "property": "C75",
   "status": "proved",
   "theorems": [
    "C75_complete",
    "C75_methods"
   ],
   "note": "Station names without repetition; the solver is a parameter that returns tables of the shape asked for."
  },
  {
   "property": "C76",
   "status": "partial",
   "theorems": [
    "C76_projection_partial",
    "C76_transverse_mercator_refuted",
    "C76_rotation_refuted"
   ],
   "note": "SIMPLE and LAMBERT transforms without rotation."
  },
  {
   "property": "C77",
   "status": "partial",
   "theorems": [
    "C77_read_nlloc_partial",
    "C77_later_headers_refuted",
    "C77_inexact_projection_refuted"
   ],
   "note": "For projections inverted exactly and files on the same grid."
  },
  {
   "property": "C78",
   "status": "partial",
   "theorems": [
    "C78_phase_file_partial",
    "C78_component",
    "C78_zero_uncertainty_refuted"
   ],
   "note": "The format of the uncertainty is a parameter; uncertainties of zero are written as unknown."
  },
  {
   "property": "C79",
   "status": "partial",
   "theorems": [
    "C79_markers_partial",
    "C79_other_phase_refuted",
    "C79_modelled_and_measured_refuted"
   ],
   "note": "Picks of the phases P and S."
  },
  {
   "property": "C80",
   "status": "partial",
   "theorems": [
    "C80_stations_partial",
    "C80_networks_refuted",
    "C80_elevation_refuted"
   ],
   "note": "A single network; elevations as in the table passed."
  },
  {
   "property": "C81",
   "status": "partial",
   "theorems": [
    "C81_catalogue_partial",
    "C81_no_directory_refuted",
    "C81_no_pick_file_refuted"
   ],
   "note": "For runs with a directory of event files, and a pick file for every event."
  },
  {
   "property": "C82",
   "status": "partial",
   "theorems": [
    "C82_origins",
    "C82_units_refuted"
   ],
   "note": "Proved for the units of the lookup table; other units are not noticed."
  },
  {
   "property": "C83",
   "status": "partial",
   "theorems": [
    "C83_magnitudes_partial",
    "C83_station_count_refuted",
    "C83_amplitudes_only_refuted"
   ],
   "note": "For amplitude files with magnitudes; the station count is a count of channels."
  },
  {
   "property": "C84",
   "status": "partial",
   "theorems": [
    "C84_ellipsoid_partial",
    "C84_axes_refuted"
   ],
   "note": "The axes are the uncertainties along north, east and depth; they are not sorted."
  },
  {
   "property": "C85",
   "status": "partial",
   "theorems": [
    "C85_headers_partial",
    "C85_start_times_refuted",
    "C85_elevation_refuted",
    "C85_failed_pick_refuted",
    "C85_pick_at_start_refuted"
   ],
   "note": "For stations whose traces start together; gps2dist_azimuth is a parameter."
  },
  {
   "property": "C86",
   "status": "partial",
   "theorems": [
    "C86_waveform_file_partial",
    "C86_other_formats_refuted"
   ],
   "note": "For miniSEED."
  },
  {
   "property": "C87",
   "status": "partial",
   "theorems": [
    "C87_gaussian_recovered_partial",
    "C87_stationary_partial",
    "C87_maximum_refuted"
   ],
   "note": "Exact for maps that are Gaussian within three nodes of the largest one; the stationary point of the fit for every map, which is a minimum for some maps with the peak at the edge. numpy's pinv is a parameter that gives a least squares solution."
  },
  {
   "property": "C88",
   "status": "partial",
   "theorems": [
    "C88_uncertainty_partial",
    "C88_one_sigma_refuted",
    "C88_axes_refuted"
   ],
   "note": "Half of the standard deviations along the principal axes, in the order of the eigenvalues."
  },
  {
   "property": "C89",
   "status": "partial",
   "theorems": [
    "C89_smoothing_keeps_the_peak_partial",
    "C89_even_edge_refuted"
   ],
   "note": "For all nodes but the last one along an axis with an even number of nodes."
  },
  {
   "property": "C90",
   "status": "partial",
   "theorems": [
    "C90_complete_data_partial",
    "C90_decimated_samples_partial",
    "C90_checks_partial",
    "C90_order",
    "C90_off_grid_refuted"
   ],
   "note": "Complete data at any mixture of rates; samples and times of decimated data with any gaps. Decimated traces that begin between two output samples stay off them. Values of upsampled data: C21."
  },
  {
   "property": "C91",
   "status": "partial",
   "theorems": [
    "C91_gaps_filled_partial",
    "C91_short_onset_refuted",
    "C91_shifted_refuted"
   ],
   "note": "For traces on the samples of the output rate."
  },
  {
   "property": "C92",
   "status": "proved",
   "theorems": [
    "C92_gaussian_mean",
    "C92_bounds",
    "C92_batches",
    "C92_peak_stays"
   ],
   "note": "scipy's gaussian_filter1d is modelled; reals for binary64."
  },
  {
   "property": "C93",
   "status": "partial",
   "theorems": [
    "C93_scale",
    "C93_noise",
    "C93_polarity_partial",
    "C93_polarity_refuted"
   ],
   "note": "Scale, offset and drift in general. Polarity: amplitudes without filter and prominence; frequency and time only if the largest swing is unique."
  },
  {
   "property": "C94",
   "status": "proved",
   "theorems": [
    "C94_samples_used",
    "C94_time_in_window",
    "C94_p_before_s"
   ],
   "note": "obspy's Trace.slice is modelled."
  },
  {
   "property": "C95",
   "status": "partial",
   "theorems": [
    "C95_detrended",
    "C95_rms",
    "C95_gain",
    "C95_straight_line",
    "C95_noise",
    "C95_zero_noise_refuted"
   ],
   "note": "All but noise on a straight line, which gives zero."
  },
  {
   "property": "C96",
   "status": "proved",
   "theorems": [
    "C96_source_found",
    "C96_single_peaks_found",
    "C96_found_despite_noise",
    "C96_equal_moveout_not_separated"
   ],
   "note": "Composition of the migration and maximum search kernels; reals for binary64."
  },
  {
   "property": "C97",
   "status": "partial",
   "theorems": [
    "C97_files_of_period",
    "C97_search_ends",
    "C97_unknown_format_rejected",
    "C97_file_of_one_station_partial",
    "C97_file_of_one_day",
    "C97_files_once_partial",
    "C97_prefix_names_refuted",
    "C97_documented_format_refuted"
   ],
   "note": "Files are those of the layout; a file belongs to one station only if no name starts with another one."
  },
  {
   "property": "C98",
   "status": "partial",
   "theorems": [
    "C98_every_sample_read",
    "C98_nothing_else_read",
    "C98_no_data",
    "C98_only_selected_partial",
    "C98_only_selected_refuted"
   ],
   "note": "Completeness and soundness of samples in general; only selected stations if no name starts with another one."
  },
  {
   "property": "C99",
   "status": "partial",
   "theorems": [
    "C99_read_back",
    "C99_update_converts",
    "C99_update_keeps_tables",
    "C99_update_served_partial",
    "C99_update_new_partial",
    "C99_update_twice",
    "C99_constructor_partial",
    "C99_load_replaces_partial",
    "C99_update_phases_refuted",
    "C99_constructor_refuted",
    "C99_load_over_tables_refuted",
    "C99_defaults"
   ],
   "note": "All but tables with other phases than P and S, the deprecated LUT(lut_file=), and old-style files loaded over other tables."
  },
  {
   "property": "C100",
   "status": "partial",
   "theorems": [
    "C100_nodes_in_extent_partial",
    "C100_cells_in_extent_partial",
    "C100_station_extent",
    "C100_max_extent_partial",
    "C100_cells_drawn_partial",
    "C100_summary_partial",
    "C100_summary_refuted",
    "C100_extent_refuted"
   ],
   "note": "For projections that act on each axis separately; the summary exchanges latitude and longitude."
  },
  {
   "property": "C101",
   "status": "partial",
   "theorems": [
    "C101_onset_renamed",
    "C101_onset_values",
    "C101_other_phases",
    "C101_scan_renamed_partial",
    "C101_scan_values",
    "C101_scan_sampling_rate_refuted",
    "C101_trigger_dynamic",
    "C101_trigger_renamed_partial",
    "C101_trigger_values",
    "C101_trigger_refuted",
    "C101_centred_refuted"
   ],
   "note": "All but QuakeScan(sampling_rate=), Trigger(minimum_repeat=) with a long marginal window and reading onset_centred."
  },
  {
   "property": "C102",
   "status": "partial",
   "theorems": [
    "C102_pads_partial",
    "C102_pre_pad",
    "C102_post_pad_tight",
    "C102_pads_refuted",
    "C102_shared_onset_refuted",
    "C102_scan_rate_partial",
    "C102_scan_rate_assigned",
    "C102_scan_rate_refuted",
    "C102_trigger_partial",
    "C102_trigger_refuted",
    "C102_min_onset_partial",
    "C102_min_onset_refuted"
   ],
   "note": "Holds for assignments other than to windows, onset sampling rate, marginal window and smallest onset value; refuted for those."
  },
  {
   "property": "C103",
   "status": "partial",
   "theorems": [
    "C103_p_panel_partial",
    "C103_s_first_partial",
    "C103_s_second_partial",
    "C103_s_each_once_partial",
    "C103_component_missing_refuted"
   ],
   "note": "For maps with commas and as many letters as digits (or only one kind)."
  },
  {
   "property": "C104",
   "status": "proved",
   "theorems": [
    "C104_kept",
    "C104_order",
    "C104_missing",
    "C104_magnitudes",
    "C104_log_amplitude",
    "C104_written_again"
   ],
   "note": "Numbers of the text; reals for binary64."
  },
  {
   "property": "C105",
   "status": "partial",
   "theorems": [
    "C105_scan_succeeds",
    "C105_batch_triggered",
    "C105_peak_becomes_event_partial",
    "C105_above_threshold_covered_partial",
    "C105_events_are_samples_partial",
    "C105_source_becomes_event_partial"
   ],
   "note": "Static thresholds, batches and steps on the sample grid, no older files in the way; peaks for unnormalised coalescence."
  },
  {
   "property": "C106",
   "status": "partial",
   "theorems": [
    "C106_locate_outcome",
    "C106_source_located_partial",
    "C106_source_scanned_triggered_located_partial",
    "C106_largest_stack_elsewhere_refuted"
   ],
   "note": "Outcome of locate in general; the source must also have the largest marginal sum, and trigger conditions as in C105."
  },
  {
   "property": "C107",
   "status": "partial",
   "theorems": [
    "C107_distinct_files_partial",
    "C107_directory_partial",
    "C107_read_where_written",
    "C107_export_partial",
    "C107_dots_refuted",
    "C107_uid_refuted",
    "C107_directory_refuted",
    "C107_export_refuted"
   ],
   "note": "Names without dots and slashes, event identifiers as written by the trigger stage; log files left out."
  },
  {
   "property": "C108",
   "status": "partial",
   "theorems": [
    "C108_seismograph",
    "C108_increasing_partial",
    "C108_passband",
    "C108_units",
    "C108_overshoot_refuted"
   ],
   "note": "All but the bound for obspy_def=False, which exceeds 2080 at some frequencies; reals for binary64."
  },
  {
   "property": "C109",
   "status": "partial",
   "theorems": [
    "C109_applied_filter_returned",
    "C109_filter_as_asked_partial",
    "C109_options_checked_partial",
    "C109_low_rate_refuted",
    "C109_missing_corner_refuted",
    "C109_low_rate_refused"
   ],
   "note": "All but traces whose Nyquist frequency is below the lower corner, and missing corners of the band-pass filter."
  },
  {
   "property": "C110",
   "status": "partial",
   "theorems": [
    "C110_one_label_partial",
    "C110_never_fails",
    "C110_single_refuted",
    "C110_twice_refuted"
   ],
   "note": "Tables listed by station; not for single observations and a last used station with one used and some rejected observations."
  },
  {
   "property": "C111",
   "status": "partial",
   "theorems": [
    "C111_curve",
    "C111_drawn",
    "C111_distance_error",
    "C111_equations",
    "C111_axes_partial",
    "C111_nan_magnitude",
    "C111_nan_refuted",
    "C111_outside_refuted"
   ],
   "note": "All but the limits for amplitudes below a tenth of the noise, and magnitudes that are NaN; reals for binary64."
  },
  {
   "property": "C112",
   "status": "proved",
   "theorems": [
    "C112_trigger",
    "C112_file",
    "C112_written_iff",
    "C112_untriggered",
    "C112_getters",
    "C112_mean_error"
   ],
   "note": "Reals with NaN and infinities for binary64; coalescences are not NaN."
  },
  {
   "property": "C113",
   "status": "partial",
   "theorems": [
    "C113_made_partial",
    "C113_axes_partial",
    "C113_located_partial",
    "C113_station",
    "C113_end_refuted",
    "C113_start_refuted",
    "C113_two_traces_refuted",
    "C113_three_phases_refuted"
   ],
   "note": "Needs pick windows from the tenth sample on that end before the last sample, and one or two phases. The pads do not count the pick windows: far stations make the plot fail with IndexError, very low rates with ValueError. With two traces in a panel the height is that of the last; three phases are mixed up."
  },
  {
   "property": "C114",
   "status": "partial",
   "theorems": [
    "C114_rows",
    "C114_arrivals_partial",
    "C114_waves",
    "C114_made_partial",
    "C114_slices",
    "C114_legend",
    "C114_ellipses",
    "C114_ellipses_units",
    "C114_text_partial",
    "C114_stations_partial",
    "C114_low_rate_refuted",
    "C114_arrivals_refuted",
    "C114_text_refuted",
    "C114_stations_refuted"
   ],
   "note": "Needs 10 Hz or more, P or P and S, grids in kilometres and station names without underscore. Below 10 Hz the plot of a near event may fail; S alone is drawn in the colour of P and a third phase not at all; for grids in metres uncertainties are rounded to whole kilometres; an underscore in a station name makes the plot of the stations used fail."
  },
  {
   "property": "C115",
   "status": "partial",
   "theorems": [
    "C115_points",
    "C115_cells_partial",
    "C115_event_partial",
    "C115_scale_partial",
    "C115_cells_refuted"
   ],
   "note": "Cells and scale need projections that are linear along each axis; on a grid with x and y mixed (longitude = x + y) the value of a node is drawn where the node is not."
  },
  {
   "property": "C116",
   "status": "partial",
   "theorems": [
    "C116_availability_partial",
    "C116_three_phases_refuted",
    "C116_stations",
    "C116_stations_refuted",
    "C116_events",
    "C116_threshold",
    "C116_windows_partial",
    "C116_windows_refuted",
    "C116_map"
   ],
   "note": "Availability for one phase, or two recorded at the same stations (with three phases one station is counted three times); a station with data only on the same day outside the period is shown as having data; windows need a minimum event interval of at least twice the marginal window, and cover every exceedance only with a region filter."
  },
  {
   "property": "C117",
   "status": "proved",
   "theorems": [
    "C117_samples_kept",
    "C117_pieces",
    "C117_unsplit",
    "C117_availability",
    "C117_clash_rejected",
    "C117_mixed_rates"
   ],
   "note": "obspy's no-clobber merge is modelled from its documentation; times off the sampling grid by less than 1 % are not moved onto it."
  },
  {
   "property": "C118",
   "status": "partial",
   "theorems": [
    "C118_samples_partial",
    "C118_waveforms_partial",
    "C118_organisation_partial",
    "C118_organisation_refuted"
   ],
   "note": "For periods whose padded ends are sampling times: otherwise a piece that begins with the sample nearest to the end of the period is dropped, though that sample of an unbroken record is read. The content of the waveforms for data on the samples; without interpolation of shifted data."
  },
  {
   "property": "C119",
   "status": "partial",
   "theorems": [
    "C119_own_data",
    "C119_same_waveforms",
    "C119_value_partial",
    "C119_windows_partial",
    "C119_components_partial",
    "C119_lengths_partial",
    "C119_phase_without_settings"
   ],
   "note": "That the data of other stations and the order of the traces make no difference is proved for names without full stops and underscores. The values for windows that fit in the data and a long-term average that does not vanish; the channels without gap filling; the lengths for traces on their sampling times."
  },
  {
   "property": "C120",
   "status": "partial",
   "theorems": [
    "C120_coalescence_partial",
    "C120_window_partial",
    "C120_archive_partial"
   ],
   "note": "For names without underscores, pads that cover the traveltimes, and onset values that are numbers (the Python backend: with the C backend where the long-term average does not vanish). Archives as in C118."
  },
  {
   "property": "C121",
   "status": "partial",
   "theorems": [
    "C121_own_data",
    "C121_rows",
    "C121_seed_ids_partial",
    "C121_windows_partial",
    "C121_windows_refuted"
   ],
   "note": "The SEED ids if no channel belongs to two phases. The pick windows if the uncertainty of the traveltime is at most about two long windows less a short one, plus what the traveltime is below the largest of the grid; otherwise they reach samples that were set to 1."
  },
  {
   "property": "C122",
   "status": "partial",
   "theorems": [
    "C122_onsets_partial",
    "C122_coalescence_partial",
    "C122_picks_partial",
    "C122_padding_refuted"
   ],
   "note": "Filters that commute with factors (linear filters do), no filling of gaps (the fill value is not scaled), data that are not padded when they are upsampled, and for the Python backend long-term averages of at least the smallest normal number. False for padded data: the pad is the integer part of the first or last sample."
  },
  {
   "property": "C123",
   "status": "proved",
   "theorems": [
    "C123_onsets",
    "C123_coalescence",
    "C123_picks"
   ],
   "note": "Exact times (ticks); the waveforms as they are passed to the onset function."
  },
  {
   "property": "C124",
   "status": "partial",
   "theorems": [
    "C124_scan_partial",
    "C124_span_partial",
    "C124_events_partial",
    "C124_cut_at_midnight_partial",
    "C124_shift",
    "C124_gain_partial"
   ],
   "note": "With exact real arithmetic, the Python STA/LTA backend, filters that keep the length, scan times and timesteps of a whole number of samples, traveltimes within the pad and coordinates that fit the file; events: for a static threshold above the rounding of the files and coalescence that is not normalised. The time shift needs none of these. Other units under the conditions of C122."
  },
  {
   "property": "C125",
   "status": "partial",
   "theorems": [
    "C125_located_partial",
    "C125_files_partial",
    "C125_pick_rows",
    "C125_shift",
    "C125_gain_partial"
   ],
   "note": "With exact real arithmetic, the Python STA/LTA backend, filters that keep the length, a marginal window and trigger time of a whole number of samples, traveltimes within the pad and an interpolating spline; other units under the conditions of C122. The pick rows and the time shift need none of these. Magnitudes, files and plots are not in this model."
  },
  {
   "property": "C126",
   "status": "partial",
   "theorems": [
    "C126_coalescence_partial",
    "C126_scan_partial",
    "C126_located_partial"
   ],
   "note": "With exact real arithmetic (a sum of floats depends on the order in its last bits), the Python STA/LTA backend, filters that keep the length, names without dots and underscores, and traveltimes within the pad. That both runs of the picker return is assumed for the picks."
  },
  {
   "property": "C127",
   "status": "partial",
   "theorems": [
    "C127_wider_windows",
    "C127_higher_threshold_partial",
    "C127_higher_threshold_refuted"
   ],
   "note": "Wider windows: proved for all data. Higher threshold: that the events are some of the former ones is false - one event can be split in two, and an event above both thresholds can give way to a sample of a later, longer stretch; what holds is that the events cover each other, and that an event whose stretch stands alone is kept. The comparison of the values, and the kept events, for coalescence that is not normalised; a median ratio threshold for values that are not negative."
  },
  {
   "property": "C128",
   "status": "partial",
   "theorems": [
    "C128_coalescence_partial",
    "C128_scan_partial",
    "C128_timestep_partial",
    "C128_pads_keep_off_the_taper",
    "C128_mean_removal_refuted"
   ],
   "note": "For continuous records at the output rate and the default gap settings, real arithmetic, the python STA/LTA, and processing whose result away from the ends of the window does not depend on where it was cut. The taper is of that kind, with the margin the pads allow for. The removal of the mean and trend of the window is not, so for the code as it stands the equality only holds up to its effect (C128_mean_removal_refuted); nor is, exactly, a recursive filter. C134, C138 and C142 bound both effects; C143 for records at a multiple of the output rate."
  },
  {
   "property": "C129",
   "status": "partial",
   "theorems": [
    "C129_located_partial",
    "C129_origin_partial",
    "C129_not_smaller_partial",
    "C129_normalised_peak_refuted"
   ],
   "note": "As C128: continuous records at the output rate, the default gap settings, real arithmetic, the python STA/LTA and processing that settles away from the ends of the window (the removal of mean and trend does not); the same onset settings and lookup table in both stages, no decimation in between. For events triggered on the normalised coalescence the claim fails: the origin time is the peak of the coalescence itself (C129_normalised_peak_refuted)."
  },
  {
   "property": "C130",
   "status": "partial",
   "theorems": [
    "C130_event_is_the_peak",
    "C130_static_peak",
    "C130_peak_of_the_scan_partial",
    "C130_located_partial",
    "C130_normalised_refuted"
   ],
   "note": "The first two need no restriction but the trigger on the coalescence itself; with the normalised coalescence the claim fails (C130_normalised_refuted). The scan and location parts are for static thresholds, files not there before the scan, and the conditions of C129."
  },
  {
   "property": "C131",
   "status": "partial",
   "theorems": [
    "C131_scan_partial",
    "C131_event_partial"
   ],
   "note": "As C128: continuous records at the output rate, the default gap settings, real arithmetic, the python STA/LTA and processing that settles away from the ends of the window. The values of the processed records (filters) are a parameter. The normalised coalescence and the hypocentre are not in the formula."
  },
  {
   "property": "C132",
   "status": "partial",
   "theorems": [
    "C132_scan_partial",
    "C132_event_partial",
    "C132_pipeline_partial"
   ],
   "note": "The conditions of C131; the pipeline part for a static threshold on the coalescence, below the peak by at least the rounding of the files. The hypocentre is the maximum of a spline around the summed map, not claimed to be at the node."
  },
  {
   "property": "C133",
   "status": "partial",
   "theorems": [
    "C133_onsets",
    "C133_scan",
    "C133_event",
    "C133_records_partial",
    "C133_silence_refuted"
   ],
   "note": "In real arithmetic. For records with silence (a long-term average of zero) the two differ: 0/0 in the compiled function, 1 in the Python one (C133_silence_refuted). C133_records_partial carries C124 to C132 over to the compiled functions for the continuous records of C128."
  },
  {
   "property": "C134",
   "status": "partial",
   "theorems": [
    "C134_scan_partial",
    "C134_event_partial",
    "C134_timestep_partial",
    "C134_source_partial",
    "C134_located_partial",
    "C134_pipeline_partial"
   ],
   "note": "The conditions of C128 but for the exact settling: continuous records at the output rate, the default gap settings, real arithmetic, the python STA/LTA (C133 for the compiled one). How close a given filter and detrending come to a signal that does not depend on the window is the parameter e; C138 computes it for the processing of the code with the energy and the absolute value, and C142 puts the two together; C143 for records at a multiple of the output rate."
  },
  {
   "property": "C135",
   "status": "partial",
   "theorems": [
    "C135_located_partial",
    "C135_near_partial",
    "C135_source_partial",
    "C135_pipeline_partial"
   ],
   "note": "The records and settings of C131 (exactly settled processing) and of C134 (approximately settled), and an interpolating spline. That the largest sum is at the node of the source is a condition of C135_source_partial: the code locates by the sum over the marginal windows, not by the peak."
  },
  {
   "property": "C136",
   "status": "partial",
   "theorems": [
    "C136_threshold",
    "C136_peak_becomes_event_partial",
    "C136_above_threshold_covered_partial",
    "C136_events_are_samples_partial",
    "C136_pipeline_partial"
   ],
   "note": "C136_threshold is without conditions but for multipliers that are not negative. The statements about events are for complete scans written by one run; the first two of them and the pipeline for triggering on the coalescence itself, not the normalised one. C136_pipeline_partial is about the records and settings of C129."
  },
  {
   "property": "C137",
   "status": "proved",
   "theorems": [
    "C137_threshold",
    "C137_same_events",
    "C137_same_run",
    "C137_other_thresholds_differ"
   ],
   "note": "For MAD thresholds, for median ratio thresholds without a new zero and for static thresholds in the same units; C137_other_thresholds_differ shows that the other cases do depend on the units or the zero. Arithmetic is exact, as in C27 to C36."
  },
  {
   "property": "C138",
   "status": "partial",
   "theorems": [
    "C138_filter_is_its_response",
    "C138_processing_partial",
    "C138_window_partial",
    "C138_decaying_filter",
    "C138_any_accuracy_partial",
    "C138_stable_sections",
    "C138_stable_sections_settle_partial",
    "C138_energy_partial",
    "C138_abs_partial"
   ],
   "note": "C138_energy_partial and C138_abs_partial give the hypothesis of C134 (nearly) for the two transforms that work sample by sample; the envelopes are not covered. The detrending and the sections are written out from scipy's documentation, the taper is any with weights between 0 and 1 that are 1 in the inner nine tenths; that the coefficients that scipy computes are stable and have their zeros at frequency zero is a hypothesis, as is exact arithmetic. One zero is enough: what one pass leaves of a line is a constant, and the second pass removes it, so filters of the first order are covered."
  },
  {
   "property": "C139",
   "status": "partial",
   "theorems": [
    "C139_least_squares_line",
    "C139_mean_removed",
    "C139_same_both_ways",
    "C139_impulse",
    "C139_not_moved_partial"
   ],
   "note": "The second and third theorem are about the filter on a record without ends, cut to the first J samples of the response; C139_not_moved_partial is about pre_process in a window. Model as for C138."
  },
  {
   "property": "C140",
   "status": "partial",
   "theorems": [
    "C140_period",
    "C140_request",
    "C140_nothing_given",
    "C140_one_time_refuted",
    "C140_times_next_to_a_file",
    "C140_picker",
    "C140_method_changed",
    "C140_methods",
    "C140_old_threshold"
   ],
   "note": "That locate asks for the second time is refuted (C140_one_time_refuted): it converts the missing time first. The rest holds for any conversion of times."
  },
  {
   "property": "C141",
   "status": "partial",
   "theorems": [
    "C141_every_kth_sample",
    "C141_decimated_partial",
    "C141_two_windows_partial",
    "C141_stable_low_pass",
    "C141_any_accuracy_partial"
   ],
   "note": "As for C138: exact arithmetic, any taper that is one in the inner nine tenths, and that the coefficients computed by scipy are stable (and, for the band-pass, have a zero at frequency zero) is a hypothesis. obspy's Trace.decimate without filter is written out as every k-th sample. The factor is a natural number here; its computation is in C90. Upsampled data are not covered."
  },
  {
   "property": "C142",
   "status": "partial",
   "theorems": [
    "C142_pads_leave_room",
    "C142_pads_leave_room_for_events",
    "C142_timestep_partial",
    "C142_meets_C134_partial",
    "C142_lively"
   ],
   "note": "The pads: all settings for which the scan (locate) is defined, at three samples a second or more. The scans: the hypotheses on the filter are those of C138 (calm, which follows from stable sections with a zero at frequency zero), those on the records those of C134: no long-term average of the filtered energy below L, and in no window a flat channel or a vanishing long-term average (for short windows the latter follows from the record, C142_lively). Transform: the energy; exact arithmetic; data at the output rate (C143 for data at a multiple of it)."
  },
  {
   "property": "C143",
   "status": "partial",
   "theorems": [
    "C143_as_if_recorded_slowly",
    "C143_scan_partial",
    "C143_event_partial",
    "C143_timestep_partial",
    "C143_source_partial",
    "C143_located_partial",
    "C143_pipeline_partial",
    "C143_either_rate_partial",
    "C143_energy_partial",
    "C143_pads_leave_room",
    "C143_pads_leave_room_for_events",
    "C143_code_partial",
    "C143_lively"
   ],
   "note": "All channels are at the same multiple of the output rate, in one trace each that begins on a sample of the output; otherwise as C134: the default gap settings, the python STA/LTA, exact arithmetic, no long-term average of the signal below L. C143_code_partial: the low-pass dies away (C141_stable_low_pass) and the band-pass is calm (C138); the transform is the energy; the two filters together have the room that C142 gives for one. The pipeline asks for records at 500 kHz at most and the static threshold, as C134_pipeline_partial. Not covered: upsampling, resampling to rates that do not divide, windows that begin between two samples of the output (C141_begin_on_the_grid)."
  },
  {
   "property": "C144",
   "status": "partial",
   "theorems": [
    "C144_picks",
    "C144_near_partial",
    "C144_source_partial",
    "C144_code_partial",
    "C144_pipeline_partial"
   ],
   "note": "As C135 and C143: all channels at the same multiple of the output rate, whole in the window; the default gap settings, the python STA/LTA, exact arithmetic, no long-term average of the signal below L; the spline interpolates; static threshold in the pipeline. C144_code_partial: filters and room as in C143_code_partial. The exact form of C135_located_partial, for a processing that does not depend on the window at all, has no counterpart: the low-pass is applied to each window by itself."
  }
 ]
}