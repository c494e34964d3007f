# Formal model of QuakeMigrate: design

Source: `/repo` (read as text; never built or run). Prover: Coq 8.16.1, files under
`rocq/theories`, logical prefix `Verif`.

## 1. Method

* One `*_Model.v` per area: total Gallina functions that follow the code branch by branch.
  Python/C exceptions and undefined behaviour are values (`option`, or a result type).
  Each definition cites the file and lines it models and says what it simplifies.
* `*_Spec.v` where needed: the independent vocabulary used in theorem statements.
* `*_Proofs.v`: lemmas. `*_Props.v`: only theorem statements closed by `exact`, each with an
  `Example` showing that a non-trivial case meets its hypotheses, and `Print Assumptions`.
* If the code violates a property, the theorem `..._refuted` gives a witness, and what does hold
  is a theorem with suffix `_partial`, whose extra hypothesis is the missing part.

## 2. Conventions

| Code | Model |
|---|---|
| Python/C integer indices, sample numbers | `Z` or `nat`; C `int32_t` index arithmetic is wrapped explicitly where the property is about overflow |
| `UTCDateTime` (integer nanoseconds since epoch) | `Z` in an arbitrary fine unit ("ticks"); one sample = `delta > 0` ticks |
| floating-point data | `R` (or `Q` where executability helps). Rounding, NaN and infinities are not modelled unless a definition says so (explicit `option` for NaN / division by zero) |
| numpy arrays | `list` or functions on a bounded index range; reads outside the range are an explicit error value |
| files in a directory | finite map from day (or name) to contents |
| obspy / numpy / pandas / scipy routines | the documented effect used by the code, stated in the definition's comment (trusted) |

## 3. Plan per property

| Id | What is modelled, how it is proved |
|---|---|
| C01 | `core/lib.py:migrate` (clip, log, size checks) composed with the C loop over flat arrays; induction over the station loop; closed form `Rpower (prod) (1/n)` |
| C02 | From C01, monotonicity of `ln`/`exp`, induction over stations |
| C03 | Flat index expression of the C loop; row bounds from `tt <= lsmp`; `pad`, `trim2sample`, `time2sample`, `post_pad` give `tt <= lsmp`; int32 wrap as `Z` modulo 2^32; witness against the raw API check |
| C04 | Small-step machine: threads with private registers, shared output array, arbitrary interleavings; invariant over steps, final state equals sequential loop |
| C05 | `Permutation` on (onset, table) pairs |
| C06 | C argmax loop over nodes; invariant; C-order ravel/unravel |
| C07 | same loop, sum accumulator; inequalities |
| C08 | onset as function of absolute sample number; two windows |
| C09, C10, C12, C15 | C loops as state folds over arrays with out-of-bounds error value; Python versions as list cumsum/slices; equality with window sums by induction |
| C11 | same models with division by zero as an explicit error; Python guard proved, C refuted |
| C13 | refuted by a concrete signal |
| C14 | `_onset`, `_trim_taper_pad` on lists of reals |
| C16, C17 | window arithmetic in ticks/samples of `detect`, `_continuous_compute`, `pad`, `_compute`, `empty`, `mw_times` |
| C18 | inequality with integer ceiling |
| C19 | `trim2sample` in exact rationals: holds when the rate divides 1000, refuted otherwise |
| C20 | `shift_to_sample` in exact arithmetic: holds for integer rates, refuted for e.g. 62.5 Hz |
| C21 | `upsample` loop on lists; edge fill is truncated to `int` (refuted for fractional data) |
| C22 | scaling, clip, round, int32; error bound |
| C23, C24 | state machine `append/empty/write` over a file map; invariant over arbitrary histories and crash points |
| C25 | two runs on one day overwrite: refuted; disjoint days proved |
| C26 | day loop covers; the first-segment selection drops data after a gap: refuted; proved without gaps |
| C27 | chunk/median/MAD on lists |
| C28 | groupby-by-(index - rank) as in the code; specification by maximal runs |
| C29 | pairwise merge loop; specification of groups |
| C30 | from C28 and C29 |
| C31 | calendar-independent part: digits of fixed-width fields; injectivity on milliseconds |
| C32 | batch loop with fuel-free recursion on days |
| C33 | filter |
| C34 | refuted (zero-MAD chunk) |
| C35 | file map and module-level column list; refuted (stale file, growing columns) |
| C36 | two overlapping batches; maximal element argument |
| C37 | day loop, filter |
| C38 | slices of map and table; time of maximum preserved; one-sample mismatch refuted |
| C39 | inequalities in ticks |
| C40 | weighted mean/variance on finite grids; spline sub-window |
| C41, C42 | window arithmetic; peak run search |
| C43, C44 | index arithmetic; decimation offset (refuted in general) |
| C45 | dictionaries as association lists; order of comprehension |
| C46 | dictionary update (refuted for shared stations) |
| C47 | boolean decision procedure |
| C48 | evaluation of the `("a" or "b" ...)` expression (refuted) |
| C49, C50 | window inequalities; extrema alignment |
| C51 | masks, weighted mean over optional values (NaN) |
| C52 | bilinear formula with the code's fractional offset (refuted for origins off the spacing grid) |
| C53 | decimal rendering of fractional seconds (refuted) |
| C54 | argument handling (refuted) |
| C55 | binary64 evaluation of the full-timespan check (refuted) |
| C56 | composition of C32, C35 and C37 |
| C57 | maximum over the listed stations and phases against the served tables |
| C58 | induction over the event list (refuted for exceptions other than missing data) |
| C59 | trilinear formula; rounding of the hypocentre (refuted between nodes) |
| C60 | state of the waveform caches (refuted after a magnitude calculation without cuts) |
| C61, C62, C63 | threshold as a function of the samples outside the windows; order from disjoint windows; induction over stations and phases |
| C64 | split by day, read back day by day (refuted for names with underscore and for two runs on one day) |
| C65, C66 | induction over the stations; first row of each phase |
| C67, C70 | sums over the used observations; NaN as a value of the model (refuted for NaN magnitudes and for r2_only_used = False) |
| C68 | substring search against the parts of a trace id (refuted for location codes) |
| C69 | formulas over the reals (refuted for two names and for the units of UK) |
| C71, C72 | extent of the table against every node; piecewise linear models with one velocity per depth (refuted for rounded tops and for row labels out of order) |
| C73, C74, C75 | smallest sum of axis distances is the closest node; triangle inequality; invariant over the loops on phases and stations |
| C76, C77 | header tokens to projection parameters; corners transformed and back (refuted for TRANS_MERC, rotations, other headers and inexact projections) |
| C53, C78 | a reader of dates, times and decimal numbers, applied to the lines written; sorting as a permutation |
| C79, C80 | induction over the picks and stations with the variable that carries over (refuted for other phases and for several networks) |
| C81, C83, C86 | induction over the event files; filters and counts of the rows of each table |
| C82, C84 | error of rounding to decimals bounded through the decimal exponent of the node spacing |
| C85 | last pick of a phase against the row of the pick table (refuted for different start times) |
| C87 | map within three nodes of its largest node against mean + Gaussian of any centre; for all maps: stationary point of the least squares quadratic (refuted as a maximum for peaks at the edge) |
| C88 | reported values against the deviations of the Gaussian (refuted: half, and along the principal axes) |
| C89 | unique largest node of the smoothed map against the only non-zero node (refuted at the last node of an even axis) |
| C90 | traces of the output against those of the input: rate, first sample, number and values of samples by time (refuted for traces that begin off the output samples) |
| C91 | samples of the filled trace by time against the samples of the traces and the fill value (refuted for traces off the output samples: one sample short, shifted) |
| C92 | smoothed values as Gaussian means of the mirrored trace; bounds; agreement between batches; position of a symmetric peak |
| C93 | measurements on a trace against those on its multiple plus offset and drift; reversed polarity (refuted for frequency and time with equal swings) |
| C94 | samples of the cut window by time against those of the trace; measurement times against the windows |
| C95 | detrended data as the data minus the only line that leaves no mean and no trend; RMS, standard deviation and largest amplitude; gain (refuted: noise on a straight line is zero, not missing) |
| C96 | node and sample of the maximum coalescence against the node and origin time whose arrivals carry the onset peaks |
| C97 | paths read for a period against the paths the layout gives to a station and a day (refuted: prefixes of names; the documented custom format) |
| C98 | samples (station, channel, time, value) of the archive against those of the result (refuted: waveforms of unselected stations) |
| C99 | tables by station and phase before and after saving, reading and updating (refuted: phases of other tables; `LUT(lut_file=)`; `load` of an old-style file over other tables) |
| C100 | coordinates of nodes, cells and stations against the extents (refuted: axes not along the coordinates; latitude and longitude of the summary) |
| C101 | attributes after construction with old names against those with new names (refuted: `sampling_rate`, `minimum_repeat`, reading `onset_centred`) |
| C102 | invariants between attributes after any assignments (refuted: windows, sampling rate, marginal window, smallest onset value) |
| C103 | components selected by the texts of the panels against the components of the map (refuted: odd maps) |
| C104 | rows of the amplitude file against rows of the table |
| C105 | events of a batch against samples of the scan, and against node and time of a source (from onsets to trigger) |
| C106 | origin time and location of a triggered event against the stacks of all nodes and times (from onsets to location; refuted: largest stack far from the largest marginal sum) |
| C107 | path of every output against run, sub-run, day, event and station (refuted: dots in names and identifiers, slashes in names, export of sub-runs with dots) |
| C108 | poles, zeros and gain against the torsion seismograph (refuted: magnification at most 2080 with obspy_def=False) |
| C109 | filter returned against filter applied, and against the one asked for (refuted: low sampling rates, missing corners) |
| C110 | annotations of the plot against one label for each station (refuted: single observation; last used station with rejected ones) |
| C111 | points, curve and limits of the plot against the magnitudes (refuted: NaN magnitudes, amplitudes far below the noise) |
| C112 | columns and accessors against the last call of each kind in any history |
| C113 | curves, heights, spans and pick lines against the arrays, windows and rows they come from |
| C114 | rows, points, waveforms, slices, legend entries, ellipses and texts against the arrivals, traces, map and event they come from |
| C115 | cells of three panels against the coordinates and values of the nodes of three planes; points and scale bar against stations and the projection |
| C116 | lines of counts against the rows of the table; marks, spans and boxes against triggered and discarded events of the run; threshold line against the threshold used |
| C117 | samples (time and value) of a channel before and after; equality of the merged traces for equal samples; verdict of `check_availability` |
| C118 | samples stored in the files that the documented layouts give to the period; equality of the traces of every channel for two archives |
| C119 | the traces of a station (`of_station`, `same_data`), the STA/LTA function of a signal by window means (`sta_lta`), the number of samples of the window; two runs on different data compared |
| C120 | the geometric mean of the onset values at the arrival samples (`with_onset`, `onset_value`), and equality of the maps of two archives with the same stored samples |
| C121 | two runs on different data compared; `untapered` samples; the ids of the traces used (`ids_of`) |
| C122 | the same call on data multiplied by `gain` per channel (`gained_data`); `homogeneous` filters, `positively` homogeneous transform |
| C123 | the same call on data and window moved by `t` (`later_data`, `later_pick`); no hypotheses |
| C124 | `scan_ready`, `answers` (what may be scanned), `step_result`, `is_peak`, `stacked` (what each timestep should give); `file_samples`, `on_date` of C23 |
| C125 | `locate_ready` (what may be located), `first_peak`, `best_sum` (what each event should get), `event_later`, `located_later` (the same event at another time); `within_two`, `inside` of C106 and C40 |
| C126 | `same_stations`, `silent` (the same data, other lists of stations), `window_ready` (what may be computed) |
| C127 | `wider`, `stricter` (pairs of settings), `same_source`, `covers` (pairs of events), `events_at`, `hit_time`, `stands_alone` |
| C128 | `cut`, `settles` (processing that does not depend on where the signal was cut, away from the ends), `recorded`, `lively`, `clear_of_ends`, `comparable`, `steady` |
| C129 | `stored` (a sample in the file of its day), `same_sample`, `first_best` |
| C130 | `hit`, `sampled`, `stored`, `first_best` (of C28 to C30 and C129) |
| C131 | `Formula_Spec`: `processed`, `ratio`, `onset_of`, `contributing`, `arrive`, `coalescence_of` |
| C132 | `source` (each onset function is largest at the arrival from the source; no other node and time has the same arrivals) |
| C133 | `Backend_Spec`: `with_backend`, `heard` |
| C134 | `Near_Spec`: `nearly`, `loud`, `slack`, `within`, `near_peak`, `stands_out` |
| C135 | `Hypo_Spec`: `first_peak_in`, `around`, `largest_around` |
| C136 | `Robust_Spec`: `mostly` (more than half satisfy it), `threshold_floor` and `threshold_ceiling` (the smallest and the largest threshold of windows whose values are mostly between two bounds), `level_steady`, `batch_samples`, `batch_times`, `background` |
| C137 | `Units_Spec`: `converted` (a value in other units), `same_row`, `same_event`, `same_files`, `same_outcome`; `follows` (which thresholds follow which change of units) |
| C138 | `Chain_Spec`: `response` (to an impulse), `calm` and `leftover` (how much of a response is left), `band_pass`, `stable` (poles inside the unit circle), `zeros` (at frequency zero), `taper_weights`, `two_sided` (the filter on a record without ends), `settling` |
| C139 | `Phase_Spec`: `mirrored`, `impulse`, `energy_of`; sums of squares over all lines |
| C140 | what locate is run for, against what it was given, for any conversion of times (refuted: half a period) |
| C141 | `Decim_Props.v`: one sample in `k` is kept; both filters on the record without ends, error bound; two windows; stable low-pass; any accuracy |
| C142 | `Room_Props.v`: the pads are clear of the taper by `J` samples, for a scan and for an event; two timesteps with the processing of the code; the hypotheses of C134; `lively` from the record |
| C143 | `Fast_Props.v`: data at a multiple of the output rate: the onset functions are those of the decimated record; scan and locate by the formula; a source is detected, triggered and located; two timesteps, two rates; the processing of the code; its pads; `lively` from the record. `Fast_Spec.v`: how such data are given |
| C144 | `FastHypo_Props.v`: the picks of data at a multiple of the output rate are those of the decimated record; origin time and location as in C135; the processing of the code; scan, trigger and locate to within two nodes |

## 4. Trusted base

* Coq 8.16.1's kernel (and its virtual machine, used by `vm_compute` in examples and witnesses).
* Standard library axioms, only where listed below. No axiom, parameter or unproved obligation is
  added; no functor or module type is defined; no kernel check is switched off.
* The reading of the code recorded in the comments of the `*_Model.v` files: section 5 says what
  is and what is not modelled.

What `Print Assumptions` lists for each theorem:

<!-- assumptions -->
* **No axioms** (closed under the global context): `C03_index_overflow_refuted`, `C04_executions_are_finite`, `C16_scan_is_contiguous_partial`, `C16_covers_period_partial`, `C16_last_sample_before_midnight_refuted`, `C17_step_appends_timestep_samples_partial`, `C17_complete_data_is_used_partial`, `C17_off_sample_start_scans_nothing_refuted`, `C17_rate_not_dividing_1000_refuted`, `C17_locate_times_match_samples_partial`, `C17_locate_uses_complete_data_partial`, `C18_taper_clear_of_onsets`, `C18_taper_clear_of_amplitudes`, `C03_scan_pads_cover_traveltimes`, `C12_scan_data_long_enough`, `C19_trim2sample_whole_samples_partial`, `C19_rate_not_dividing_1000_refuted`, `C19_binary64_refuted`, `C20_shift_to_sample_partial`, `C20_interpolation_keeps_length_partial`, `C20_fractional_rate_refuted`, `C55_complete_window_rejected_refuted`, `C23_each_sample_in_the_file_of_its_date`, `C23_applies_to_detect_partial`, `C23_empty_run_raises_refuted`, `C23_off_sample_start_raises_refuted`, `C24_crash_between_timesteps`, `C25_runs_on_different_dates_partial`, `C25_same_date_overwritten_refuted`, `C26_reads_back_the_run_partial`, `C26_data_after_a_gap_dropped_refuted`, `C27_threshold_from_own_chunk`, `C28_candidates_are_the_maximal_runs`, `C29_refinement_merges_linked_candidates`, `C30_events_respect_the_interval`, `C30_interval_setter`, `C31_id_spells_the_time`, `C31_ids_unique`, `C32_batches_partition_the_period`, `C32_off_grid_times_in_no_batch_refuted`, `C33_event_filter_is_exact`, `C34_missing_data_do_not_trigger_partial`, `C34_chunk_without_data_triggers_refuted`, `C35_files_hold_the_run_partial`, `C35_columns_duplicated_refuted`, `C35_stale_file_refuted`, `C36_no_event_reported_twice`, `C36_static_threshold_one_series`, `C36_dynamic_thresholds_differ_refuted`, `C37_reads_exactly_the_stored_events`, `C56_locate_reads_the_triggered_events_partial`, `C56_same_day_overwritten_refuted`, `C45_tables_follow_onsets_partial`, `C39_data_cover_cut`, `C39_days_read_once`, `C54_locate_arguments_partial`, `C54_single_time_refuted`, `C58_events_independent_partial`, `C58_exception_ends_run_refuted`, `C60_processed_waveforms_partial`, `C60_cached_units_refuted`, `C41_windows_disjoint`, `C41_arrivals_in_onset`, `C41_unordered_phases_not_picked`, `C42_one_peak`, `C42_fit_data_partial`, `C42_no_noise_no_pick`, `C42_peak_at_first_sample_refuted`, `C42_picking_total_partial`, `C61_threshold_from_noise`, `C61_percentile_in_range`, `C61_all_windows_masked`, `C62_picks_in_order`, `C63_pick_table`, `C64_availability_roundtrip_partial`, `C64_underscore_refuted`, `C64_day_replaced_refuted`, `C64_old_format`, `C49_windows_ordered`, `C49_arrival_in_window`, `C49_large_fraction_refuted`, `C49_pick_order`, `C49_data_in_trace_partial`, `C49_picks_leave_trace_refuted`, `C50_extrema`, `C50_largest_swing`, `C50_equal_peaks_refuted`, `C65_amplitude_table`, `C65_vertical_distance`, `C66_times_used`, `C76_rotation_refuted`, `C53_snuffler_partial`, `C53_snuffler_fraction_refuted`, `C78_component`, `C79_markers_partial`, `C79_other_phase_refuted`, `C79_modelled_and_measured_refuted`, `C85_pick_at_start_refuted`, `C86_other_formats_refuted`, `C91_gaps_filled_partial`, `C94_samples_used`, `C95_detrended`, `C97_files_of_period`, `C97_search_ends`, `C97_unknown_format_rejected`, `C97_file_of_one_station_partial`, `C97_file_of_one_day`, `C97_files_once_partial`, `C97_prefix_names_refuted`, `C97_documented_format_refuted`, `C98_every_sample_read`, `C98_nothing_else_read`, `C98_no_data`, `C98_only_selected_partial`, `C101_centred_refuted`, `C103_p_panel_partial`, `C103_s_first_partial`, `C103_s_second_partial`, `C103_s_each_once_partial`, `C103_component_missing_refuted`, `C107_distinct_files_partial`, `C107_directory_partial`, `C107_read_where_written`, `C107_export_partial`, `C107_dots_refuted`, `C107_uid_refuted`, `C107_directory_refuted`, `C107_export_refuted`, `C112_trigger`, `C113_made_partial`, `C113_axes_partial`, `C113_located_partial`, `C113_station`, `C113_end_refuted`, `C113_start_refuted`, `C113_two_traces_refuted`, `C113_three_phases_refuted`, `C114_rows`, `C114_arrivals_partial`, `C114_waves`, `C114_made_partial`, `C114_low_rate_refuted`, `C114_arrivals_refuted`, `C114_slices`, `C114_legend`, `C114_stations_partial`, `C114_stations_refuted`, `C116_availability_partial`, `C116_three_phases_refuted`, `C116_stations`, `C116_stations_refuted`, `C116_events`, `C116_threshold`, `C116_windows_partial`, `C116_windows_refuted`, `C116_map`, `C119_windows_partial`, `C121_windows_partial`, `C127_wider_windows`, `C127_higher_threshold_partial`, `C127_higher_threshold_refuted`, `C130_event_is_the_peak`, `C130_static_peak`, `C130_normalised_refuted`, `C137_threshold`, `C137_same_events`, `C137_same_run`, `C137_other_thresholds_differ`, `C140_period`, `C140_request`, `C140_nothing_given`, `C140_one_time_refuted`, `C140_times_next_to_a_file`, `C140_picker`, `C140_method_changed`, `C140_methods`, `C140_old_threshold`.
* **`ClassicalDedekindReals.sig_forall_dec`**: `C43_flat_indices`, `C48_missing_column_refuted`, `C76_projection_partial`, `C76_transverse_mercator_refuted`, `C80_stations_partial`, `C80_networks_refuted`, `C91_shifted_refuted`, `C98_only_selected_refuted`, `C99_load_replaces_partial`, `C100_summary_partial`, `C109_options_checked_partial`, `C142_pads_leave_room_for_events`, `C143_pads_leave_room_for_events`.
* **`ClassicalDedekindReals.sig_forall_dec`, `FunctionalExtensionality.functional_extensionality_dep`**: `C04_find_max_any_interleaving`, `C06_find_max_first_maximum`, `C07_normalised_is_max_over_mean`, `C07_normalised_scale_invariant`, `C09_overlapping_c`, `C09_overlapping_python`, `C09_backends_agree`, `C10_centred_c`, `C10_centred_python`, `C10_backends_agree`, `C11_python_always_numbers`, `C11_c_overlapping_numbers_iff_partial`, `C11_c_centred_numbers_iff_partial`, `C11_c_backend_refuted`, `C12_overlapping_safe_iff`, `C12_centred_safe_iff`, `C12_recursive_always_safe`, `C12_short_signal_refuted`, `C13_recursive_is_exponential_partial`, `C13_recursive_equals_centred_refuted`, `C14_floor_checked`, `C15_scale_invariance`, `C15_waveform_units`, `C15_python_scale_invariance`, `C15_overlapping_range`, `C21_upsample_is_linear`, `C21_upsample_stays_in_range`, `C21_edges_repeat_end_values_partial`, `C21_edge_values_truncated_refuted`, `C22_read_back_to_half_a_digit`, `C22_order_preserved`, `C06_maximum_decoded`, `C43_index_roundtrip`, `C43_coordinates_roundtrip`, `C43_nearest_node`, `C43_grid_covers_volume`, `C43_bad_grid_refused`, `C44_coordinates_shifted_refuted`, `C45_unequal_tables_rejected`, `C45_underscore_refuted`, `C46_equality`, `C46_sum_partial`, `C46_shared_station_overwritten_refuted`, `C57_max_traveltime_partial`, `C57_combined_tables_exceed_maximum_refuted`, `C38_origin_is_peak`, `C38_trim_keeps_origin_partial`, `C38_window_complete`, `C39_kept_iff_near_trigger`, `C40_spline_location`, `C58_missing_data_skipped`, `C59_interpolation`, `C59_nearest_entry_partial`, `C59_off_node_refuted`, `C47_verdict_exact`, `C47_stricter_monotone`, `C47_failed_channels_removed`, `C47_missing_number_of_channels`, `C48_station_files_partial`, `C51_weights_scale_partial`, `C52_range`, `C52_beyond_refused`, `C52_interpolates_partial`, `C52_origin_off_spacing_refuted`, `C72_one_velocity`, `C72_same_model`, `C72_row_labels_refuted`, `C77_read_nlloc_partial`, `C77_later_headers_refuted`, `C77_inexact_projection_refuted`, `C53_nlloc`, `C78_phase_file_partial`, `C78_zero_uncertainty_refuted`, `C80_elevation_refuted`, `C85_headers_partial`, `C85_start_times_refuted`, `C85_elevation_refuted`, `C85_failed_pick_refuted`, `C90_complete_data_partial`, `C90_decimated_samples_partial`, `C90_checks_partial`, `C90_off_grid_refuted`, `C90_order`, `C91_short_onset_refuted`, `C99_read_back`, `C99_update_converts`, `C99_update_keeps_tables`, `C99_update_served_partial`, `C99_update_new_partial`, `C99_update_twice`, `C99_constructor_partial`, `C99_update_phases_refuted`, `C99_constructor_refuted`, `C99_load_over_tables_refuted`, `C99_defaults`, `C100_nodes_in_extent_partial`, `C100_cells_in_extent_partial`, `C100_station_extent`, `C100_max_extent_partial`, `C100_cells_drawn_partial`, `C100_summary_refuted`, `C100_extent_refuted`, `C101_onset_renamed`, `C101_onset_values`, `C101_other_phases`, `C101_scan_renamed_partial`, `C101_scan_values`, `C101_scan_sampling_rate_refuted`, `C101_trigger_dynamic`, `C101_trigger_renamed_partial`, `C101_trigger_values`, `C101_trigger_refuted`, `C102_pads_partial`, `C102_pre_pad`, `C102_post_pad_tight`, `C102_pads_refuted`, `C102_shared_onset_refuted`, `C102_scan_rate_partial`, `C102_scan_rate_assigned`, `C102_scan_rate_refuted`, `C102_trigger_partial`, `C102_trigger_refuted`, `C102_min_onset_partial`, `C102_min_onset_refuted`, `C105_batch_triggered`, `C105_peak_becomes_event_partial`, `C105_above_threshold_covered_partial`, `C105_events_are_samples_partial`, `C108_increasing_partial`, `C108_passband`, `C108_units`, `C108_overshoot_refuted`, `C109_applied_filter_returned`, `C109_filter_as_asked_partial`, `C109_low_rate_refused`, `C109_low_rate_refuted`, `C109_missing_corner_refuted`, `C114_ellipses`, `C114_ellipses_units`, `C115_points`, `C115_cells_partial`, `C115_event_partial`, `C115_scale_partial`, `C115_cells_refuted`, `C117_samples_kept`, `C117_pieces`, `C117_unsplit`, `C117_availability`, `C117_clash_rejected`, `C117_mixed_rates`, `C118_samples_partial`, `C118_waveforms_partial`, `C118_organisation_partial`, `C118_organisation_refuted`, `C121_windows_refuted`, `C128_pads_keep_off_the_taper`, `C129_normalised_peak_refuted`, `C130_peak_of_the_scan_partial`, `C136_threshold`, `C136_peak_becomes_event_partial`, `C136_above_threshold_covered_partial`, `C136_events_are_samples_partial`, `C138_filter_is_its_response`, `C138_processing_partial`, `C138_window_partial`, `C138_decaying_filter`, `C138_any_accuracy_partial`, `C138_energy_partial`, `C138_abs_partial`, `C139_least_squares_line`, `C139_mean_removed`, `C139_same_both_ways`, `C139_impulse`, `C139_not_moved_partial`, `C141_every_kth_sample`, `C141_decimated_partial`, `C141_two_windows_partial`, `C142_pads_leave_room`, `C142_meets_C134_partial`, `C142_lively`, `C143_energy_partial`, `C143_pads_leave_room`, `C143_lively`.
* **`ClassicalDedekindReals.sig_forall_dec`, `ClassicalDedekindReals.sig_not_dec`, `FunctionalExtensionality.functional_extensionality_dep`**: `C04_one_writer_per_element`, `C14_combined_onset_value`, `C14_edges_are_one`, `C38_last_sample_dropped_refuted`, `C40_locations_inside`, `C40_covariance_formula`, `C51_weighted_error_refuted`, `C68_station_filter`, `C68_location_code_refuted`, `C71_covers_partial`, `C71_rounded_top_refuted`, `C73_station_nodes`, `C74_straight_rays`, `C75_complete`, `C75_methods`, `C81_no_directory_refuted`, `C81_no_pick_file_refuted`, `C83_amplitudes_only_refuted`, `C92_gaussian_mean`, `C92_bounds`, `C92_batches`, `C93_scale`, `C93_noise`, `C93_polarity_partial`, `C93_polarity_refuted`, `C94_time_in_window`, `C94_p_before_s`, `C95_rms`, `C95_gain`, `C95_straight_line`, `C95_noise`, `C95_zero_noise_refuted`, `C108_seismograph`, `C111_distance_error`, `C119_own_data`, `C119_same_waveforms`, `C119_value_partial`, `C119_components_partial`, `C119_lengths_partial`, `C119_phase_without_settings`, `C121_own_data`, `C121_rows`, `C121_seed_ids_partial`, `C122_onsets_partial`, `C122_picks_partial`, `C122_padding_refuted`, `C123_onsets`, `C123_picks`, `C133_onsets`, `C133_silence_refuted`, `C138_stable_sections`, `C138_stable_sections_settle_partial`, `C141_stable_low_pass`, `C141_any_accuracy_partial`, `C143_as_if_recorded_slowly`, `C144_picks`.
* **`ClassicalDedekindReals.sig_forall_dec`, `Classical_Prop.classic`, `FunctionalExtensionality.functional_extensionality_dep`**: `C44_decimated_tables_partial`, `C44_decimate_keeps_coordinates_partial`.
* **`ClassicalDedekindReals.sig_forall_dec`, `ClassicalDedekindReals.sig_not_dec`, `Classical_Prop.classic`, `FunctionalExtensionality.functional_extensionality_dep`**: `C01_migrate_geometric_mean`, `C02_coalescence_within_onsets`, `C02_coalescence_floor_and_ceiling`, `C03_reads_stay_in_station_row`, `C03_raw_api_out_of_bounds_refuted`, `C03_raw_api_wrong_row_refuted`, `C04_migrate_any_interleaving`, `C05_station_order_irrelevant`, `C08_window_independent`, `C14_combined_onset_bounds`, `C45_migration_pairs_stations_partial`, `C45_missing_station_type_error`, `C51_network_magnitude`, `C51_standard_deviation`, `C51_zero_distance_refuted`, `C51_noise_refuted`, `C67_coefficient_of_determination`, `C67_nan_magnitude_refuted`, `C67_predicted_below_noise_refuted`, `C69_attenuation`, `C69_documented_names_refuted`, `C69_UK_units_refuted`, `C70_multiplier_shifts`, `C81_catalogue_partial`, `C82_origins`, `C82_units_refuted`, `C83_magnitudes_partial`, `C83_station_count_refuted`, `C84_ellipsoid_partial`, `C84_axes_refuted`, `C86_waveform_file_partial`, `C87_gaussian_recovered_partial`, `C87_stationary_partial`, `C87_maximum_refuted`, `C88_uncertainty_partial`, `C88_one_sigma_refuted`, `C88_axes_refuted`, `C89_smoothing_keeps_the_peak_partial`, `C89_even_edge_refuted`, `C92_peak_stays`, `C96_source_found`, `C96_single_peaks_found`, `C96_found_despite_noise`, `C96_equal_moveout_not_separated`, `C104_kept`, `C104_order`, `C104_missing`, `C104_magnitudes`, `C104_log_amplitude`, `C104_written_again`, `C105_scan_succeeds`, `C105_source_becomes_event_partial`, `C106_locate_outcome`, `C106_source_located_partial`, `C106_source_scanned_triggered_located_partial`, `C106_largest_stack_elsewhere_refuted`, `C110_one_label_partial`, `C110_never_fails`, `C110_single_refuted`, `C110_twice_refuted`, `C111_curve`, `C111_drawn`, `C111_equations`, `C111_axes_partial`, `C111_outside_refuted`, `C111_nan_magnitude`, `C111_nan_refuted`, `C112_file`, `C112_written_iff`, `C112_untriggered`, `C112_getters`, `C112_mean_error`, `C114_text_partial`, `C114_text_refuted`, `C120_coalescence_partial`, `C120_window_partial`, `C120_archive_partial`, `C122_coalescence_partial`, `C123_coalescence`, `C124_scan_partial`, `C124_events_partial`, `C124_span_partial`, `C124_cut_at_midnight_partial`, `C124_shift`, `C124_gain_partial`, `C125_located_partial`, `C125_files_partial`, `C125_pick_rows`, `C125_shift`, `C125_gain_partial`, `C126_coalescence_partial`, `C126_scan_partial`, `C126_located_partial`, `C128_coalescence_partial`, `C128_scan_partial`, `C128_timestep_partial`, `C128_mean_removal_refuted`, `C129_located_partial`, `C129_origin_partial`, `C129_not_smaller_partial`, `C131_scan_partial`, `C131_event_partial`, `C132_scan_partial`, `C132_event_partial`, `C132_pipeline_partial`, `C130_located_partial`, `C133_scan`, `C133_event`, `C133_records_partial`, `C134_scan_partial`, `C134_event_partial`, `C134_timestep_partial`, `C134_source_partial`, `C134_located_partial`, `C134_pipeline_partial`, `C135_located_partial`, `C135_near_partial`, `C135_source_partial`, `C135_pipeline_partial`, `C136_pipeline_partial`, `C142_timestep_partial`, `C143_scan_partial`, `C143_event_partial`, `C143_timestep_partial`, `C143_source_partial`, `C143_located_partial`, `C143_pipeline_partial`, `C143_either_rate_partial`, `C143_code_partial`, `C144_near_partial`, `C144_source_partial`, `C144_code_partial`, `C144_pipeline_partial`.
<!-- /assumptions -->

## 5. What is modelled

| File of the model | Code (under `quakemigrate/`) | Simplifications, not modelled |
|---|---|---|
| `Migrate_Model.v` | `core/src/migratelib.c` (all), `core/lib.py` `migrate`, `find_max_coa` | Reals for binary64 (rounding, NaN, infinities not modelled); int32 index arithmetic modelled; OpenMP as arbitrary interleaving of atomic steps with private registers (sequential consistency; the C memory model is not modelled) |
| `StaLta_Model.v` | `core/src/onsetlib.c` (all), `core/lib.py` kernels wrappers, `signal/onsets/stalta.py` Python kernels, `_onset`, `_trim_taper_pad` | Reals for binary64; division by zero is an explicit undefined value; obspy filters, detrend, Hilbert envelope not modelled |
| `Timeline_Model.v` | `util.py` `time2sample`, `trim2sample`, `shift_to_sample`, `upsample`; `signal/onsets/base.py` `pad`; `stalta.py` `pre_pad`, `post_pad`; window arithmetic of `signal/scan.py` `detect`, `_continuous_compute`, `_compute`, `_read_event_waveform_data`; `io/event.py` `mw_times`, `io/data.py` full-timespan check; `local_mag/amplitude.py` `pad` | Exact arithmetic on ticks; obspy's `trim` as documented (nearest_sample=False) |
| `Float_Model.v` | the binary64 evaluation of `trim2sample` and of the full-timespan check | `SpecFloat` operations of the standard library; decimal literals rounded to nearest; `round(x, 3)` modelled as the correctly rounded decimal |
| `ScanMseed_Model.v` | `io/scanmseed.py` (all) and the append/empty/write calls of `scan.py` `_continuous_compute` | obspy `merge(method=-1)`, `trim`, `slice`, `read` by their documented effect (nearest sample); the five channels as one stream of rows; file names as dates (justified by `fstem_inj` in `Calendar_Proofs.v`: year and julday determine the date); overlapping traces are not joined; file writes are atomic |
| `Calendar_Model.v` | obspy/CPython `UTCDateTime` year, month, day, julday and the strings made of them (`trigger.py` event ids, file names) | Proleptic Gregorian calendar, proved to be the successor rule; years below 1000 written with four digits |
| `Trigger_Model.v` | `signal/trigger.py` `chunks2trace`, `trigger`, `_trigger_batch`, `_get_threshold`, `_identify_candidates`, `_refine_candidates`, `_filter_events`, interval setter; `io/triggered_events.py` (all); `util.py` `calculate_mad` | Rationals for binary64; smoothing of the coalescence is in `Smooth_Model.v`; plots and logs not modelled; `read_scanmseed` is a parameter here (modelled in `ScanMseed_Model.v`); number formatting in the csv files not modelled; pandas `groupby`/`idxmax`, numpy `split`/`median` by their documented effect |
| `PyDict.v`, `Lut_Model.v` | `lut/lut.py` `Grid3D` (all but extents), `LUT` `serve_traveltimes`, `_serve_traveltimes`, `max_traveltime`, `__add__`, `__eq__`, `__getitem__`; `stalta.py` `calculate_onsets` (pairing loop); `scan.py` `_compute` | Reals for binary64; pyproj transforms, the availability verdict and the onset functions are parameters; dictionaries as ordered association lists; old-format tables (`maps`), `traveltime_to`, plotting and pickling not modelled |
| `Locate_Model.v` | `io/event.py` `add_compute_output`, `in_marginal_window`, `trim2window`, `max_coalescence`; `signal/scan.py` `locate` (arguments), `_locate_events` (loop), `_read_event_waveform_data`, `_calculate_location`, `_splineloc`, `_covfit3d`; `io/data.py` `read_waveform_data`, `_load_from_path`, caches of `get_real_waveform`, `get_wa_waveform`; `io/cut_waveforms.py`; `lut.py` `traveltime_to` | Reals for binary64; scipy's Rbf is a parameter that reproduces its data points; scipy's RegularGridInterpolator as trilinear interpolation; pandas `idxmax`, numpy `nanargmax` first maximum; traces as sets of samples, obspy `trim` to the nearest sample; response removal as a table of channels that respond; Gaussian location in `GauFit_Model.v`; plots, logs not modelled |
| `Picker_Model.v` | `signal/pickers/gaussian.py` `pick_phases`, `_determine_window`, `_distinguish_windows`, `_find_pick_threshold`, `_fit_gaussian`, `_find_peak`, `_pick_failure` | Rationals for binary64; scipy's `curve_fit` is a parameter (any function of the data, or an exception); the initial parameters of the fit, plots and the csv format are not modelled |
| `Avail_Model.v` | `io/data.py` `check_availability`; `stalta.py` removal of failed channels; `io/availability.py` (all); `io/core.py` `read_stations` | obspy `get_gaps` from its documentation; exact times; csv files as tables; tables with different columns are not concatenated |
| `Amp_Model.v` | `signal/local_mag/amplitude.py` `get_amplitudes` (table), `_get_distances` (vertical), `_get_amplitude_windows`, `_get_picks`, `_peak_to_trough_amplitude`, `_measure_noise_amp` (window), `pad` | Rationals for binary64; scipy's `find_peaks` with a prominence from its documentation; what one trace yields is a parameter of the table; response removal, filters and their gain, RMS and STD averages not modelled |
| `Mag_Model.v` | `signal/local_mag/magnitude.py` (all but the plot), `local_mag.py` `calc_magnitude` | Reals with infinities and NaN for binary64 (no rounding, no signed zero); pandas sums skip NaN, numpy sums do not; a column of `.values` is the column itself (pandas before copy-on-write); a regular expression is a predicate; a callable A0 acts on each distance by itself |
| `CreateLut_Model.v` | `lut/create_lut.py` (all but directories, logs, saving and the check of `nlloc_path`) | Reals for binary64 and binary32; pyproj's `Transformer`, scikit-fmm and the programs of NonLinLoc are parameters; scipy's `interp1d` as linear interpolation; `{:f}` as rounding to six decimals; a division by zero is not distinguished |
| `Export_Model.v` | `export/to_nlloc.py`, `export/to_snuffler.py` (all) | Reals for binary64; the format of uncertainties (`9.2e`) and of coordinates is a parameter or left out; obspy objects as records |
| `Catalogue_Model.v` | `export/to_obspy.py`, `export/to_mfast.py` (all), `io/event.py` `write`, `signal/pickers/base.py` `write`, `lut.py` `precision`, names of `cut_waveforms.py` `write_waveforms` | Reals with NaN for binary64; csv files as tables; obspy objects as records; `COV_Err_XYZ`, integer columns, creation info and namespaces left out; `gps2dist_azimuth` is a parameter |
| `GauFit_Model.v` | `signal/scan.py` `_mask3d`, `_gaufilt3d`, `_gaufit3d`; `util.py` `gaussian_3d` (one width) | Reals for binary64, no NaN in the map; `fftconvolve` as the convolution it computes; `pinv` and `eig` are parameters (least squares solution; zeros of the characteristic polynomial); a largest value of 0 is an exception (NaN make `nanargmax` raise); the unused results `vec`, `csgm`, `val` not modelled |
| `Resample_Model.v` | `util.py` `resample`, `decimate`, `upsample` (with Timeline_Model); `stalta.py` `pre_process`, gap filling in `calculate_onsets` | obspy's `decimate`, `trim`, `merge(method=1)` from their documentation and without their rounding to 7 digits; detrend, taper and filters are functions on the data (parameters); rational sampling rates |
| `Smooth_Model.v` | `signal/trigger.py` `_smooth_coa` | Reals for binary64; scipy's `gaussian_filter1d` (mode reflect) from its documentation and source |
| `AmpMeas_Model.v` | `signal/local_mag/amplitude.py` `_measure_signal_amps`, `_measure_noise_amp`, `_average_amplitude` | Rationals for binary64, reals for averages; obspy's `Trace.slice` and scipy's linear `detrend` from their documentation and source; filter gain and envelope are parameters |
| (no model file) `Source_*.v` | composition of `Migrate_Model.v` functions as in `signal/scan.py` `_compute` | Onsets and traveltimes arbitrary |
| `Archive_Model.v` | `io/data.py` class `Archive`: `path_structure`, `read_waveform_data`, `_load_from_path` | Shell patterns and `pathlib.glob` from their documentation; reading of a file is a parameter; obspy's `trim` and `select` modelled; times in ticks |
| `LutFile_Model.v` | `io/core.py` `read_lut`; `lut/lut.py` `LUT.__init__` without grid, `save`, `load`, getters of old attributes, `__getitem__`, `_serve_traveltimes`; `lut/__init__.py` `update_lut` | Pickle restores what was dumped; attributes as optional fields; warnings left out |
| `Extent_Model.v` | `lut/lut.py` `get_grid_extent`, `station_extent`, `max_extent`, numbers of `__str__`, cell edges of `plot` | pyproj's transform is a parameter; reals for binary64 |
| `Params_Model.v` | `signal/onsets/base.py`, `signal/onsets/stalta.py` constructors, pads and deprecated names; `signal/scan.py` `QuakeScan.__init__`, `scan_rate`, deprecated names; `signal/trigger.py` `Trigger.__init__` and setters | Plot and output switches and warnings left out; reals for binary64 |
| `Comps_Model.v` | `util.py` `get_phase_component_strings` | ASCII; the selection of a component by `fnmatch` from its documentation |
| `Amps_Model.v` | `io/amplitudes.py` `write_amplitudes` | The number that a text stands for instead of the text |
| `Pipeline_Model.v` | glue: output of `_compute` to `ScanmSEED.append`, run of appends, `read_scanmseed` to the table of `Trigger` | Other steps are those of `Migrate_Model.v`, `ScanMseed_Model.v`, `Trigger_Model.v`; the table has exact decimal fractions |
| `LocatePipe_Model.v` | glue: `_compute` for an event to `add_compute_output`, location of the trimmed event | Other steps are those of `Migrate_Model.v` and `Locate_Model.v` |
| `Files_Model.v` | `Run.__init__`, `Run.name`; paths of all outputs and of the files read by later stages and the export; pathlib's `/` and `with_suffix` | Four-digit years; log files |
| `WoodAnderson_Model.v` | `wa_response`; response of poles and zeros | Reals; the simulation itself (FFT, taper, water level) |
| `AmpFilter_Model.v` | `Amplitude.__init__` (filter options), `_filter_trace`, `_bandpass_filter`, `_highpass_filter`, the loop over traces of `get_amplitudes` | The filter design by scipy and the measurement are parameters |
| `AmpPlot_Model.v` | `label_stations`, `amplitudes_summary`, `Magnitude.plot_amplitudes` | What is put on the axes; no colours, markers, texts, legend and file |
| `Event_Model.v` | `Event.__init__`, `add_compute_output` (times, COA, COA_NORM), `add_covariance_location`, `add_gaussian_location`, `add_spline_location`, `add_local_magnitude`, `trim2window` (rows), `write`, `get_hypocentre`, `get_loc_uncertainty`, `local_magnitude`, `max_coalescence`, `_parse_triggered_event` | Reals with NaN and infinities; the text of a number is the number; waveforms, map, onsets and picks left out |
| `PickPlot_Model.v` | `plot/phase_picks.py` (`pick_summary`, `_plot_phase_pick`), `GaussianPicker.plot` | What is drawn on the axes; rational values; colours only as grey or not, no texts, Gaussian curve or file |
| `EventPlot_Model.v` | `plot/event.py` (`event_summary`, `_plot_waveform_gather`, `_plot_text_summary`, `_make_ellipses`) | What is drawn, as lists; `np.argsort` is any order with values that do not decrease; layout, xy files, the coalescence trace and the figure file left out |
| `LutPlot_Model.v` | `lut/lut.py` (`LUT.plot`) | Reals for floats; cells as edges and values; labels, ticks, colour maps and layout left out |
| `TrigPlot_Model.v` | `plot/trigger.py`; `signal/trigger.py` (`_trigger_batch`: the events it hands to the plot) | marks as numbers; colours by number; layout, labels, legends and the three line plots of the coalescence left out |
| `Merge_Model.v` | `util.py` (`merge_stream`) | obspy's `merge(method=-1)` from its documentation; shifts below 1 % of a sample, number types and calibration left out; any order of the set of ids |
| `Read_Model.v` | `io/data.py` (`Archive.read_waveform_data` with merge and shift) | the steps of `Archive_Model` and `Merge_Model` composed; ids are STATION.CHANNEL; `interpolate=False` |
| `Onset_Model.v` | `signal/onsets/stalta.py` (`calculate_onsets`, `_onset`), `signal/scan.py` `_compute` with the onsets | composition of `Resample_Model`, `Avail_Model`, `StaLta_Model`, `Lut_Model` and `Migrate_Model`; filters, taper and the transform of the signal are parameters (functions of the data of one trace); ids are STATION.CHANNEL; station names without wildcards; a map with undefined onset values is left undefined |
| `PickRun_Model.v` | `signal/pickers/gaussian.py` `pick_phases` from waveforms, with `write_seed_ids` | composition of `Onset_Model` and `Picker_Model`; onset values become rationals by an arbitrary function; the traveltimes of the hypocentre are a parameter |
| `DetectRun_Model.v` | signal/scan.py detect, _continuous_compute and _compute in the detect stage: the models of the onset functions, the C kernels, the grid, the ScanmSEED files and the availability tables in one loop | reading is a function of the window (`Read_Model.v` has it); the onset functions of a window are computed twice instead of once |
| `LocateRun_Model.v` | signal/scan.py _locate_events and _compute in the locate stage, with the waveforms: the models of the onset functions, the C kernels, the event window, the location and the picks in one function | reading is a function of the window; magnitudes, files and plots are in other models |
| `Chain_Model.v` | `signal/onsets/stalta.py` `pre_process` after the resampling (lines 200-209), `_onset` transforms `energy` and `abs` | Reals; least-squares line, mean and the second-order sections of `sosfilt` from scipy's documentation; the weights of obspy's cosine taper and the coefficients of the Butterworth filter are parameters; the transforms with `hilbert` are not modelled. Onset_Model keeps the whole step as a parameter (`ph_band`); `C138_energy_partial` connects the two |
| `Args_Model.v` | `signal/scan.py` `locate` (arguments), `signal/pickers/gaussian.py` `__init__` and the old `pick_threshold` | obspy's `UTCDateTime` is any function; messages and plotting options are left out |
| `Decim_Model.v` | `util.decimate` (util.py:503-518), followed by the filter of stalta.py:202-208 | detrend, taper and sections from `Chain_Model.v`; `Trace.decimate(no_filter=True)` is every `k`-th sample from the first |

## 6. Findings

Properties that the faithful model violates; each is a theorem `..._refuted` with a concrete witness.

* C03: `lib.migrate` checks only the onset length against pads, so a traveltime larger than the
  trailing pad reads the next station's row, or past the array (raw API; scans are proved safe).
* C11: the C STA/LTA kernels divide 0 by 0 on all-zero signals; the Python kernels guard this.
* C12: `lib.py` does not check that a signal is as long as the windows; the kernels then read and
  write out of bounds (scan windows are proved long enough).
* C13: the recursive STA/LTA is not the centred STA/LTA, as its docstring says it approximates.
* C16: a scan ending at midnight whose last timestep would hold only the last sample of the day
  drops that sample (`endtime` is moved back by one sample and the step count rounds to zero).
* C17: if the start time is not on the data's sample grid (or the rate does not divide 1000 Hz,
  e.g. 64 Hz, so that pads in whole milliseconds leave the grid), every window is one sample short of
  the full-timespan check and the whole scan is silently empty.
* C19: `trim2sample` rounds to milliseconds, so it does not return whole samples for rates that do
  not divide 1000 Hz; in binary64 `trim2sample(4.02, 50)` is 4.019.
* C20: `shift_to_sample` leaves the sample grid at 62.5 Hz.
* C21: `upsample` pads its edges with integers, truncating the data's end values.
* C55: in binary64 the full-timespan check rejects complete windows of particular lengths, e.g.
  151.58 s at 50 Hz (timestep 120 s, STA 0.2 s, LTA 1 s, largest traveltime 10 s): `(151.58*50)+1` exceeds the number of
  samples by one rounding error, so no station is ever used.
* C23: a detect run without timesteps (start = end, or start one sample before an end at midnight)
  raises IndexError in the final `write()`; a run starting more than half a sample off the grid raises ValueError
  at the second timestep after midnight.
* C25: a second detect run on a date already scanned replaces the day's file.
* C26: `read_scanmseed` keeps only the first gap-free segment, so scan data after a gap (a missing
  day, or a file with a gap) are never triggered on.
* C32: an off-grid time within one sampling interval before midnight is in no batch (the batch end is
  moved back by one sample), so an event there would not be reported.
* C34: with the MAD or median-ratio threshold a chunk without data (coalescence 0) has threshold 0,
  which all its samples reach, and an event is triggered.
* C35: `write_triggered_events` extends the module-level list `OUTPUT_COLS`, so with
  `write_event_time_windows` every file after the first repeats the columns MinTime and MaxTime; when no
  sample reaches the threshold the file of an earlier run stays.
* C36: dynamic thresholds use chunks counted from the start of each day's padded data, so the same
  sample has different thresholds in consecutive batches and two events closer than the minimum event
  interval can be reported around midnight (proved impossible when the thresholds agree).
* C56: trigger files are named after the date only; a second run over another part of a day replaces
  the events of the first.
* C44: `decimate` keeps the nodes c1, c1+df, ... but leaves the corner of the grid in place, so for
  (n-1) mod df >= 2 all coordinates of the decimated table are off by c1 spacings.
* C45: a station name containing an underscore makes `serve_traveltimes` raise ValueError, even if no
  data of that station are available. Data of a station without tables raise TypeError (the lookup
  returns None), not the documented LUTPhasesException.
* C46: `lut1 + lut2` replaces lut1's tables of shared stations by lut2's; the documentation says they
  are kept.
* C57: `lut1 + lut2` keeps lut1's station list, so `max_traveltime` ignores the added stations; the
  trailing pad of a scan can then be too short and the migration kernel reads outside the onsets (C03).
* C38: `trim2window` slices the map with `[first:last]`, so the map of the last sample of the marginal
  window is never part of the location; a marginal window shorter than a sample leaves no map at all and
  the location raises ValueError.
* C54: `locate` converts the times with UTCDateTime before checking them for None, so the documented
  RuntimeError for a single time is never raised.
* C58: only three exceptions (empty archive, data gap, no data available) are caught per event; any other,
  for example a trace below the Nyquist rate of the filter, ends the run before the later events.
* C59: picks and amplitude windows convert the hypocentre with `index2coord(..., inverse=True)`, which
  rounds to the nearest node, so the interpolation of `traveltime_to` is never effective.
* C60: after a magnitude calculation, with no cut requested, the cached waveforms are written: always
  displacement, only the channels measured, whatever units were asked for.
* C41: phases listed in reverse order (["S", "P"]) get overlapping index ranges; the window of the
  first is empty and is never picked.
* C42: a peak above the threshold that begins at the first sample of the onset array gives an index -1;
  the ValueError is raised outside the `try`, so the event is lost instead of the pick being marked as failed.
* C47: the TypeError documented for a missing `n_channels` is raised only if all channels passed; otherwise
  the answer is "not available".
* C48: `read_stations` tests `("Latitude" or "Longitude" or ...) not in columns`, which is the test for
  "Latitude" alone: a file without longitudes is accepted, one without elevations or names raises KeyError.
* C64: availability columns of a station with an underscore in its name are taken for the old format and
  raise KeyError; a second detect run over part of a day replaces the day's availability.
* C49: with fraction_tt above 1/2 the P window can end before it begins (`C49_large_fraction_refuted`).
  `pad` provides for modelled arrivals only: a P pick earlier than modelled moves the noise window
  before the start of the data, a late S pick moves the S window past their end
  (`C49_picks_leave_trace_refuted`).
* C50: with a positive prominence multiplier and equal peaks, peaks and troughs need not alternate; if
  their numbers agree nothing is noticed and a peak is paired with a trough that is not next to it.
* C51: an observation at distance 0 is used although its magnitude is NaN; so is an amplitude below the
  noise if noise_filter is 0, and a trace without noise makes a weighted mean NaN. The network magnitude
  then is NaN (with r-squared 1 if amplitudes differ, C67), and a plot of it is attempted: `mag is not
  np.nan` is the test for the one object `np.nan`.
* C51: the error of a weighted mean has squared weights over the sum of the weights, so it depends on the
  scale of the weights; it is not a weighted standard deviation.
* C67: with r2_only_used = False the result of `magnitudes.drop` is discarded: observations whose
  predicted amplitude is below the noise stay.
* C68: station_filter looks for ".name." in the trace id, which a location code matches, too.
* C69: "Greenfield2018" and "langston1998" are documented but raise ValueError (the code has
  "Greenfield2018_comb", "Langston1998"). "UK" is a formula for amplitudes in nanometres: it is lower than
  Hutton-Boore by 2.68 and more for the same amplitude in millimetres.
* C52: `_bilinear_interpolate` takes the fraction of the cell from the coordinate, not from its distance
  to the origin of the table. If the top of the table (the shallower of grid and highest station) is not a
  multiple of nlloc_dx, every interpolated time is wrong, by up to a cell.
* C71: the depth of the top is written with six decimals; if it is rounded downwards (deeper), the nodes
  of the top layer get index -1, which numpy takes from the bottom of the table.
* C72: `_vmodel_string` takes the rows by label; a model sorted by depth but not re-indexed gives layers in
  the old order.
* C76: for TRANS_MERC the origin is passed to pyproj as `lon`, `lat` (not `lon_0`, `lat_0`), so the grid is
  centred at 0, 0. The rotation `RotCW` is ignored for all transforms.
* C77: only the header of the first file is used. The corners go through the projection and back, and the
  number of nodes is rounded up, so any positive rounding error adds a node the tables do not have.
* C53: `snuffler_markers` writes the microseconds of a time without leading zeros, so 10.055 s is read as
  10.55 s; every fraction of a second below a tenth (but zero) is wrong.
* C78: a pick uncertainty of zero is written as unknown.
* C79: a pick of a phase other than P and S is given the component of the pick before it (or raises
  NameError); markers do not tell modelled from measured arrivals.
* C80: the network code of the first station is written for all stations; elevations read with
  `read_stations` have the opposite sign.
* C81: without an events directory `read_quakemigrate` raises NameError (`event_files` is not assigned);
  events without a pick file are left out silently.
* C82: event files do not record their units; exporting with the other unit scales all depths by 1000.
* C83: the station count of a magnitude counts channels. An amplitude file without magnitudes (amplitudes
  measured, no magnitude parameters) makes the export of the catalogue raise KeyError.
* C84: the major axis of the confidence ellipsoid is the uncertainty along north, even if shorter than that
  along east or depth.
* C85: header times are relative to the station's first trace but are written to all components; a failed
  pick is replaced by the modelled arrival without a mark; an S arrival exactly at the start is dropped; the
  elevation is in kilometres with the sign of a depth.
* C86: the catalogue always names `<uid>.m`, whatever the waveform format.
* C87: where the map grows towards the edge of the grid faster than exponentially, the fitted quadratic is not
  positive definite and the "expectation location" is the minimum along that axis. Nothing checks for it.
* C88: the uncertainties documented as one sigma are half of it (`np.sqrt(0.5 / egv) / 2`). They are those along
  the principal axes of the Gaussian, in the order numpy returns the eigenvalues, multiplied by the node spacings
  of x, y, z and written as GAU_ErrX, GAU_ErrY, GAU_ErrZ: a map symmetric in x and y gets different errors.
* C89: with an even number of nodes along an axis the filter is off by half a node. Mirroring undoes the shift, but
  not the loss at the edge: a peak on the last node moves to the one before it.
* C90: decimation keeps every n-th sample from the first one of each trace. A trace that begins after a gap at a raw
  sample between two output samples stays there; timestamps were only aligned with the raw rate. Data upsampled
  straight to the requested rate are low-passed too (`trace_sampling_rate` is the old rate in the second test).
* C91: such a trace, accepted with `allow_gaps` or `full_timespan=False`, gives an onset one sample shorter than the
  others, so that `np.stack` raises ValueError and the scan stops; joined to an earlier trace it is moved by up to half a
  sample.
* C93: with two neighbouring swings of the same size, reversed polarity of a component changes which one is reported
  (the two lists of differences are compared in another order), hence frequency and time.
* C95: a signal window is tested for being flat after detrending, the noise window before: a noise window on a straight
  line has a noise amplitude of zero instead of NaN.
* C97: layouts that end in `{station}*` also match the files of stations whose names start with the requested one: with
  ST1 selected the file of ST10 is read, and with both selected it is read twice. The custom format given as the example
  in docs/tutorials/archive.rst:41 has the field `{channels}`, which `_load_from_path` does not fill in: KeyError.
* C98: as a consequence `data.waveforms` can hold stations that were not selected, unless `read_all_stations` is set.
* C99: `update_lut` always sets the phases P and S and `fraction_tt` 0.1; a P-only table can then not be served
  (KeyError). `LUT(lut_file=...)` replaces `station_data` by an empty table after loading: serving the traveltimes of all
  stations, and with it `max_traveltime`, raises KeyError for every file.
* C100: `LUT.__str__` prints longitudes as degrees north and latitudes as degrees east (`lat1=ll[0]`, but coordinates are
  longitude, latitude, depth). `get_grid_extent` converts two opposite corners only; where the axes of the projected grid
  do not run along meridians and parallels, nodes lie outside the extent.
* C101: `QuakeScan(..., sampling_rate=r)` raises AttributeError for every r (the deprecation message reads `scan_rate`
  before it is set). `Trigger(minimum_repeat=10, marginal_window=4)` raises ValueError, since the default
  `min_event_interval` of 4 s is checked first. `onset_centred` reads as a non-empty, hence true, text after False was
  assigned.
* C102: `post_pad` is computed when the scan is made: windows changed afterwards, or a second scan with a smaller lookup
  table that shares the onset, leave it too short. `scan_rate` is not updated when `onset.sampling_rate` changes.
  Assigning `marginal_window` is not checked against `min_event_interval`, nor is assigning `min_onset_value`.
* C103: a map with two letters and one digit loses a component in the plots; maps without commas ("*[NE]"), which the
  selection of channels accepts, lose every second one; "*?" shows nothing.
* C106: the location follows the sum over the marginal window, so the node with the largest coalescence at the origin
  time can be far from it (witness: five nodes).
* C99: `load` of an old-style file into an object that has `traveltimes` keeps using those; the tables of the file are
  stored as `maps` and never looked at.
* C107: dots in run names are replaced by underscores, so that runs `v1.0` and `v1_0` overwrite each other; the export
  does not replace them and does not find sub-runs with dots.
* C107: what follows a dot in an event identifier (user-supplied trigger file) is dropped from the file names; events
  `2020.1` and `2020.2` overwrite each other's event, pick and amplitude files.
* C107: a run name with a slash works in the detect stage but the trigger stage writes to a directory that is not made.
* C108: with `obspy_def=False` (damping 0.7) the magnification exceeds 2080 at some frequencies.
* C109: a trace whose Nyquist frequency is not above the lower corner raises ValueError, which nothing catches: the
  amplitudes of all traces of the event are lost and the run ends.
* C109: missing corners of the band-pass filter are not noticed at construction (`dict.get` raises no KeyError); the
  first trace raises TypeError.
* C110: a single used observation gets no label on the amplitude plot, nor does a single rejected one of the stations that
  have no label.
* C110: a station that comes last among the used observations with a single one is missing in the list of labelled
  stations and is labelled again (grey) for its rejected observations.
* C111: `mag is not np.nan` holds for a computed NaN; the plot is then tried with NaN as limit of the axis, which raises
  ValueError and ends the run. This happens for amplitudes below the noise with the noise filter switched off.
* C111: a rejected amplitude below a tenth of the smallest noise lies outside the axes.
* C112: with depths written as integers (units of metres, node spacing of 100 m or more) a NaN among depths and uncertainties
  makes `astype(int)` raise and the file is not written; in km it is written with the NaN.
* C113: the pads before and after the data do not count the width of the pick windows (`fraction_tt` of the traveltime plus the
  marginal window). The window of a far station is cut to the number of samples, and `dtimes[n]` raises IndexError: locate
  stops at the plot (`C113_end_refuted`: S at 100 s, LTA of 1 s). At one sample per second the ten samples before the window may
  lie before the data; the index is negative, the slice empty and `max` raises ValueError (`C113_start_refuted`).
* C113: with several traces in one panel only the last sets the height (`C113_two_traces_refuted`); with three phases the last
  panel pairs the onset of the second with the window of the third (`C113_three_phases_refuted`).
* C114: with fewer than ten samples per second the samples from 0.1 s before the origin to 1.5 traveltimes after it may be none,
  and `max` of the empty slice raises ValueError (`C114_low_rate_refuted`: 4 Hz, an event close to a station).
* C114: `PICK_COLOURS` is only cut for P alone: S alone is drawn in the colour of P, and the arrivals of a third phase are
  left out by `zip` (`C114_arrivals_refuted`).
* C114: uncertainties are converted to km and then rounded to the decimals of the grid's own unit: for a grid in metres with a
  spacing of some hundred metres, 300 m is shown as 0 km (`C114_text_refuted`).
* C114: `station, _ = key.split("_")` raises ValueError for a station name with an underscore (`C114_stations_refuted`).
* C115: `np.mgrid` between the corners of the grid assumes that lines of the grid are lines of equal longitude and latitude:
  where they are not (longitude = x + y) the value of a node is drawn where the node is not (`C115_cells_refuted`).
* C116: with more than two phases `phases` is set to `["*"]` before `divideby = len(phases)`, so the number of stations is
  counted once per phase (`C116_three_phases_refuted`).
* C116: the availability is read in whole days, so a station with data only outside the period is drawn as one with data
  (`C116_stations_refuted`).
* C116: without a region the windows of events whose peak lies in the padding are not drawn, though samples inside the period
  reach the threshold there (`C116_windows_refuted`).
* C118: data are trimmed to the samples nearest to the ends of the period piece by piece. A piece that begins with the sample
  nearest to the end is dropped (obspy's `_rtrim` empties a trace that begins after the end), so how a record is cut shows
  when the ends are not sampling times (`C118_organisation_refuted`).
* C121: the data read for an event end `ceil(ttmax + 2 lta)` plus the taper after the marginal windows, without allowance for the
  uncertainty `fraction_tt` of the traveltimes. When `fraction_tt` times the traveltime exceeds about `2 lta - sta`, the pick window of
  a station near the largest traveltime of the grid reaches into the end of the onset function, which `_trim_taper_pad` has set to 1:
  a late arrival there cannot be picked (`C121_windows_refuted`: 0.2 s and 1 s windows, 30 s traveltime, 10 per cent).
* C122: `upsample` fills up to a sample at the ends of the window with `np.full(n, value, dtype=int)`: the integer part of the first
  or last sample. With data in physical units (values below 1) the fill is 0, with data in counts it is the value itself, so the
  onset functions, and with them the coalescence, depend on the units (`C122_padding_refuted`).
* C12: `lib.py` does not compare the length of the signal with the windows. A signal shorter than the long-term window (or both
  windows, centred) makes the kernels read and write outside the arrays (`C12_short_signal_refuted`); scans never pass such a signal
  (`C12_scan_data_long_enough`).
* C127: raising the threshold does not just remove events. A stretch above the lower threshold may become two stretches and give two
  events, and an event above both thresholds may be lost: the lower threshold joins its neighbour into one long stretch whose largest value
  is far away, the higher one leaves the near part as an event that suppresses it (`C127_higher_threshold_refuted`).
* C128: `pre_process` removes the mean and the trend of the window (stalta.py:204-205), so the onset at a time depends on which window it is
  computed in and the coalescence depends on `timestep`: the same sample is 1 in a four-sample window and 2 in a five-sample one
  (`C128_mean_removal_refuted`). With processing that settles away from the ends of the window the timestep does not matter. A gap has a
  larger effect of the same kind: with the default settings it removes the station for the whole timestep.
* C129: an event triggered on the normalised coalescence (trigger.py:353) is kept by the locate stage only if the coalescence itself also has its
  largest value within the marginal window: `add_compute_output` takes the origin time from `COA` whatever was triggered on (event.py:238).
  In `C129_normalised_peak_refuted` the normalised coalescence is largest at the triggered time and the event is skipped.
* C130: with `normalise_coalescence` the event is at the peak of `COA` within the run above the threshold (trigger.py:527, as its comment says), and
  the `TRIG_COA` of the event is the normalised value there. A neighbour within the minimum event interval can have a larger normalised
  value (`C130_normalised_refuted`).
* C133: the same records give other onset functions with the compiled STA/LTA than with the Python one if a long-term average is zero
  (`C133_silence_refuted`): zero divided by zero in onsetlib.c, the value 1 in stalta.py. See also C11.
* C134: bounds the effect that C128_mean_removal_refuted shows: the mean and trend of a window change the coalescence by no more than a
  factor that depends on how much they change the filtered samples, relative to the smallest long-term average.
* C135: the origin time is that of the largest coalescence, but the location is the node with the largest sum over the marginal windows on
  both sides of it (2 w of the 2 w + 1 samples, see C38); the two need not be at the same node, so a theorem about the location of a source
  needs a condition on the sums (`C135_source_partial`).
* C136: exactly half of the samples is not enough (`C136_half_is_not_enough`): with half of the window loud, the median is between quiet and loud and the threshold follows the loud half. A sequence of earthquakes that fills half a window raises its own threshold.
* C137: the median ratio depends on the zero of the coalescence, which the code does not fix, and static thresholds on its units (`C137_other_thresholds_differ`).
* C138: gives a number for C134 and C128_mean_removal_refuted: with a zero at frequency zero (one is enough: the first pass of the filter leaves a constant of
  the line, the second nothing), what is left of the mean and the trend of a window is the tail of the response of the filter. Without the zero the line of the window is left in the result (`C138_zeros_are_needed`, for a filter that does nothing):
  the removal of the line, not the taper, is what makes the result depend on the window.
* C139: a single pass would move an impulse (`C139_one_pass_moves`), hence picks and onsets; the second pass, backwards, is what prevents it.
* C140: `locate(starttime=...)` without an end does not say that both times are needed. scan.py:376-379 converts both times if one of them is given,
  so that the check in scan.py:382-383 never finds one of them missing (`C140_one_time_refuted`). What happens depends on `UTCDateTime(None)`: if it
  raises, that error is reported; if it gives a time, locate runs to (or from) that time. Times given next to a trigger file are not used but
  have to be in order (`C140_times_next_to_a_file`). `pick_threshold=0` is passed over, other values are refused (`C140_old_threshold`).
* C141: two windows of the same record whose first samples differ by a number of samples that is not a multiple of the decimation factor keep different samples (`C141_begin_on_the_grid`); the theorem is for windows that begin on the output grid.
* C142: what the pads leave for the filter to settle, beyond the taper, is about three short windows and 0.4 % of the time span. A filter with a low corner needs more: what is left of its
  response after that time is what the results depend on the timestep by. The code does not compare the two.
* C140: a `threshold_method` that is changed after the picker was made finds no threshold (AttributeError when picking; `C140_method_changed`).
* C143: the low-pass before the decimation is applied to each window by itself, with its own taper and trend. The pads are computed without it: the time it needs to settle is taken from what
  the pads leave for the band-pass (C142).
* C144: the picker calculates the onset functions again from the data that were read, so it low-passes and decimates the same window a second time, and starts from the same samples as the location.
