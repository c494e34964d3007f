{"id": "C01", "title": "Coalescence is the geometric mean of the back-migrated onsets", "statement": "For every grid node and output sample, the value migrate() returns is the geometric mean, over all contributing onset functions, of the onset (clipped below at 0.01) read at output sample + the node's traveltime (negative traveltimes counted as 0) + the number of leading pad samples.", "quantifier": "all onset arrays, traveltime tables, pad lengths, numbers of stations, nodes and samples", "why_tests_cant": "A test fixes one small array; the claim is about every table size and every value, and about the composition of the Python log/clip with the C stack/exp.", "anchors": ["quakemigrate/core/lib.py:migrate", "quakemigrate/core/src/migratelib.c:migrate"]}
{"id": "C02", "title": "Coalescence never leaves the range of the onsets", "statement": "Every coalescence value lies between the smallest and the largest (clipped) onset sample that contributed to it; hence it is always at least 0.01 and, if every onset is at most b, at most b.", "quantifier": "all inputs with at least one onset function", "why_tests_cant": "An inequality over all real inputs.", "anchors": ["quakemigrate/core/lib.py:migrate", "quakemigrate/core/src/migratelib.c:migrate"]}
{"id": "C03", "title": "The migration kernel only reads the samples of the station it is stacking", "statement": "With the padding that a QuakeScan computes from its lookup table (post-pad at least the largest traveltime), every array element the kernel reads lies inside the row of the station being stacked, and the flat index computed in 32-bit arithmetic does not wrap as long as the onset array has fewer than 2^31 elements. At the raw migrate() API the size check is not sufficient to guarantee this.", "quantifier": "all nodes, stations, samples, traveltimes and pads; all array sizes for the overflow part", "why_tests_cant": "An out-of-bounds read returns a plausible number, so tests on outputs do not notice it; sizes near 2^31 cannot be tested.", "anchors": ["quakemigrate/core/src/migratelib.c:migrate", "quakemigrate/core/lib.py:migrate", "quakemigrate/signal/onsets/stalta.py:STALTAOnset.post_pad", "quakemigrate/signal/onsets/base.py:Onset.pad", "quakemigrate/util.py:time2sample", "quakemigrate/util.py:trim2sample"]}
{"id": "C04", "title": "Results do not depend on the number of threads or their interleaving", "statement": "Whatever the number of threads, the assignment of nodes (migrate) or samples (find_max_coa) to threads, and the interleaving of the threads' individual memory operations, the final output arrays are the ones the sequential loop produces; every output element is written by exactly one thread.", "quantifier": "all thread counts, all assignments of loop iterations to threads, all interleavings of memory steps", "why_tests_cant": "A race shows up only under some schedules; a test run observes one schedule.", "anchors": ["quakemigrate/core/src/migratelib.c:migrate", "quakemigrate/core/src/migratelib.c:find_max_coa"]}
{"id": "C05", "title": "Station order is irrelevant", "statement": "Reordering the onset functions together with their traveltime tables leaves the coalescence map unchanged.", "quantifier": "all permutations of all inputs", "why_tests_cant": "Quantifies over all permutations.", "anchors": ["quakemigrate/core/lib.py:migrate", "quakemigrate/core/src/migratelib.c:migrate"]}
{"id": "C06", "title": "find_max_coa returns the first global maximum and its node", "statement": "For each time sample find_max_coa reports the maximum over all nodes, the index of the first node (in flattened C order) attaining it, that index is a valid node index, and decoding it gives the grid indices of that node.", "quantifier": "all 4-D maps with at least one node and sample", "why_tests_cant": "Holds for every map including ties.", "anchors": ["quakemigrate/core/src/migratelib.c:find_max_coa", "quakemigrate/core/lib.py:find_max_coa", "quakemigrate/lut/lut.py:Grid3D.index2grid"]}
{"id": "C07", "title": "Normalised coalescence is the maximum over the mean", "statement": "For strictly positive maps the normalised coalescence equals the maximum divided by the mean over the grid, lies in [1, number of nodes], equals 1 exactly on flat maps, and is unchanged if all values at that sample are multiplied by the same positive constant.", "quantifier": "all positive maps", "why_tests_cant": "Inequalities and invariances over all real inputs.", "anchors": ["quakemigrate/core/src/migratelib.c:find_max_coa"]}
{"id": "C08", "title": "Coalescence at a given time does not depend on the window it is computed in", "statement": "If two calls see the same onset values at the same absolute times, the coalescence at an absolute time covered by both is equal, whatever the window starts, lengths and pads: the timestep chosen for detect cannot change the migrated value.", "quantifier": "all onset functions of absolute time, all window placements and pads", "why_tests_cant": "Relational property over pairs of runs.", "anchors": ["quakemigrate/core/src/migratelib.c:migrate", "quakemigrate/core/lib.py:migrate", "quakemigrate/signal/scan.py:QuakeScan._compute"]}
{"id": "C09", "title": "Overlapping STA/LTA is the ratio of trailing window means", "statement": "For nsta <= nlta <= n, sample i >= nlta-1 of the overlapping STA/LTA is (mean of the nsta samples ending at i)/(mean of the nlta samples ending at i) and samples before nlta-1 are 1; the C backend and the Python backend agree wherever the LTA is not degenerate.", "quantifier": "all signals, all window lengths", "why_tests_cant": "The C code uses running sums, the Python code cumulative sums; equality is an induction over the signal length.", "anchors": ["quakemigrate/core/src/onsetlib.c:overlapping_sta_lta", "quakemigrate/signal/onsets/stalta.py:overlapping_sta_lta_py", "quakemigrate/core/lib.py:overlapping_sta_lta"]}
{"id": "C10", "title": "Centred STA/LTA is the ratio of the following window mean to the preceding one", "statement": "For nlta + nsta <= n, sample i in [nlta-1, n-nsta) of the centred STA/LTA is (mean of the nsta samples after i)/(mean of the nlta samples ending at i), all other samples are 1; the C backend and the Python backend agree wherever the LTA is not degenerate and nsta < nlta.", "quantifier": "all signals, all window lengths", "why_tests_cant": "Induction over the signal; the two backends are entirely different code.", "anchors": ["quakemigrate/core/src/onsetlib.c:centred_sta_lta", "quakemigrate/signal/onsets/stalta.py:centred_sta_lta_py", "quakemigrate/core/lib.py:centred_sta_lta"]}
{"id": "C11", "title": "No onset value is produced by dividing by zero", "statement": "For every signal, including all-zero ones, no STA/LTA sample is the result of a division by a zero LTA (the Python backend guards this everywhere).", "quantifier": "all non-negative signals", "why_tests_cant": "Needs every branch of the running-sum loop for every signal.", "anchors": ["quakemigrate/core/src/onsetlib.c:overlapping_sta_lta", "quakemigrate/core/src/onsetlib.c:centred_sta_lta", "quakemigrate/signal/onsets/stalta.py:overlapping_sta_lta_py", "quakemigrate/signal/onsets/stalta.py:centred_sta_lta_py"]}
{"id": "C12", "title": "The STA/LTA kernels stay inside their arrays", "statement": "No element outside [0, n) of the signal or onset array is read or written by the C STA/LTA kernels; within a scan this follows from the pads, which make the data at least as long as the windows.", "quantifier": "all n, nsta, nlta", "why_tests_cant": "Out-of-bounds accesses are invisible to value tests.", "anchors": ["quakemigrate/core/src/onsetlib.c:overlapping_sta_lta", "quakemigrate/core/src/onsetlib.c:centred_sta_lta", "quakemigrate/core/lib.py:overlapping_sta_lta", "quakemigrate/signal/onsets/stalta.py:STALTAOnset.pre_pad"]}
{"id": "C13", "title": "recursive_sta_lta reproduces the centred STA/LTA", "statement": "As its documentation says, recursive_sta_lta returns exactly the centred STA/LTA onset.", "quantifier": "all signals", "why_tests_cant": "A universal equality of two algorithms.", "anchors": ["quakemigrate/core/src/onsetlib.c:recursive_sta_lta", "quakemigrate/core/lib.py:recursive_sta_lta"]}
{"id": "C14", "title": "Combined onsets are bounded and floor-limited", "statement": "The multi-component onset is between the smallest and largest component onset sample, is never below min_onset_value, equals 1 on the taper/pad edges (for min_onset_value <= 1), and its log is never below log(0.01).", "quantifier": "all component onset arrays", "why_tests_cant": "Inequalities over all inputs.", "anchors": ["quakemigrate/signal/onsets/stalta.py:STALTAOnset._onset", "quakemigrate/signal/onsets/stalta.py:STALTAOnset._trim_taper_pad"]}
{"id": "C15", "title": "STA/LTA does not depend on the units of the data", "statement": "Multiplying the (transformed) signal by any positive constant leaves every STA/LTA onset unchanged, and onsets of non-negative signals are non-negative and at most nlta/nsta (overlapping).", "quantifier": "all signals and positive constants", "why_tests_cant": "Universal over reals.", "anchors": ["quakemigrate/core/src/onsetlib.c:overlapping_sta_lta", "quakemigrate/core/src/onsetlib.c:centred_sta_lta"]}
{"id": "C16", "title": "Detect timesteps tile the requested period", "statement": "The timesteps processed by detect() cover every sample of [starttime, endtime) exactly once, consecutive timesteps are contiguous without gap or overlap, and the coverage exceeds the requested end by less than one timestep.", "quantifier": "all start/end times, timesteps and scan rates", "why_tests_cant": "Every combination of start, end and timestep, with the midnight special case.", "anchors": ["quakemigrate/signal/scan.py:QuakeScan.detect", "quakemigrate/signal/scan.py:QuakeScan._continuous_compute"]}
{"id": "C17", "title": "Every detect timestep yields exactly timestep*rate samples", "statement": "The number of coalescence samples migrated in a timestep, after removing the pads, is exactly timestep*sampling_rate, equal to the number written for a timestep without data, so the scan time axis stays uniform; the locate window yields exactly 4*marginal_window*rate + 1 samples, the length of the times assigned to them.", "quantifier": "all timesteps, rates, pads", "why_tests_cant": "Relates lengths computed in five different functions.", "anchors": ["quakemigrate/signal/scan.py:QuakeScan._compute", "quakemigrate/signal/onsets/base.py:Onset.pad", "quakemigrate/util.py:time2sample", "quakemigrate/io/scanmseed.py:ScanmSEED.empty", "quakemigrate/io/event.py:Event.mw_times", "quakemigrate/core/lib.py:migrate"]}
{"id": "C18", "title": "The taper never reaches the data that is used", "statement": "The 5% cosine taper applied before filtering lies entirely inside the extra padding read at each end of the window, both for onsets and for amplitude measurement.", "quantifier": "all window lengths and pads", "why_tests_cant": "An inequality with ceil over all lengths.", "anchors": ["quakemigrate/signal/onsets/base.py:Onset.pad", "quakemigrate/signal/onsets/stalta.py:pre_process", "quakemigrate/signal/local_mag/amplitude.py:Amplitude.pad"]}
{"id": "C19", "title": "Padding times are whole numbers of samples", "statement": "trim2sample(t, rate) is a whole number of samples and not shorter than t, so converting it to samples loses nothing.", "quantifier": "all times and sampling rates", "why_tests_cant": "Universal over rates; only some rates fail.", "anchors": ["quakemigrate/util.py:trim2sample", "quakemigrate/util.py:time2sample"]}
{"id": "C20", "title": "shift_to_sample puts timestamps on the sample grid", "statement": "After shift_to_sample every trace start is on-sample (a whole number of samples after midnight) and has moved by at most half a sample; on-sample traces are not moved.", "quantifier": "all start times and sampling rates", "why_tests_cant": "Universal over microsecond offsets and rates.", "anchors": ["quakemigrate/util.py:shift_to_sample"]}
{"id": "C21", "title": "Upsampling is exact linear interpolation", "statement": "upsample(factor) keeps every original sample at its original time, fills between neighbours on the straight line joining them, stays within the range of the data, and any extension to the window edges repeats the end values.", "quantifier": "all traces and factors", "why_tests_cant": "Universal over data and factor.", "anchors": ["quakemigrate/util.py:upsample"]}
{"id": "C22", "title": "Scan data survive the integer encoding", "statement": "For coalescence values up to the clip level, longitudes/latitudes and depths in the supported range, reading back what append() stored gives the original value to within half of the last stored digit (5e-6 for coalescence, 5e-7 degrees, 0.5 mm), the 32-bit integer never overflows, and order between values is preserved up to that precision.", "quantifier": "all values", "why_tests_cant": "Universal over reals including the clip boundary.", "anchors": ["quakemigrate/io/scanmseed.py:ScanmSEED.append", "quakemigrate/io/scanmseed.py:ScanmSEED._data2int", "quakemigrate/io/scanmseed.py:read_scanmseed"]}
{"id": "C23", "title": "Every scanned sample is stored once, in the file of its own day", "statement": "After a detect() run over any number of timesteps (none longer than a day), each sample of the run is in exactly one daily file, namely the one of its own date, with the value appended for it; switching continuous_scanmseed_write on or off gives the same files.", "quantifier": "all sequences of timesteps, all start times and timestep lengths", "why_tests_cant": "An invariant over arbitrary append histories crossing midnight anywhere.", "anchors": ["quakemigrate/io/scanmseed.py:ScanmSEED.append", "quakemigrate/io/scanmseed.py:ScanmSEED.write", "quakemigrate/signal/scan.py:QuakeScan._continuous_compute"]}
{"id": "C24", "title": "A crash loses at most the current day, or nothing with continuous write", "statement": "If detect() stops after any number of timesteps, the files on disk hold every sample of all days completed before the last timestep boundary; with continuous_scanmseed_write on they hold every sample of every completed timestep.", "quantifier": "all crash points between timesteps", "why_tests_cant": "Quantifies over crash points and histories.", "anchors": ["quakemigrate/io/scanmseed.py:ScanmSEED.append", "quakemigrate/io/scanmseed.py:ScanmSEED.write"]}
{"id": "C25", "title": "Separate detect runs accumulate", "statement": "Running detect() on two different periods leaves the scan output of both periods on disk.", "quantifier": "all pairs of periods", "why_tests_cant": "Depends on the history of runs, only some pairs (same day) fail.", "anchors": ["quakemigrate/io/scanmseed.py:ScanmSEED.write", "quakemigrate/signal/scan.py:QuakeScan.detect"]}
{"id": "C26", "title": "Trigger sees all scan data of the requested period", "statement": "read_scanmseed returns every stored sample between starttime - pad and endtime + pad: every daily file that can contain such samples is visited exactly once, and no sample is discarded.", "quantifier": "all periods, pads and sets of stored files", "why_tests_cant": "Loop over unbounded days; gaps matter.", "anchors": ["quakemigrate/io/scanmseed.py:read_scanmseed"]}
{"id": "C27", "title": "The trigger threshold of a sample depends only on its own chunk", "statement": "_get_threshold returns one value per sample; for the dynamic methods it is median + multiplier*MAD (or median*multiplier) of the chunk of window_length that contains the sample, for static it is the constant; the last, shorter, chunk uses its own samples.", "quantifier": "all series, window lengths and multipliers", "why_tests_cant": "Universal over lengths that do and do not divide the window.", "anchors": ["quakemigrate/signal/trigger.py:Trigger._get_threshold", "quakemigrate/signal/trigger.py:chunks2trace", "quakemigrate/util.py:calculate_mad"]}
{"id": "C28", "title": "Candidates are exactly the maximal runs above threshold", "statement": "Every sample at or above threshold belongs to exactly one candidate, no candidate contains a sample below threshold, two candidates are separated by at least one sample below threshold, CoaTime is the first time of the largest COA in the run, and [MinTime, MaxTime] contains [CoaTime - min_event_interval, CoaTime + min_event_interval] and the whole run extended by min_event_interval - marginal_window.", "quantifier": "all series and thresholds", "why_tests_cant": "Universal over series.", "anchors": ["quakemigrate/signal/trigger.py:Trigger._identify_candidates"]}
{"id": "C29", "title": "Refinement merges overlapping candidates and keeps the best", "statement": "Every candidate is in exactly one refined event, the members of an event are consecutive candidates, two adjacent candidates are in the same event exactly when the window of one reaches the marginal window around the other's peak, the event takes peak time, coalescence and location of its member with the largest TRIG_COA (first such), and its window is from the smallest MinTime to the largest MaxTime.", "quantifier": "all candidate lists", "why_tests_cant": "Fold over lists of any length.", "anchors": ["quakemigrate/signal/trigger.py:Trigger._refine_candidates"]}
{"id": "C30", "title": "Triggered events respect the minimum event interval", "statement": "Any two events triggered from the same stretch of scan data have CoaTimes separated by more than min_event_interval + marginal_window, before and after filtering.", "quantifier": "all scan data, thresholds and parameter values accepted by the setters", "why_tests_cant": "Consequence of three functions over arbitrary chains of candidates.", "anchors": ["quakemigrate/signal/trigger.py:Trigger._identify_candidates", "quakemigrate/signal/trigger.py:Trigger._refine_candidates", "quakemigrate/signal/trigger.py:Trigger._filter_events", "quakemigrate/signal/trigger.py:Trigger.min_event_interval"]}
{"id": "C31", "title": "Event IDs are unique and encode the origin time", "statement": "Each triggered event has a 17-digit EventID that spells its CoaTime to the millisecond, and no two events of a trigger run over any number of days share an EventID, provided the sampling rate is at most 2000 Hz or the minimum event interval at least 1 ms.", "quantifier": "all events and times", "why_tests_cant": "Injectivity over all times.", "anchors": ["quakemigrate/signal/trigger.py:Trigger._refine_candidates"]}
{"id": "C32", "title": "Daily trigger batches partition the requested period", "statement": "Trigger.trigger() terminates, its batches are consecutive, each lies in one calendar day, together they cover [starttime, endtime) exactly, and every on-grid sample time in the period is accepted by the filter of exactly one batch.", "quantifier": "all start and end times", "why_tests_cant": "Loop of unbounded length with midnight special cases.", "anchors": ["quakemigrate/signal/trigger.py:Trigger.trigger", "quakemigrate/signal/trigger.py:Trigger._trigger_batch", "quakemigrate/signal/trigger.py:Trigger._filter_events"]}
{"id": "C33", "title": "The event filter is exact", "statement": "_filter_events keeps exactly the events whose CoaTime is within [starttime, endtime] and whose coordinates are within every supplied bound of the trigger region, preserving order and values.", "quantifier": "all event tables, times and regions", "why_tests_cant": "Universal.", "anchors": ["quakemigrate/signal/trigger.py:Trigger._filter_events"]}
{"id": "C34", "title": "Missing data do not trigger", "statement": "A stretch of scan output without data (coalescence 0) does not produce a triggered event, and a dynamic threshold is only reached by samples that stand out from their chunk.", "quantifier": "all scan series", "why_tests_cant": "Needs the degenerate chunks (zero MAD), which hand-made tests avoid.", "anchors": ["quakemigrate/signal/trigger.py:Trigger._get_threshold", "quakemigrate/signal/trigger.py:Trigger._identify_candidates", "quakemigrate/io/scanmseed.py:ScanmSEED.empty"]}
{"id": "C35", "title": "Triggered-event files describe the latest run", "statement": "After trigger() over a period, the daily files of that period hold exactly the events this call triggered, with one fixed set of columns, whatever was run before.", "quantifier": "all histories of trigger runs and batches", "why_tests_cant": "Depends on process and file history.", "anchors": ["quakemigrate/io/triggered_events.py:write_triggered_events", "quakemigrate/signal/trigger.py:Trigger._trigger_batch", "quakemigrate/io/triggered_events.py:OUTPUT_COLS"]}
{"id": "C36", "title": "Adjacent daily batches do not report the same event twice", "statement": "Two events reported by the batches of consecutive days have different CoaTimes, separated by more than the minimum event interval when the pad is large enough and the threshold of each sample is the same in both batches.", "quantifier": "all scan series crossing midnight", "why_tests_cant": "Relational over two overlapping runs and unbounded merge chains.", "anchors": ["quakemigrate/signal/trigger.py:Trigger.trigger", "quakemigrate/signal/trigger.py:Trigger._trigger_batch", "quakemigrate/signal/trigger.py:Trigger._refine_candidates"]}
{"id": "C37", "title": "locate() reads back exactly the triggered events of its period", "statement": "read_triggered_events visits the file of every day of the period exactly once and returns exactly the stored events with CoaTime inside the period.", "quantifier": "all periods and stored files", "why_tests_cant": "Loop over unbounded days.", "anchors": ["quakemigrate/io/triggered_events.py:read_triggered_events", "quakemigrate/signal/scan.py:QuakeScan.locate"]}
{"id": "C38", "title": "Origin time is the peak of the coalescence and survives trimming", "statement": "The origin time of an event is the time of the largest coalescence in the computed window; trimming to the marginal window keeps it unchanged and keeps map and times aligned sample for sample.", "quantifier": "all computed windows", "why_tests_cant": "Relates two arrays sliced by different expressions.", "anchors": ["quakemigrate/io/event.py:Event.trim2window", "quakemigrate/io/event.py:Event.max_coalescence", "quakemigrate/io/event.py:Event.add_compute_output"]}
{"id": "C39", "title": "Only events within the marginal window of their trigger are located", "statement": "An event is kept exactly when its origin time is strictly within marginal_window of its trigger time, and for every kept event the waveform data read cover the cut window around the origin time.", "quantifier": "all events and parameters", "why_tests_cant": "Inequalities over all parameters.", "anchors": ["quakemigrate/io/event.py:Event.in_marginal_window", "quakemigrate/signal/scan.py:QuakeScan._read_event_waveform_data", "quakemigrate/signal/scan.py:QuakeScan._locate_events"]}
{"id": "C40", "title": "Locations and uncertainties are well defined", "statement": "The covariance location lies inside the grid, its variances are non-negative and its covariance matrix symmetric; the spline location stays within the sub-window around the maximum or falls back to the maximum node.", "quantifier": "all marginalised coalescence maps", "why_tests_cant": "Universal over maps.", "anchors": ["quakemigrate/signal/scan.py:QuakeScan._covfit3d", "quakemigrate/signal/scan.py:QuakeScan._splineloc", "quakemigrate/signal/scan.py:QuakeScan._mask3d"]}
{"id": "C41", "title": "P and S pick windows never overlap", "statement": "For phases in arrival order, the windows used to pick consecutive phases are disjoint, ordered, contain their modelled arrival, and lie inside the onset arrays.", "quantifier": "all arrival times and window lengths", "why_tests_cant": "Universal over arrivals.", "anchors": ["quakemigrate/signal/pickers/gaussian.py:GaussianPicker._determine_window", "quakemigrate/signal/pickers/gaussian.py:GaussianPicker._distinguish_windows"]}
{"id": "C42", "title": "Picks are fitted to the full peak around the window maximum", "statement": "The data selected for the Gaussian fit are the maximal run above the pick threshold containing the largest onset in the window, extended by one sample on each side, and always lie inside the onset array; otherwise the pick is recorded as failed.", "quantifier": "all onset functions and windows", "why_tests_cant": "Universal over onset functions; index underflow would select the wrong samples silently.", "anchors": ["quakemigrate/signal/pickers/gaussian.py:GaussianPicker._find_peak", "quakemigrate/signal/pickers/gaussian.py:GaussianPicker._fit_gaussian", "quakemigrate/signal/pickers/gaussian.py:GaussianPicker._find_pick_threshold"]}
{"id": "C43", "title": "Grid indices and coordinates are inverse to each other", "statement": "Converting node indices to coordinates and back gives the same indices, converting a coordinate to indices gives the nearest node, flat indices and index triples correspond one to one, and the grid covers the requested volume overshooting by less than one spacing per axis.", "quantifier": "all grids and indices", "why_tests_cant": "Universal over grids.", "anchors": ["quakemigrate/lut/lut.py:Grid3D.index2coord", "quakemigrate/lut/lut.py:Grid3D.index2grid", "quakemigrate/lut/lut.py:Grid3D.coord2grid", "quakemigrate/lut/lut.py:Grid3D.__init__"]}
{"id": "C44", "title": "Decimating a lookup table keeps traveltimes attached to their coordinates", "statement": "After decimate(), the traveltime stored for every node of the decimated grid is the traveltime of the original table at the same coordinates, and the arrays have the advertised shape.", "quantifier": "all grid sizes and decimation factors", "why_tests_cant": "Only some size/factor combinations are affected.", "anchors": ["quakemigrate/lut/lut.py:Grid3D.decimate", "quakemigrate/lut/lut.py:LUT.decimate"]}
{"id": "C45", "title": "Traveltimes are matched with the right onset", "statement": "The i-th traveltime table used in migration belongs to the station and phase of the i-th onset function, for every pattern of data availability.", "quantifier": "all availability patterns and station lists", "why_tests_cant": "2^n availability patterns.", "anchors": ["quakemigrate/lut/lut.py:LUT.serve_traveltimes", "quakemigrate/signal/onsets/stalta.py:STALTAOnset.calculate_onsets", "quakemigrate/signal/scan.py:QuakeScan._compute"]}
{"id": "C46", "title": "Combining lookup tables", "statement": "lut1 + lut2 on equal grids contains every station of both and keeps lut1's tables for stations present in both; grid equality is an equivalence relation.", "quantifier": "all pairs of lookup tables", "why_tests_cant": "Universal over dictionaries.", "anchors": ["quakemigrate/lut/lut.py:LUT.__add__", "quakemigrate/lut/lut.py:LUT.__eq__"]}
{"id": "C47", "title": "Data availability verdicts are exact", "statement": "A station is reported available exactly when its traces meet every requested criterion (all_channels, full_timespan, continuity, sampling rate), and stricter criteria never turn an unavailable station available.", "quantifier": "all sets of traces and option combinations", "why_tests_cant": "Many flag combinations times unbounded traces.", "anchors": ["quakemigrate/io/data.py:WaveformData.check_availability"]}
{"id": "C48", "title": "Station files are validated", "statement": "read_stations raises StationFileHeaderException whenever one of Latitude, Longitude, Elevation, Name is missing.", "quantifier": "all header sets", "why_tests_cant": "Tests use one missing column.", "anchors": ["quakemigrate/io/core.py:read_stations"]}
{"id": "C49", "title": "Amplitude windows are disjoint and ordered", "statement": "The P and S signal windows do not overlap, the P window precedes the S window, each starts before it ends, and all data needed lie in the padded trace.", "quantifier": "all picks, traveltimes and parameters", "why_tests_cant": "Universal over reals.", "anchors": ["quakemigrate/signal/local_mag/amplitude.py:Amplitude._get_amplitude_windows", "quakemigrate/signal/local_mag/amplitude.py:Amplitude.pad", "quakemigrate/signal/local_mag/amplitude.py:Amplitude._measure_noise_amp"]}
{"id": "C50", "title": "Peak-to-trough amplitude is the largest adjacent swing", "statement": "For alternating peaks and troughs the measured amplitude is half the largest difference between neighbouring extrema, at the time midway between them.", "quantifier": "all alternating extrema sequences", "why_tests_cant": "Four index-alignment branches over unbounded lists.", "anchors": ["quakemigrate/signal/local_mag/amplitude.py:Amplitude._peak_to_trough_amplitude"]}
{"id": "C51", "title": "Network magnitude is a mean of the used observations", "statement": "The network magnitude is defined whenever an observation passes the filters, lies between the smallest and largest used station magnitude, and its weighted error is unchanged if all weights are scaled.", "quantifier": "all sets of observations and filters", "why_tests_cant": "Universal over observation sets.", "anchors": ["quakemigrate/signal/local_mag/magnitude.py:Magnitude.mean_magnitude", "quakemigrate/signal/local_mag/magnitude.py:Magnitude._filter_mags", "quakemigrate/signal/local_mag/magnitude.py:Magnitude.calculate_magnitudes"]}
{"id": "C52", "title": "2-D to 3-D traveltime interpolation reproduces the table", "statement": "The 1-D NonLinLoc sweep returns the tabulated traveltime at table nodes and is exact for traveltimes linear in distance and depth, never leaving the range of the four surrounding nodes.", "quantifier": "all tables, origins, spacings and points", "why_tests_cant": "Depends on origin/spacing ratio.", "anchors": ["quakemigrate/lut/create_lut.py:_bilinear_interpolate", "quakemigrate/lut/create_lut.py:_grid_string"]}
{"id": "C53", "title": "Exported times are the times of the picks", "statement": "Time stamps written by the Snuffler and NonLinLoc exporters denote the pick or origin time they were given.", "quantifier": "all times", "why_tests_cant": "Formatting of fractional seconds over all microsecond values.", "anchors": ["quakemigrate/export/to_snuffler.py:snuffler_markers", "quakemigrate/export/to_nlloc.py:nlloc_obs"]}
{"id": "C54", "title": "locate() rejects incomplete arguments", "statement": "Calling locate with only one of starttime and endtime raises the documented RuntimeError.", "quantifier": "all argument combinations", "why_tests_cant": "Order of conversion and check.", "anchors": ["quakemigrate/signal/scan.py:QuakeScan.locate"]}
{"id": "C55", "title": "Complete waveform data are never rejected", "statement": "A trace without gaps that has a sample at the start and at the end of the requested window is accepted by the full-timespan availability check, so that complete data contribute to every timestep.", "quantifier": "all sampling rates, window lengths and sample phases", "why_tests_cant": "Depends on binary64 rounding of timespan*rate+1 for particular window lengths; every window length is a different case.", "anchors": ["quakemigrate/io/data.py:WaveformData.check_availability", "quakemigrate/util.py:trim2sample", "quakemigrate/signal/scan.py:QuakeScan._continuous_compute"]}
{"id": "C56", "title": "Locating a period finds every event triggered in it", "statement": "After trigger() over a period, read_triggered_events over the same period returns exactly the events triggered, in order; events triggered by an earlier run stay available unless that run covered the same period.", "quantifier": "all scan data, periods and earlier trigger runs", "why_tests_cant": "Composition of the batch loop, the daily files and the reader over any number of days.", "anchors": ["quakemigrate/signal/trigger.py:Trigger.trigger", "quakemigrate/io/triggered_events.py:write_triggered_events", "quakemigrate/io/triggered_events.py:read_triggered_events"]}
{"id": "C57", "title": "The maximum traveltime bounds every traveltime of the scan", "statement": "lut.max_traveltime, from which the trailing pad of the scan is computed, is at least as large as every traveltime that serve_traveltimes can return.", "quantifier": "all lookup tables, including decimated and combined ones, and all availability patterns", "why_tests_cant": "Depends on which stations and phases the maximum is taken over; a unit test uses one complete table.", "anchors": ["quakemigrate/lut/lut.py:LUT.max_traveltime", "quakemigrate/lut/lut.py:LUT.serve_traveltimes", "quakemigrate/lut/lut.py:LUT.__add__"]}
{"id": "C58", "title": "Events are located independently of each other", "statement": "Each triggered event is located as if it were the only one of the run: what is written for it does not depend on the other events, and an event that cannot be located does not keep the others from being located.", "quantifier": "all event lists and all outcomes of reading and computing", "why_tests_cant": "Failure of any event at any place of an unbounded list.", "anchors": ["quakemigrate/signal/scan.py:QuakeScan._locate_events"]}
{"id": "C59", "title": "Arrival times are modelled with the traveltime of the hypocentre", "statement": "The traveltime used for picks and amplitude windows is the trilinear interpolation of the lookup table at the hypocentre: the entry at a node, exact for tables linear in space, within the range of the surrounding entries.", "quantifier": "all tables, grids and hypocentres", "why_tests_cant": "Depends on rounding of the hypocentre to a node before the interpolation.", "anchors": ["quakemigrate/lut/lut.py:LUT.traveltime_to", "quakemigrate/lut/lut.py:Grid3D.index2coord", "quakemigrate/signal/pickers/gaussian.py:GaussianPicker.pick_phases", "quakemigrate/signal/local_mag/amplitude.py:Amplitude.get_amplitudes"]}
{"id": "C60", "title": "Cut waveforms are in the requested units", "statement": "The instrument-corrected and Wood-Anderson waveforms written for an event comprise every channel with a response, in the units asked for.", "quantifier": "all channels, units, cuts and states left by the magnitude calculation", "why_tests_cant": "Depends on what an earlier stage left in a cache.", "anchors": ["quakemigrate/io/cut_waveforms.py:write_cut_waveforms", "quakemigrate/io/cut_waveforms.py:get_waveforms", "quakemigrate/io/data.py:WaveformData.get_real_waveform", "quakemigrate/io/data.py:WaveformData.get_wa_waveform"]}
{"id": "C61", "title": "The pick threshold comes from the noise only", "statement": "The threshold that a pick has to exceed depends only on the onset samples outside all pick windows of the station whose value exceeds 1; it exceeds 1, and a percentile threshold lies in the range of these samples.", "quantifier": "all onset functions, window sets and threshold settings", "why_tests_cant": "Independence from arbitrary window content is a statement about all pairs of onset functions.", "anchors": ["quakemigrate/signal/pickers/gaussian.py:GaussianPicker._find_pick_threshold", "quakemigrate/util.py:calculate_mad"]}
{"id": "C62", "title": "Picks lie in their windows and keep the order of the phases", "statement": "Every successful pick lies strictly inside its own pick window, closer to the modelled arrival than the half-width plus one sample, and the picks of a station are in the order of the modelled arrivals.", "quantifier": "all onset functions, traveltimes and outcomes of the fit", "why_tests_cant": "The fitted mean is arbitrary; order must follow from the windows for any fit.", "anchors": ["quakemigrate/signal/pickers/gaussian.py:GaussianPicker.pick_phases", "quakemigrate/signal/pickers/gaussian.py:GaussianPicker._fit_gaussian", "quakemigrate/signal/pickers/gaussian.py:GaussianPicker._determine_window"]}
{"id": "C63", "title": "The pick table holds one row per station and phase", "statement": "The pick file has one row for every station and phase for which an onset function was computed, in their order, with the modelled arrival time; the residual is pick time minus modelled time, and a failed fit is marked in all four measured columns.", "quantifier": "all numbers of stations and phases, all fit outcomes", "why_tests_cant": "Row layout over unbounded station lists and any pattern of failures.", "anchors": ["quakemigrate/signal/pickers/gaussian.py:GaussianPicker.pick_phases", "quakemigrate/signal/pickers/gaussian.py:GaussianPicker._pick_failure"]}
{"id": "C64", "title": "Availability files read back what was written", "statement": "The station availability that detect wrote is what trigger reads for any period of it: every row once, in order, under the same columns; files of the old format are read as one column per station and phase.", "quantifier": "all availability tables, periods and earlier files", "why_tests_cant": "Composition of day splitting, file writing, format detection and concatenation over any number of days.", "anchors": ["quakemigrate/io/availability.py:write_availability", "quakemigrate/io/availability.py:read_availability", "quakemigrate/io/availability.py:_handle_old_structure"]}
{"id": "C65", "title": "The amplitude table has three rows per station", "statement": "The table of amplitudes has one row for each component of each station, in order, with trace id, distances in kilometres, the measurements of both phases in their own columns, the noise and whether a phase was picked; what could not be measured is NaN.", "quantifier": "all station lists and all patterns of failure", "why_tests_cant": "Row numbers are computed for unbounded station lists and any mixture of failures.", "anchors": ["quakemigrate/signal/local_mag/amplitude.py:Amplitude.get_amplitudes"]}
{"id": "C66", "title": "Amplitudes are measured around the picks of the station", "statement": "For each phase the time used is that of the station's pick; the modelled arrival is used for a failed pick, and for both phases if one of them has no row; a measurement is flagged as picked exactly if a time was picked.", "quantifier": "all pick tables and stations", "why_tests_cant": "Any number and order of rows, any subset of failed picks.", "anchors": ["quakemigrate/signal/local_mag/amplitude.py:Amplitude._get_amplitude_windows", "quakemigrate/signal/local_mag/amplitude.py:Amplitude._get_picks"]}
{"id": "C67", "title": "The coefficient of determination measures the fit of the magnitude", "statement": "The r-squared value is one minus the ratio of the squared misfit of the network magnitude to the variance of the logarithms of the amplitudes; it is at most 1, and 1 only if all stations agree on the magnitude.", "quantifier": "all sets of observations", "why_tests_cant": "Universal over real observations; NaN propagation.", "anchors": ["quakemigrate/signal/local_mag/magnitude.py:Magnitude._mag_r_squared", "quakemigrate/signal/local_mag/magnitude.py:Magnitude.mean_magnitude"]}
{"id": "C68", "title": "The station filter excludes just the stations listed", "statement": "A trace net.station.location.channel is excluded from the network magnitude by a listed name exactly if the name is that of its station.", "quantifier": "all trace ids and station names", "why_tests_cant": "Substring search over arbitrary names.", "anchors": ["quakemigrate/signal/local_mag/magnitude.py:Magnitude._filter_mags"]}
{"id": "C69", "title": "Attenuation functions are calibrated and grow with distance", "statement": "Every documented attenuation function is accepted, gives magnitude 3 to the reference amplitude at its reference distance, is finite at positive distances and grows with distance, and takes amplitudes in millimetres.", "quantifier": "all distances and named functions", "why_tests_cant": "Monotonicity over the reals.", "anchors": ["quakemigrate/signal/local_mag/magnitude.py:Magnitude._logA0"]}
{"id": "C70", "title": "A change of amplitude units shifts the magnitude", "statement": "A factor in amp_multiplier adds its decimal logarithm to the network magnitude and changes neither the observations used nor the error nor the r-squared value.", "quantifier": "all sets of observations and positive factors", "why_tests_cant": "Relational: compares all pairs of runs.", "anchors": ["quakemigrate/signal/local_mag/magnitude.py:Magnitude.calculate_magnitudes", "quakemigrate/signal/local_mag/magnitude.py:Magnitude.mean_magnitude", "quakemigrate/signal/local_mag/magnitude.py:Magnitude._calc_mags"]}
{"id": "C71", "title": "The table of NonLinLoc covers the grid", "statement": "The two-dimensional table computed for each station covers the depths of the grid and of the station and all distances, so every node of the grid gets a time interpolated from the four nodes of the table around it.", "quantifier": "all grids, stations, spacings and unit factors", "why_tests_cant": "The extents are rounded up and written as decimal numbers; coverage must hold for every grid.", "anchors": ["quakemigrate/lut/create_lut.py:_compute_1d_nlloc", "quakemigrate/lut/create_lut.py:_grid_string", "quakemigrate/lut/create_lut.py:_bilinear_interpolate"]}
{"id": "C72", "title": "Both solvers use the same velocity model", "statement": "A velocity model has one velocity at each depth, linear between its depths and constant above and below; fast marching and the layers written for NonLinLoc both use it, and a block model has the velocity of the layer.", "quantifier": "all velocity models and depths", "why_tests_cant": "Universal over models and depths; the two solvers read the model in different ways.", "anchors": ["quakemigrate/lut/create_lut.py:_compute_1d_fmm", "quakemigrate/lut/create_lut.py:_vmodel_string", "quakemigrate/lut/create_lut.py:_velocity_gradient"]}
{"id": "C73", "title": "Fast marching starts at the node closest to the station", "statement": "With the 1dfmm method the table of a station is computed from the node closest to it, at most half a spacing away along each axis, with the velocities of the model at the depths of the nodes.", "quantifier": "all grids, stations and models", "why_tests_cant": "The smallest sum of absolute differences is taken over all nodes; that it is the closest node needs proof.", "anchors": ["quakemigrate/lut/create_lut.py:_eikonal_fmm", "quakemigrate/lut/create_lut.py:_compute_1d_fmm"]}
{"id": "C74", "title": "Traveltimes in a homogeneous model are distance over velocity", "statement": "With the homogeneous method each entry times the velocity is the distance of the node from the station; it is zero just at the station, and differs between nodes by at most the time between them.", "quantifier": "all grids, stations and velocities", "why_tests_cant": "Real-valued identity and triangle inequality at every node.", "anchors": ["quakemigrate/lut/create_lut.py:_compute_homogeneous"]}
{"id": "C75", "title": "A computed lookup table is complete", "statement": "compute_traveltimes returns a lookup table with the grid asked for and a table of its shape for each station and phase asked for, and none besides; unknown methods and missing velocities or models are rejected, and 1dsweep is 1dnlloc.", "quantifier": "all grids, stations, phases and methods", "why_tests_cant": "Loops over unbounded stations and phases that update nested dictionaries.", "anchors": ["quakemigrate/lut/create_lut.py:compute_traveltimes", "quakemigrate/lut/create_lut.py:_compute_homogeneous", "quakemigrate/lut/create_lut.py:_compute_1d_fmm", "quakemigrate/lut/create_lut.py:_compute_1d_nlloc"]}
{"id": "C76", "title": "Tables read from NonLinLoc use the projection of the header", "statement": "The projection of a lookup table read from NonLinLoc files is that of the header: centred at the latitude and longitude of its origin and rotated as stated there.", "quantifier": "all headers", "why_tests_cant": "Any number in the header must reach the projection.", "anchors": ["quakemigrate/lut/create_lut.py:_read_nlloc"]}
{"id": "C77", "title": "Tables read from NonLinLoc files are those of the files", "statement": "read_nlloc returns a lookup table whose grid is that of the headers and whose entries are the numbers of the files, for each station and phase.", "quantifier": "all files, stations and phases", "why_tests_cant": "The grid is rebuilt from transformed corners; the result must match for any grid.", "anchors": ["quakemigrate/lut/create_lut.py:read_nlloc", "quakemigrate/lut/create_lut.py:_read_nlloc"]}
{"id": "C78", "title": "NonLinLoc phase files list every pick of the chosen kind once", "statement": "nlloc_obs writes one line for every pick of the chosen kind (measured or modelled) and no other line; each line names station, phase and component of its pick and carries its uncertainty.", "quantifier": "all picks and formats of the uncertainty", "why_tests_cant": "Lines are sorted and formatted by column; a unit test checks one file.", "anchors": ["quakemigrate/export/to_nlloc.py:nlloc_obs"]}
{"id": "C79", "title": "Snuffler marker files hold the event and its picks", "statement": "snuffler_markers writes one event marker for the origin of the event and one phase marker for each of its picks, naming its station and phase; measured and modelled arrivals can be told apart.", "quantifier": "all events and picks", "why_tests_cant": "Variables carry over from one pick to the next, which shows for particular sequences of phases only.", "anchors": ["quakemigrate/export/to_snuffler.py:snuffler_markers"]}
{"id": "C80", "title": "Snuffler station files place every station", "statement": "snuffler_stations writes one line per station with its own network code, name, latitude, longitude and elevation above sea level.", "quantifier": "all station tables", "why_tests_cant": "The network code is carried from one station to the next, the sign of the elevation is changed when the table is read.", "anchors": ["quakemigrate/export/to_snuffler.py:snuffler_stations", "quakemigrate/io/core.py:read_stations"]}
{"id": "C81", "title": "The exported catalogue holds every located event and its picks", "statement": "read_quakemigrate returns one event for every event file of a run, in order; its picks are a modelled arrival for every row of the pick file and a measured one for every row with a pick, at the same times, and its coalescence values are those of the event to four digits.", "quantifier": "all runs, numbers of events and pick tables", "why_tests_cant": "Whether an event is dropped or the export fails depends on which of three files per event exist.", "anchors": ["quakemigrate/export/to_obspy.py:read_quakemigrate", "quakemigrate/export/to_obspy.py:_read_single_event", "quakemigrate/signal/pickers/base.py:write"]}
{"id": "C82", "title": "Locations survive the event file and the export", "statement": "From the located event through its .event file to the origins of the catalogue, the origin time is exact, longitude and latitude are rounded by at most half a millionth of a degree and a two-hundredth of the node spacing, depth and its uncertainty by at most half a metre, and depths are in metres.", "quantifier": "all locations, grids and node spacings, both units", "why_tests_cant": "The number of decimals depends on the logarithm of the node spacing; a test tries one spacing.", "anchors": ["quakemigrate/io/event.py:Event.write", "quakemigrate/lut/lut.py:Grid3D.precision", "quakemigrate/export/to_obspy.py:_read_single_event"]}
{"id": "C83", "title": "Exported amplitudes and magnitudes are those of the run", "statement": "Every amplitude of an amplitude file is in the catalogue once, in metres; station magnitudes are those of the rows with an amplitude of the chosen phase and a magnitude; the event's magnitude has three digits of its ML, and its station count is the number of stations.", "quantifier": "all runs and amplitude tables", "why_tests_cant": "NaN values and missing columns select different branches for each row.", "anchors": ["quakemigrate/export/to_obspy.py:_read_single_event"]}
{"id": "C84", "title": "The exported confidence ellipsoid", "statement": "The semi-axes of the confidence ellipsoid of an exported origin are the uncertainties of the covariance fit in metres, the major axis being the longest.", "quantifier": "all locations and uncertainties", "why_tests_cant": "The order of the axes depends on the data; a test has one order.", "anchors": ["quakemigrate/export/to_obspy.py:_read_single_event"]}
{"id": "C85", "title": "SAC headers for MFAST hold the arrivals of the catalogue", "statement": "sac_mfast writes three files for each station with an S arrival. Origin time and arrival times of their headers, counted from the start of the file, are those of the catalogue; coordinates of event and station, and its elevation in metres, are those of the tables.", "quantifier": "all events, station tables and streams", "why_tests_cant": "Times are relative to one trace but stored in the files of three; zero marks a missing pick.", "anchors": ["quakemigrate/export/to_mfast.py:sac_mfast"]}
{"id": "C86", "title": "The exported catalogue names the waveform file of each event", "statement": "The name of the cut waveform file in an exported event is that of the file written by the run.", "quantifier": "all events and waveform formats", "why_tests_cant": "The name depends on the format chosen in another stage.", "anchors": ["quakemigrate/export/to_obspy.py:_read_single_event", "quakemigrate/io/cut_waveforms.py:write_waveforms"]}
{"id": "C87", "title": "The Gaussian location is the peak of the fitted Gaussian", "statement": "_gaufit3d returns the place where the Gaussian that fits the map around its largest node best has its maximum; for a map that is its mean plus a Gaussian there, this is the centre of the Gaussian, to a fraction of a node.", "quantifier": "all maps, grids of at least three nodes along each axis, centres, amplitudes and covariances", "why_tests_cant": "The location is computed by a pseudo-inverse and an inverse; tests try maps whose peak is inside the grid.", "anchors": ["quakemigrate/signal/scan.py:QuakeScan._gaufit3d", "quakemigrate/signal/scan.py:QuakeScan._mask3d"]}
{"id": "C88", "title": "The Gaussian uncertainties are the standard deviations of the fitted Gaussian", "statement": "The uncertainties along x, y and z returned by _gaufit3d are the standard deviations (one sigma) of the fitted Gaussian along these axes.", "quantifier": "all maps and covariances", "why_tests_cant": "Eigenvalues come in any order; a test with one map cannot tell.", "anchors": ["quakemigrate/signal/scan.py:QuakeScan._gaufit3d"]}
{"id": "C89", "title": "Smoothing the map does not move an isolated peak", "statement": "_gaufilt3d leaves the largest node of a map with a single non-zero node where it is.", "quantifier": "all grids and nodes", "why_tests_cant": "The filter has the shape of the grid: its middle is off by half a node for even numbers, and it is cut at the edges.", "anchors": ["quakemigrate/signal/scan.py:QuakeScan._gaufilt3d", "quakemigrate/util.py:gaussian_3d"]}
{"id": "C90", "title": "Resampled traces keep the times of their samples", "statement": "resample brings every trace whose rate allows it to the requested rate; its samples are those of the filtered trace at the same times, on the samples of the requested rate, and data complete over the window have exactly the samples of the window. The traces left as they are keep their places, and the resampled ones follow them in the order they had.", "quantifier": "all mixtures of sampling rates, upfactors, windows and gaps", "why_tests_cant": "The number of samples depends on the alignment of each trace with the window and on three code paths; a test has a few traces.", "anchors": ["quakemigrate/util.py:resample", "quakemigrate/util.py:decimate", "quakemigrate/util.py:upsample", "quakemigrate/signal/onsets/stalta.py:pre_process"]}
{"id": "C91", "title": "Filling gaps keeps every sample at its time", "statement": "With gaps allowed, the traces of a channel become one trace with exactly the samples of the window, in which every sample of the data is at its own time and all others have the fill value.", "quantifier": "all numbers of traces, gaps and orders", "why_tests_cant": "Every arrangement of gaps is different; an onset of another length only fails when stacked with the others.", "anchors": ["quakemigrate/signal/onsets/stalta.py:STALTAOnset.calculate_onsets"]}
{"id": "C92", "title": "Smoothing the coalescence is a local Gaussian mean", "statement": "With smooth_coa, every coalescence value is replaced by the mean of the values around it, weighted by a Gaussian of the given width; times and locations stay, no value leaves the range of the values in the kernel, batches agree where the kernel fits into both, and a symmetric peak keeps its time.", "quantifier": "all traces, kernels, sampling rates and positions", "why_tests_cant": "A test shows that the output is smoother, not that the peak stays or that batches agree.", "anchors": ["quakemigrate/signal/trigger.py:Trigger._smooth_coa"]}
{"id": "C93", "title": "Amplitude measurements do not depend on offset, drift and unit", "statement": "An offset and a linear drift of a trace change no measurement; a factor changes amplitudes, averages and noise by this factor, and neither frequency nor time. Reversed polarity changes nothing but the sign of the data.", "quantifier": "all traces, windows, factors, offsets, drifts, prominences and filters", "why_tests_cant": "Tests compare one trace with stored numbers.", "anchors": ["quakemigrate/signal/local_mag/amplitude.py:Amplitude._measure_signal_amps", "quakemigrate/signal/local_mag/amplitude.py:Amplitude._measure_noise_amp"]}
{"id": "C94", "title": "Amplitudes are measured on the samples of their window", "statement": "A window is measured on all its samples and on none more than half a sample outside; the time of the measurement lies in the window, so that the P amplitude is measured before the S amplitude.", "quantifier": "all traces, sampling rates and windows, aligned with the samples or not", "why_tests_cant": "Windows are at arbitrary times between samples.", "anchors": ["quakemigrate/signal/local_mag/amplitude.py:Amplitude._measure_signal_amps", "quakemigrate/signal/local_mag/amplitude.py:Amplitude._measure_noise_amp"]}
{"id": "C95", "title": "Average amplitudes are those of the detrended data, corrected for the filter", "statement": "The data are detrended by the least squares line; their RMS is their standard deviation and at most their largest amplitude; with a filter, amplitude and average are divided by the gain at the measured frequency; windows without signal or noise give no value.", "quantifier": "all windows, measures, filters and gains", "why_tests_cant": "The relations between the numbers hold for all data; tests have a few.", "anchors": ["quakemigrate/signal/local_mag/amplitude.py:Amplitude._average_amplitude", "quakemigrate/signal/local_mag/amplitude.py:Amplitude._measure_signal_amps", "quakemigrate/signal/local_mag/amplitude.py:Amplitude._measure_noise_amp"]}
{"id": "C96", "title": "Stacking finds a source at its node and time", "statement": "If the onset functions peak at the arrivals of a source, the scan finds its node and its origin time: migration and the search for the maximum return them, also with disturbed onsets, whenever no other node and time has the same arrivals at all stations; then nothing can tell them apart.", "quantifier": "all networks, traveltime tables, onset functions, sources and sizes of the grid", "why_tests_cant": "Tests have a few sources on one grid; the claim is about all onsets and all other nodes and times.", "anchors": ["quakemigrate/core/lib.py:migrate", "quakemigrate/core/lib.py:find_max_coa", "quakemigrate/core/src/migratelib.c:migrate", "quakemigrate/core/src/migratelib.c:find_max_coa", "quakemigrate/signal/scan.py:QuakeScan._compute"]}
{"id": "C97", "title": "The files read for a period are those of its stations and days", "statement": "The archive reads, for a period, exactly the files its layout gives to the (selected) stations on the days of the period, each once; unknown layouts are rejected.", "quantifier": "all archives, layouts, station names, channels and periods, over year ends and leap days", "why_tests_cant": "File names and periods are unbounded.", "anchors": ["quakemigrate/io/data.py:Archive.path_structure", "quakemigrate/io/data.py:Archive._load_from_path"]}
{"id": "C98", "title": "Reading waveforms loses and adds no samples", "statement": "Every sample of a selected station within the period (and its padding) is returned with its time and value; nothing else is, but for samples up to half a sample outside; only selected stations are among the waveforms.", "quantifier": "all archives, periods, paddings, sampling rates and contents of files", "why_tests_cant": "Periods and data that are not aligned with each other or with days.", "anchors": ["quakemigrate/io/data.py:Archive.read_waveform_data", "quakemigrate/io/data.py:Archive._load_from_path"]}
{"id": "C99", "title": "Lookup table files keep their tables", "statement": "A lookup table that is saved and read is unchanged. Converting an old-style file keeps the grid, the stations and every table under its station and phase, so that the traveltimes served are the same; converting twice changes nothing more.", "quantifier": "all lookup tables, stations, phases and grids, old and new style", "why_tests_cant": "The claim is about all tables of all files.", "anchors": ["quakemigrate/lut/__init__.py:update_lut", "quakemigrate/io/core.py:read_lut", "quakemigrate/lut/lut.py:LUT.__init__", "quakemigrate/lut/lut.py:LUT.save", "quakemigrate/lut/lut.py:LUT.load", "quakemigrate/lut/lut.py:LUT.__getitem__"]}
{"id": "C100", "title": "Extents contain the grid and the network", "statement": "The extent of a grid contains all its nodes (or their cells) and no more; the maximum extent contains all stations and cells with a margin of 5%; slices are drawn with each node at its coordinates; the summary gives latitude, longitude and depth of the corners.", "quantifier": "all grids, projections and networks", "why_tests_cant": "All nodes of all grids, and all projections.", "anchors": ["quakemigrate/lut/lut.py:Grid3D.get_grid_extent", "quakemigrate/lut/lut.py:LUT.max_extent", "quakemigrate/lut/lut.py:LUT.station_extent", "quakemigrate/lut/lut.py:LUT.__str__", "quakemigrate/lut/lut.py:LUT.plot"]}
{"id": "C101", "title": "Parameters given under old names act as under the new ones", "statement": "A parameter given under its deprecated name has the effect of the present name; parameters given under the present names are used as given and the documented defaults otherwise; windows of phases other than P and S stay.", "quantifier": "all combinations of old and new parameters and values", "why_tests_cant": "The number of combinations of parameters is unbounded.", "anchors": ["quakemigrate/signal/onsets/stalta.py:STALTAOnset.__init__", "quakemigrate/signal/onsets/stalta.py:STALTAOnset.onset_centred", "quakemigrate/signal/scan.py:QuakeScan.__init__", "quakemigrate/signal/scan.py:QuakeScan.sampling_rate", "quakemigrate/signal/trigger.py:Trigger.__init__", "quakemigrate/signal/trigger.py:Trigger.minimum_repeat"]}
{"id": "C102", "title": "Derived parameters keep up with assignments", "statement": "After any sequence of assignments the pads cover the windows and the largest traveltime, the scan rate is that of the onset, the shortest time between events is at least two marginal windows and the threshold method is a known one, and the smallest onset value stays above the clip of the migration.", "quantifier": "all sequences of assignments, windows, traveltimes and rates", "why_tests_cant": "The claim is an invariant over sequences of assignments of any length.", "anchors": ["quakemigrate/signal/onsets/stalta.py:STALTAOnset.pre_pad", "quakemigrate/signal/onsets/stalta.py:STALTAOnset.post_pad", "quakemigrate/signal/scan.py:QuakeScan.scan_rate", "quakemigrate/signal/trigger.py:Trigger.min_event_interval", "quakemigrate/signal/trigger.py:Trigger.threshold_method"]}
{"id": "C103", "title": "Waveform panels show every component once", "statement": "The panels of the waveform plots show exactly the components that the channel maps name: those of P in the first, those of S split over the two others, none missing and none twice.", "quantifier": "all channel maps and component codes", "why_tests_cant": "All combinations of letters and digits in the map.", "anchors": ["quakemigrate/util.py:get_phase_component_strings"]}
{"id": "C104", "title": "Amplitude files keep the measurements", "statement": "Every row of the amplitude table is written once, in its place; numbers keep their significant digits, signs, order and missing values; the magnitude from the amplitudes of the file differs by no more than 0.00003; writing the file again changes nothing.", "quantifier": "all tables and values", "why_tests_cant": "The bound on magnitudes is over all real amplitudes.", "anchors": ["quakemigrate/io/amplitudes.py:write_amplitudes"]}
{"id": "C105", "title": "A source becomes a triggered event", "statement": "From onsets to events: a source whose stack stands out becomes an event at its time and at the coordinates of its node, through migration, maximum search, scan files and trigger; every sample above the threshold is covered by an event, every event is a sample of the scan that reached the threshold, and no step fails.", "quantifier": "all networks, grids, onsets, timesteps, days, thresholds and batches", "why_tests_cant": "The claim composes six modules over runs of any length.", "anchors": ["quakemigrate/signal/scan.py:QuakeScan._continuous_compute", "quakemigrate/signal/scan.py:QuakeScan._compute", "quakemigrate/io/scanmseed.py:ScanmSEED.append", "quakemigrate/io/scanmseed.py:read_scanmseed", "quakemigrate/signal/trigger.py:Trigger._trigger_batch", "quakemigrate/core/lib.py:migrate"]}
{"id": "C106", "title": "A source that stands out is triggered and located at its place", "statement": "From onsets to location: the origin time is the time of the largest stack around the trigger; the event is kept exactly if that time is near the trigger; its location lies within two nodes of the largest marginal sum; a source that stands out in time and in its marginal sum is triggered and located at its time within two nodes of its node.", "quantifier": "all networks, grids, onsets, trigger times, windows and interpolations", "why_tests_cant": "The claim composes scan, store, trigger and locate for all onsets.", "anchors": ["quakemigrate/signal/scan.py:QuakeScan._locate_events", "quakemigrate/signal/scan.py:QuakeScan._compute", "quakemigrate/signal/scan.py:QuakeScan._calculate_location", "quakemigrate/io/event.py:Event.add_compute_output", "quakemigrate/io/event.py:Event.trim2window", "quakemigrate/io/event.py:Event.mw_times"]}
{"id": "C107", "title": "Files of different runs, sub-runs, days and events are different files", "statement": "Every file that is written belongs to one run, sub-run, kind, day or event (and station), lies in the directory created for it, and is looked for by the later stages and the export where it was written.", "quantifier": "all names of runs and sub-runs, event identifiers, stations, days and kinds of output", "why_tests_cant": "The number of names is unbounded; collisions overwrite silently.", "anchors": ["quakemigrate/io/core.py:Run.__init__", "quakemigrate/io/core.py:Run.name", "quakemigrate/io/triggered_events.py:write_triggered_events", "quakemigrate/io/triggered_events.py:read_triggered_events", "quakemigrate/io/event.py:Event.write", "quakemigrate/io/cut_waveforms.py:write_waveforms", "quakemigrate/export/to_obspy.py:read_quakemigrate"]}
{"id": "C108", "title": "The simulated instrument is a Wood-Anderson seismograph", "statement": "The response that is simulated is that of a torsion seismograph of magnification 2080 and period 0.8 s with the documented damping; it rises with frequency towards 2080 and never exceeds it; displacement and velocity records give the same simulated trace.", "quantifier": "all frequencies, units and both definitions", "why_tests_cant": "All frequencies: the response is a function of a real variable.", "anchors": ["quakemigrate/util.py:wa_response", "quakemigrate/io/data.py:WaveformData.get_wa_waveform"]}
{"id": "C109", "title": "Amplitudes are corrected for the filter that was applied", "statement": "The filter whose gain corrects an amplitude is the filter that was applied to its trace, whatever the options and the sampling rate; each trace gets the filter that was asked for (as much of the band as its sampling rate allows), and contradictory or incomplete options are rejected when the object is made.", "quantifier": "all options, corner frequencies, sampling rates and numbers of traces", "why_tests_cant": "All sampling rates and combinations of options.", "anchors": ["quakemigrate/signal/local_mag/amplitude.py:Amplitude.__init__", "quakemigrate/signal/local_mag/amplitude.py:Amplitude._filter_trace", "quakemigrate/signal/local_mag/amplitude.py:Amplitude._bandpass_filter", "quakemigrate/signal/local_mag/amplitude.py:Amplitude._highpass_filter", "quakemigrate/signal/local_mag/amplitude.py:Amplitude.get_amplitudes"]}
{"id": "C110", "title": "Each station of the amplitude plot has one label", "statement": "On the plot of amplitudes against distance every station with an observation has exactly one label, naming it and its components, at its distance above its highest amplitude: black if some observation is used, grey otherwise.", "quantifier": "all tables of observations, numbers of stations and components, and patterns of used and rejected observations", "why_tests_cant": "The loop keeps state over a list of any length; its branches depend on what is first and last.", "anchors": ["quakemigrate/plot/amplitudes.py:label_stations", "quakemigrate/plot/amplitudes.py:amplitudes_summary"]}
{"id": "C111", "title": "The amplitude plot shows the magnitudes", "statement": "An observation lies above the predicted curve exactly if its magnitude is larger than that of the event; all observations lie within the axes; the uncertainty of the distance is in km; a plot is made for every event with observations.", "quantifier": "all tables of observations, attenuation functions, station corrections, multipliers and units", "why_tests_cant": "The relation is between real functions for all values.", "anchors": ["quakemigrate/signal/local_mag/magnitude.py:Magnitude.plot_amplitudes", "quakemigrate/plot/amplitudes.py:amplitudes_summary", "quakemigrate/signal/local_mag/local_mag.py:LocalMag.calc_magnitude"]}
{"id": "C112", "title": "An event file holds the latest results", "statement": "Whatever was added to an event and in whatever order, its file and its accessors give the results of the last call of each kind, to the documented number of decimals, under the right column; the overall covariance uncertainty is the geometric mean of the three; the origin time, COA and COA_NORM belong to the first of the largest coalescences, before and after trimming; trigger files of all formats are read; the file is written exactly if all results were added.", "quantifier": "all histories of calls of any length, all values with NaN and infinities, all precisions and units", "why_tests_cant": "Histories have any length, and the numbers of decimals depend on the grid.", "anchors": ["quakemigrate/io/event.py:Event.__init__", "quakemigrate/io/event.py:Event.write", "quakemigrate/io/event.py:Event.add_compute_output", "quakemigrate/io/event.py:Event.add_covariance_location", "quakemigrate/io/event.py:Event.add_gaussian_location", "quakemigrate/io/event.py:Event.add_spline_location", "quakemigrate/io/event.py:Event.add_local_magnitude", "quakemigrate/io/event.py:Event.get_hypocentre", "quakemigrate/io/event.py:Event.get_loc_uncertainty", "quakemigrate/io/event.py:Event._parse_triggered_event"]}
{"id": "C113", "title": "A pick plot shows the data, windows and picks of its station", "statement": "The pick plot of a station shows every trace and onset function over a range that contains all pick windows and ten samples before them, at a height that fits the data inside the windows and the threshold, the window and modelled arrival of each phase on its own axes, and exactly the picks of that station with their uncertainties; and the plot of a located event can always be made.", "quantifier": "all traces, onset functions, windows and picks of any length and number", "why_tests_cant": "Depends on where windows fall in the data, for all origins, traveltimes and pads.", "anchors": ["quakemigrate/plot/phase_picks.py:pick_summary", "quakemigrate/plot/phase_picks.py:_plot_phase_pick", "quakemigrate/signal/pickers/gaussian.py:GaussianPicker.plot"]}
{"id": "C114", "title": "An event summary shows the event", "statement": "The event summary shows each station once in a row of its own, labelled with its name and ordered by first arrival, with the modelled arrivals and exactly the traces of that station in it, scaled so that up to the last arrival they stay in their row; slices through the largest value of the map; an ellipse as large as the location uncertainty about the hypocentre in every panel; a legend with every kind of line once; and the coordinates written to the .event file.", "quantifier": "all traces, traveltimes, maps and coordinate systems, any number of stations", "why_tests_cant": "Depends on the order of arrivals, the sampling and the components of all stations.", "anchors": ["quakemigrate/plot/event.py:event_summary", "quakemigrate/plot/event.py:_plot_waveform_gather", "quakemigrate/plot/event.py:_plot_text_summary", "quakemigrate/plot/event.py:_make_ellipses"]}
{"id": "C115", "title": "The map and cross sections of a lookup table show the values where the nodes are", "statement": "Each of the three panels of the map of a lookup table spans the cells of the grid, shows exactly the nodes of its plane through the chosen node, each as a cell about its coordinates with its value, so that the cells cover the panel once and the brightest cell is about the node with the largest value; the hypocentre and the listed stations stand at their coordinates; and the scale bar has the length written next to it.", "quantifier": "all grids, maps, nodes, stations and projections", "why_tests_cant": "Depends on the projection and the shape of the grid and holds for every cell of every panel.", "anchors": ["quakemigrate/lut/lut.py:plot"]}
{"id": "C116", "title": "The trigger summary shows what was triggered", "statement": "The summary of a trigger run shows, at each time of the availability table, for how many stations each phase was available; marks on the map all stations, or those with data; marks every triggered event and every candidate discarded by the region filter with its magnitude, position and the period it covers, and no other; draws the threshold that was used; and leaves no exceedance of the threshold outside the marked windows.", "quantifier": "all availability tables, coalescence series, regions and trigger settings", "why_tests_cant": "Relates the picture to the whole decision of the trigger, for every table and every series.", "anchors": ["quakemigrate/plot/trigger.py:trigger_summary", "quakemigrate/plot/trigger.py:_plot_station_availability", "quakemigrate/plot/trigger.py:_plot_event_windows", "quakemigrate/plot/trigger.py:_plot_event_scatter", "quakemigrate/plot/trigger.py:_plot_trigger_region", "quakemigrate/signal/trigger.py:_trigger_batch"]}
{"id": "C117", "title": "How the data are cut into files does not matter", "statement": "Merging what was read neither loses, moves nor changes a sample; pieces of one record, in any order, overlapping or repeated, give that record again, so the availability depends on the samples only; a channel whose overlapping pieces contradict each other fails the availability check whatever is asked for; and a channel of mixed sampling rates is left out without affecting any other.", "quantifier": "all streams, orders, overlaps and cuts", "why_tests_cant": "There are unboundedly many ways to cut a record into overlapping files, and the order of a set of ids is not fixed.", "anchors": ["quakemigrate/util.py:merge_stream", "quakemigrate/io/data.py:read_waveform_data", "quakemigrate/io/data.py:check_availability"]}
{"id": "C118", "title": "What is read does not depend on how the archive is organised", "statement": "For a period whose padded ends are sampling times, the raw waveforms hold every stored sample of the padded period once and nothing else, in traces that are interrupted only where data are missing; the waveforms hold those of the period of the selected stations; and two archives that store the same samples, in whatever formats, files, pieces and order of channels, give the same raw and the same selected traces of every channel.", "quantifier": "all archives, formats, periods, paddings and station selections", "why_tests_cant": "Quantifies over all pairs of ways to organise an archive.", "anchors": ["quakemigrate/io/data.py:read_waveform_data", "quakemigrate/io/data.py:_load_from_path", "quakemigrate/util.py:merge_stream", "quakemigrate/util.py:shift_to_sample"]}
{"id": "C119", "title": "Each onset function comes from the data of its own station and phase", "statement": "The availability verdict and the onset function stored for a station and phase depend on the traces of that station only, whatever other stations are processed and in whatever order the traces come; the onset function is the root mean square over the station's channels that meet the availability criteria of their STA/LTA functions (not below the floor; 1 where the windows reach into the taper); and all onset functions of a window have one sample per sample of the window, so that they can be stacked.", "quantifier": "all settings, stations, phases, waveforms, filters and time windows", "why_tests_cant": "Quantifies over all collections of stations and traces, and over all changes to the data of the other stations.", "anchors": ["quakemigrate/signal/onsets/stalta.py:STALTAOnset.calculate_onsets", "quakemigrate/signal/onsets/stalta.py:STALTAOnset._onset", "quakemigrate/signal/onsets/base.py:OnsetData"]}
{"id": "C120", "title": "The coalescence map of a window follows from the stored samples", "statement": "For a time window, from the waveforms to the map: the value at a node and sample is the geometric mean, over the stations and phases for which an onset function could be computed, of the onset at the rounded arrival time for a source at that node and sample; a window without usable data raises the exception that the scan handles; and two archives that store the same samples, however organised, give the same map.", "quantifier": "all waveforms, archives, settings, lookup tables, nodes and samples", "why_tests_cant": "A statement about the composition of reading, pre-processing, onset calculation, traveltime lookup and migration for all data.", "anchors": ["quakemigrate/signal/scan.py:QuakeScan._compute", "quakemigrate/signal/onsets/stalta.py:STALTAOnset.calculate_onsets", "quakemigrate/lut/lut.py:LUT.serve_traveltimes", "quakemigrate/core/src/migratelib.c:migrate", "quakemigrate/io/data.py:read_waveform_data"]}
{"id": "C121", "title": "Picks follow from the data of their own station", "statement": "From the waveforms of an event to the table of picks: the picks at a station depend on the data of that station only (for a given hypocentre and origin time); there is one row for each station and phase with an onset function, with the arrival time modelled for that pair; the SEED ids given are those of the channels whose data were used; and the pick windows hold no samples of the onset function that were set to 1 because of the taper.", "quantifier": "all settings, waveforms, stations, phases, fitting routines and events", "why_tests_cant": "Quantifies over all changes to the data of the other stations and over all window lengths and traveltimes.", "anchors": ["quakemigrate/signal/pickers/gaussian.py:GaussianPicker.pick_phases", "quakemigrate/signal/pickers/gaussian.py:GaussianPicker._determine_window", "quakemigrate/signal/onsets/stalta.py:STALTAOnset._trim_taper_pad", "quakemigrate/signal/scan.py:QuakeScan._locate_events"]}
{"id": "C122", "title": "Units and polarity of the waveforms do not matter", "statement": "Multiplying the data of each channel by a factor of its own, positive or negative (another instrument gain, other units, a reversed polarity), leaves the availability, the onset functions, the coalescence, and the picks with their SEED ids as they are.", "quantifier": "all settings, waveforms, factors other than 0, lookup tables and events", "why_tests_cant": "Quantifies over all factors and all data; a test compares a few pairs.", "anchors": ["quakemigrate/signal/onsets/stalta.py:STALTAOnset.calculate_onsets", "quakemigrate/util.py:upsample", "quakemigrate/signal/scan.py:QuakeScan._compute", "quakemigrate/signal/pickers/gaussian.py:GaussianPicker.pick_phases", "quakemigrate/io/data.py:WaveformData.check_availability"]}
{"id": "C123", "title": "Results do not depend on the absolute time", "statement": "The same ground motion recorded at another time, with the window moved by the same amount, gives the same availability, onset functions and coalescence, the same exceptions, and picks that are moved by that amount, with the same uncertainties, signal-to-noise ratios, residuals and SEED ids; also with gaps filled, resampling and data of mixed sampling rates.", "quantifier": "all settings, waveforms, shifts in time, lookup tables and events", "why_tests_cant": "Quantifies over all shifts and all data.", "anchors": ["quakemigrate/signal/onsets/stalta.py:STALTAOnset.calculate_onsets", "quakemigrate/util.py:resample", "quakemigrate/signal/scan.py:QuakeScan._compute", "quakemigrate/signal/pickers/gaussian.py:GaussianPicker.pick_phases", "quakemigrate/io/data.py:WaveformData.check_availability"]}
{"id": "C124", "title": "A scan stores, for every sample, the peak of the stack of the onset functions of its timestep", "statement": "detect() on an archive stores a value for every sample of the time span, in the file of its date: the largest geometric mean of the onset functions at the predicted arrival times over the grid, its ratio to the mean and the coordinates of the node, or zeros for a timestep without data; the availability table flags the station and phase pairs with an onset function. Every event triggered from the files is such a peak. A scan may be stopped at a midnight and continued in a second run, with the same files in the end, and the same ground motion at another time gives the same samples.", "quantifier": "all archives, settings, lookup tables, time spans and timesteps", "why_tests_cant": "Composes the stages of the scan for all inputs; a test runs one archive.", "anchors": ["quakemigrate/signal/scan.py:QuakeScan.detect", "quakemigrate/signal/scan.py:QuakeScan._continuous_compute", "quakemigrate/signal/scan.py:QuakeScan._compute", "quakemigrate/io/scanmseed.py:ScanmSEED.append", "quakemigrate/signal/trigger.py:Trigger._trigger_events"]}
{"id": "C125", "title": "An event located from waveforms has the time and place of the largest stack around its trigger time", "statement": "locate() on an archive gives each triggered event, in a window of two marginal windows either side of the trigger time, the first time with the largest stack of the onset functions as origin time, a location within two nodes of the node with the largest sum of the stack over the marginal window, and one pick for each station and phase with an onset function, modelled at the traveltime from that location. An event without data, or whose largest stack is a marginal window or more from the trigger time, is skipped. The same ground motion at another time, or data of other units channel by channel, give the same events.", "quantifier": "all archives, settings, lookup tables, trigger times and numbers of events", "why_tests_cant": "Composes the stages of the location for all inputs; a test runs one event.", "anchors": ["quakemigrate/signal/scan.py:QuakeScan._locate_events", "quakemigrate/signal/scan.py:QuakeScan._compute", "quakemigrate/io/event.py:Event.add_compute_output", "quakemigrate/io/event.py:Event.trim2window", "quakemigrate/signal/scan.py:QuakeScan._calculate_location", "quakemigrate/signal/pickers/gaussian.py:GaussianPicker.pick_phases"]}
{"id": "C126", "title": "The order of the stations and stations without data do not change the results", "statement": "Listing the stations in another order, storing the traces in another order, or adding stations that have no data in the window leaves the coalescence map, the samples of a scan, and the origin time, location and picks of an event as they are; the availability of each station is the same.", "quantifier": "all data, station lists, settings and lookup tables", "why_tests_cant": "Relates pairs of runs for all data and all orders; a test compares two orders of one data set.", "anchors": ["quakemigrate/signal/onsets/stalta.py:STALTAOnset.calculate_onsets", "quakemigrate/lut/lut.py:LUT.serve_traveltimes", "quakemigrate/signal/scan.py:QuakeScan._compute", "quakemigrate/core/src/migratelib.c:migrate"]}
{"id": "C127", "title": "Stricter trigger settings add no events", "statement": "With a longer minimum event interval or a wider marginal window, every event found is one that the narrower settings find, with the same identifier, time, place and coalescence. With a higher threshold, every event lies in the time window of an event of the lower threshold, and every event of the lower threshold that reaches the higher one lies in the window of an event that is at least as large.", "quantifier": "all scan data, settings and regions", "why_tests_cant": "Relates pairs of runs for all data; a test compares two settings on one data set.", "anchors": ["quakemigrate/signal/trigger.py:Trigger._trigger_batch", "quakemigrate/signal/trigger.py:Trigger._identify_candidates", "quakemigrate/signal/trigger.py:Trigger._refine_candidates", "quakemigrate/signal/trigger.py:Trigger._get_threshold"]}
{"id": "C128", "title": "The results of a scan do not depend on its timestep", "statement": "Two time windows of the same continuous records that both contain a time, clear of their ends, give the same coalescence, normalised coalescence and location for it; hence two scans of the same span with different timesteps leave the same samples in every coalescence file. The padding the code reads around a timestep keeps the samples it keeps clear of the tapered ends.", "quantifier": "all records, windows, timesteps, settings and travel-time tables, for processing that settles within a margin of the ends of the window", "why_tests_cant": "Relates pairs of runs of the whole pipeline over arbitrary splits of the archive; a test compares two window choices on one record.", "anchors": ["quakemigrate/signal/scan.py:QuakeScan._continuous_compute", "quakemigrate/signal/scan.py:QuakeScan._compute", "quakemigrate/signal/onsets/stalta.py:STALTAOnset.calculate_onsets", "quakemigrate/signal/onsets/stalta.py:pre_process", "quakemigrate/signal/onsets/base.py:Onset.pad"]}
{"id": "C129", "title": "The scan and the location of an event see the same coalescence", "statement": "Locating a triggered event in the archive that was scanned gives, at every sample of two marginal windows either side of it, the coalescence, normalised coalescence and location the scan stored, before rounding; the origin time is the first of the largest. An event is skipped for lack of data only where the scan stored zeros. A triggered time whose stored coalescence is the largest in that window is the origin time and is never skipped, and the located event's coalescence is never below the stored one.", "quantifier": "all records, settings, timesteps, marginal windows, trigger times and travel-time tables, for processing that settles within a margin of the ends of the window", "why_tests_cant": "Relates two programs run on different windows of the same archive through the files one of them writes; a test checks one event.", "anchors": ["quakemigrate/signal/scan.py:QuakeScan._continuous_compute", "quakemigrate/signal/scan.py:QuakeScan._locate_events", "quakemigrate/signal/scan.py:QuakeScan._compute", "quakemigrate/io/event.py:Event.add_compute_output", "quakemigrate/io/event.py:Event.in_marginal_window", "quakemigrate/io/scanmseed.py:ScanmSEED.append"]}
{"id": "C130", "title": "A triggered event is the peak of the coalescence around it, and the locate stage keeps it", "statement": "No sample that reaches the threshold within the minimum event interval of a triggered event has a larger coalescence than the event, and earlier ones have a smaller one. So an event triggered from a scan is the first peak of the coalescence stored around it, and locating it in the same archive gives the same origin time and coalescence, unless a later sample within the marginal window rounds to the same stored value; without such a tie the event is not skipped.", "quantifier": "all scanned series, thresholds, marginal windows and minimum event intervals; all records, timesteps and tables for the located event", "why_tests_cant": "The merging of overlapping candidates, the choice of the peak in a merged group and the second choice in the locate stage must agree for every series; a test shows it for the series it uses.", "anchors": ["quakemigrate/signal/trigger.py:Trigger._identify_candidates", "quakemigrate/signal/trigger.py:Trigger._refine_candidates", "quakemigrate/signal/trigger.py:Trigger._trigger_batch", "quakemigrate/signal/scan.py:QuakeScan._locate_events", "quakemigrate/io/event.py:Event.in_marginal_window"]}
{"id": "C131", "title": "The scan and the location are one formula of the processed records", "statement": "The coalescence stored by a scan at a sample, and computed for an event, is the peak over the nodes of the geometric mean, over the stations and phases with data, of the root mean square of the STA/LTA ratios of the channels at the arrival of the phase from the node. Timesteps, pads and windows are not in the formula. Without a station with data the scan stores zeros and the event is skipped.", "quantifier": "all records, station lists, channel names, settings, tables, timesteps and windows, for processing that settles within a margin of the ends of the window", "why_tests_cant": "The formula composes the channel selection, the pads, the onset function, the C kernels and the stitching of the timesteps; tests fix each piece on single arrays.", "anchors": ["quakemigrate/signal/scan.py:QuakeScan._compute", "quakemigrate/signal/scan.py:QuakeScan._continuous_compute", "quakemigrate/signal/onsets/stalta.py:STALTAOnset.calculate_onsets", "quakemigrate/core/src/migratelib.c:migrate", "quakemigrate/core/src/migratelib.c:find_max_coa"]}
{"id": "C132", "title": "A source that the stations see is found, triggered and located where it is", "statement": "If each onset function has its largest value at the arrival from one node and time, and no other node and time has the same arrivals, then a scan stores the coalescence of that source at its time with the coordinates of its node, larger than at any other time; a trigger with a lower threshold gives an event there with these coordinates to the stored precision; locating it gives that origin time and coalescence.", "quantifier": "all sources, station geometries, traveltime tables, records, settings and thresholds below the peak", "why_tests_cant": "This is the purpose of the package as a statement about every source: a synthetic test has one source, one geometry and one grid.", "anchors": ["quakemigrate/signal/scan.py:QuakeScan.detect", "quakemigrate/signal/trigger.py:Trigger.trigger", "quakemigrate/signal/scan.py:QuakeScan.locate", "quakemigrate/io/scanmseed.py:ScanmSEED.append", "quakemigrate/core/src/migratelib.c:migrate"]}
{"id": "C133", "title": "The compiled and the Python STA/LTA give the same scans, locations and picks", "statement": "With the compiled STA/LTA functions in place of the Python ones, every onset function, the files of a scan, and the origin time, location and picks of an event are the same, whenever the traces are longer than the two windows together and no long-term average vanishes.", "quantifier": "all waveforms, archives, settings, lookup tables, scans and events", "why_tests_cant": "The two implementations differ in how they sum (running sums against cumulative sums) and in what they do at the ends and for silence; tests compare them on a few arrays.", "anchors": ["quakemigrate/signal/onsets/stalta.py:STALTAOnset._onset", "quakemigrate/signal/onsets/stalta.py:STALTAOnset.calculate_onsets", "quakemigrate/core/lib.py:overlapping_sta_lta", "quakemigrate/core/lib.py:centred_sta_lta", "quakemigrate/core/src/onsetlib.c:overlapping_sta_lta", "quakemigrate/core/src/onsetlib.c:centred_sta_lta"]}
{"id": "C134", "title": "A small dependence of the filtered data on the window changes the results by a bounded factor", "statement": "If the processed samples are within e of signals that do not depend on the window, and no long-term average of these is below L > e, then all stored and located coalescences are within the fraction g = 101 e / (L - e) of the formula of C131; two scans with different timesteps differ by no more than the factor (1 + g) / (1 - g); and a source whose coalescence stands out by more than that is still found at its node and time by detect, trigger and locate.", "quantifier": "all records, windows, timesteps, settings, tables, sources and all e < L", "why_tests_cant": "The mean, the trend and the recursive filter make every sample depend on the window it was read in; that the effect stays bounded through ratio, root mean square, floors, geometric mean and peak is a statement about all signals.", "anchors": ["quakemigrate/signal/onsets/stalta.py:pre_process", "quakemigrate/signal/onsets/stalta.py:STALTAOnset.calculate_onsets", "quakemigrate/signal/scan.py:QuakeScan._continuous_compute", "quakemigrate/signal/scan.py:QuakeScan._locate_events", "quakemigrate/signal/trigger.py:Trigger._trigger_batch", "quakemigrate/core/src/migratelib.c:migrate"]}
{"id": "C135", "title": "The hypocentre is a function of the records, and a source that stands out is located at its node", "statement": "For continuous records the origin time of an event is the first sample, within two marginal windows of the trigger time, with the largest coalescence of the formula of C131; the event is dropped if that is a marginal window or more from the trigger time; and the location is within two nodes of the node whose coalescence, summed over the marginal windows on both sides of the origin time, is largest. With a processing that depends a little on the window this holds of a coalescence within the factor of C134. So a source that stands out in its peak and in its sum goes through detect, trigger and locate to its own time and to within two nodes of its own node.", "quantifier": "all records, triggered events, marginal windows, settings, tables and sources", "why_tests_cant": "The statement is about all records and all grids, and runs through every stage; tests locate a few example events and compare with stored results.", "anchors": ["quakemigrate/signal/scan.py:QuakeScan._locate_events", "quakemigrate/signal/scan.py:QuakeScan._compute", "quakemigrate/signal/scan.py:QuakeScan._calculate_location", "quakemigrate/signal/scan.py:QuakeScan._splineloc", "quakemigrate/io/event.py:Event.in_marginal_window", "quakemigrate/io/event.py:Event.trim2window"]}
{"id": "C136", "title": "Thresholds that follow the level of the scan are not moved by outliers", "statement": "If more than half of the values in the window of a sample are between a and b, then the threshold at that sample is between the ones that windows of such values lead to, whatever the other values are: for the MAD threshold from a to b plus the multiplier times 1.4826 (b - a), for the median ratio from a to b times the multiplier. So a sample above that becomes an event or lies in the window of a larger one, also next to a large earthquake; every event reaches the smallest of these thresholds; and a source in the records that stands out goes through detect, trigger and locate with these thresholds as with a static one.", "quantifier": "all series of values, settings, batches, records and sources", "why_tests_cant": "Robustness is about all values that up to half of the samples may take; tests see a few series.", "anchors": ["quakemigrate/signal/trigger.py:Trigger._get_threshold", "quakemigrate/signal/trigger.py:Trigger._identify_candidates", "quakemigrate/signal/trigger.py:Trigger._trigger_batch", "quakemigrate/util.py:calculate_mad"]}
{"id": "C137", "title": "MAD triggers do not depend on the units or the zero of the coalescence, median ratio triggers not on the units", "statement": "If the coalescence of a scan is given in other units (multiplied by a positive number) and, for the MAD threshold, from another zero, then the threshold at each sample is the same threshold in those units, and trigger finds the same events, with the same identifiers, times, windows and places, writes the same files but for the values, and fails in the same cases. A median ratio threshold depends on the zero and a static threshold on the units.", "quantifier": "all scans, units, settings and periods", "why_tests_cant": "The statement compares two runs on all scans and all units; tests run one.", "anchors": ["quakemigrate/signal/trigger.py:Trigger._get_threshold", "quakemigrate/signal/trigger.py:Trigger._identify_candidates", "quakemigrate/signal/trigger.py:Trigger._refine_candidates", "quakemigrate/signal/trigger.py:Trigger._filter_events", "quakemigrate/signal/trigger.py:Trigger._trigger_batch", "quakemigrate/util.py:calculate_mad"]}
{"id": "C138", "title": "Detrending, tapering and filtering leave the same samples in every window, to any accuracy, given enough padding", "statement": "Before the onset function, the line and the mean of the window are removed from the data, its ends are tapered and a band-pass filter is run forwards and backwards. All four depend on where the window starts and ends. But if the filter is stable and has a zero at frequency zero (a Butterworth band-pass of any order), then more than a twentieth of the window and J samples from its ends the result is that of the filter on the unwindowed record, with an error of at most sixteen times the largest sample, times the size of the response of the filter, times what is left of it after J samples; this goes to zero geometrically in J. So the same sample comes out the same, to any accuracy, in any two windows.", "quantifier": "all records, windows, tapers, filters and samples", "why_tests_cant": "The error is a property of all records and windows; a test compares two.", "anchors": ["quakemigrate/signal/onsets/stalta.py:pre_process", "quakemigrate/signal/onsets/stalta.py:STALTAOnset._onset"]}
{"id": "C139", "title": "The filter before the onset function does not move arrivals, and the line taken off is the least-squares one", "statement": "The line that pre_process takes off a trace leaves a smaller sum of squares than any other line would, and the removal of the mean that follows changes nothing. The filter, run forwards and backwards, does the same to a record and to the record backwards in time, so it has no preferred direction; an impulse comes out largest at the sample where it is, with its own sign, and equally on both sides. In a window the same holds but for the error of C138.", "quantifier": "all records, filters, windows and samples", "why_tests_cant": "The statement is about all filters and records; one pass of the same filter does move arrivals, which tests with a single filter may not notice.", "anchors": ["quakemigrate/signal/onsets/stalta.py:pre_process"]}
{"id": "C140", "title": "Locate runs for the file or the period it was given, and says so if it was given half a period", "statement": "With a trigger file, locate locates the events of that file; with a start and an end, those of the period, and it refuses a period that ends before it starts; with nothing it refuses; with only one of the two times it says that both are needed. The picker uses the threshold that was given for its method, or the documented default, and refuses the old name.", "quantifier": "all combinations of arguments and all conversions of times", "why_tests_cant": "The outcome depends on every combination of given and missing arguments and on the library that converts them.", "anchors": ["quakemigrate/signal/scan.py:QuakeScan.locate", "quakemigrate/signal/pickers/gaussian.py:GaussianPicker.__init__", "quakemigrate/signal/pickers/gaussian.py:GaussianPicker.pick_threshold"]}
{"id": "C141", "title": "Data recorded at a multiple of the output rate give the same samples in every window, to any accuracy, given enough padding", "statement": "Data at k times the output rate are detrended, tapered and low-pass filtered, every k-th sample is kept, and the result is detrended, tapered and band-pass filtered. Exactly one sample in k is kept, the first among them. For a low-pass whose sections are stable and a band-pass as in C138, away from the ends of the window (of the data and of the output) the result is that of the two filters on the record without ends, with an error that goes to zero geometrically with the distance; the line taken off before the low-pass, which a low-pass does not remove, is removed by the band-pass. So two windows that begin on samples of the output agree to any accuracy; windows that begin between them keep other samples.", "quantifier": "all records, windows, factors, tapers, filters and samples", "why_tests_cant": "The error is a property of all records and windows; a test compares two.", "anchors": ["quakemigrate/util.py:decimate", "quakemigrate/signal/onsets/stalta.py:pre_process"]}
{"id": "C142", "title": "The pads leave the filter room to settle, so a scan does not depend on its timestep with the processing of the code", "statement": "Around each timestep of a scan, and each window of locate, the code reads a pad. With the pads it computes, every sample that the onset functions use is clear of the tapered ends by at least J samples, where J samples are at most three of the longest short windows and at most the longest long window less two samples, each plus a 250th of the time span. So with the detrending, taper, filter and energy of the code, two scans of the same records with any two timesteps store coalescences that agree up to a factor that goes to one with what is left of the response of the filter after J samples; and what C134 says about the detection and location of a source holds.", "quantifier": "all records, filters, tapers, settings and timesteps", "why_tests_cant": "The number of samples left depends on every setting; the error on every record and timestep.", "anchors": ["quakemigrate/signal/onsets/base.py:Onset.pad", "quakemigrate/signal/onsets/stalta.py:STALTAOnset.pre_pad", "quakemigrate/signal/onsets/stalta.py:STALTAOnset.post_pad", "quakemigrate/signal/onsets/stalta.py:pre_process", "quakemigrate/signal/scan.py:QuakeScan._continuous_compute"]}
{"id": "C143", "title": "A scan of data recorded at a multiple of the output rate is a scan of the low-passed record, whatever the timestep", "statement": "When the records are at f times the output rate, the code low-passes and decimates them window by window. The onset functions are then exactly those of every f-th sample of the low-passed window, taken as a record at the output rate. Where the low-pass and the processing after it settle, the coalescence that scan stores at each sample, and the rows that locate computes, are those of a formula in the signal that does not depend on the windows, up to a factor that goes to one with what the filters have left. So a source that stands out is detected by scan, becomes an event in trigger, and is located at its time and node; and two scans with different timesteps, and a scan of fast records and one of records at the output rate that lead to the same signal, agree up to that factor; and with the low-pass, decimation, detrending, tapers, band-pass and energy of the code, and the pads it computes, the signal is the energy of the record without ends after both filters.", "quantifier": "all records, decimation factors, filters, tapers, settings and timesteps", "why_tests_cant": "The low-pass, the tapers and the trend differ from window to window, for every record and every factor.", "anchors": ["quakemigrate/util.py:decimate", "quakemigrate/util.py:resample", "quakemigrate/signal/onsets/stalta.py:pre_process", "quakemigrate/signal/onsets/stalta.py:STALTAOnset.calculate_onsets", "quakemigrate/signal/scan.py:QuakeScan._continuous_compute", "quakemigrate/signal/onsets/base.py:Onset.pad"]}
{"id": "C144", "title": "Data recorded at a multiple of the output rate give the hypocentre and the picks of the decimated record", "statement": "When the records are at a multiple of the output rate, the picks and their SEED ids are exactly those of the low-passed and decimated window, taken as a record at the output rate. Where the filters settle, the origin time is the first largest sample, and the location within two nodes of the largest sum, of a coalescence that is within the factor of C134 of a formula in the signal that does not depend on the windows. With the low-pass, decimation, detrending, tapers, band-pass and energy of the code, and the pads it computes, that signal is the energy of the record without ends after both filters. A source that stands out in its peak and in its sum goes through detect, trigger and locate to its own time and to within two nodes of its own node, whatever the rate of the instruments.", "quantifier": "all records, decimation factors, filters, triggered events, marginal windows, settings, tables and sources", "why_tests_cant": "The statement is about all records, all rates and all grids, and runs through every stage; the window of an event is low-passed by itself.", "anchors": ["quakemigrate/util.py:decimate", "quakemigrate/signal/scan.py:QuakeScan._locate_events", "quakemigrate/signal/scan.py:QuakeScan._calculate_location", "quakemigrate/signal/pickers/gaussian.py:GaussianPicker.pick_phases", "quakemigrate/signal/onsets/stalta.py:STALTAOnset.calculate_onsets", "quakemigrate/io/event.py:Event.in_marginal_window"]}
