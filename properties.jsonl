{"id": "C01", "title": "Julian day numbering is a faithful day count", "statement": "jul_day assigns consecutive integers to consecutive calendar days: the day after any valid Gregorian date gets exactly the next number, so a later valid date always gets a strictly larger number and two different valid dates never share one.", "quantifier": "every pair of valid Gregorian dates, all years (no upper bound)", "why_tests_cant": "The integer-division formula has century and leap corrections; tests pin a handful of dates, the claim is about every day of every year.", "anchors": ["qc.py:jul_day"]}
{"id": "C02", "title": "Time difference is exact elapsed time", "statement": "time_difference between two valid dated hours is the exact elapsed number of hours; it is antisymmetric, additive over an intermediate instant, zero only for equal instants, and is None exactly when one of the inputs is missing (in the cases the code tests).", "quantifier": "all pairs/triples of valid dates with any real hour", "why_tests_cant": "The domain is infinite, so a finite set of examples cannot establish it. Month and year roll-overs interact with the hour term.", "anchors": ["qc.py:time_difference", "qc.py:jul_day", "Extended_IMMA.py:MarineReport.__sub__"]}
{"id": "C03", "title": "Day-of-year and pentads", "statement": "day_in_year maps every valid month/day to 1..365 with 29 February sharing 1 March's number; which_pentad is always in 1..73, each pentad covers exactly five consecutive day numbers, pentad_to_month_day gives the first day of each pentad and which_pentad inverts it; bad month/day raises.", "quantifier": "every integer month and day, every pentad number", "why_tests_cant": "Tests sample some days; the claim is that the error behaviour and mapping hold on all integers.", "anchors": ["qc.py:day_in_year", "qc.py:which_pentad", "qc.py:pentad_to_month_day", "qc.py:get_month_lengths"]}
{"id": "C04", "title": "Previous day and adjacent month helpers", "statement": "yesterday returns the unique valid date whose next day is the input (None triple for invalid input or the first representable day); last_month_was and next_month_is are mutually inverse and move by exactly one month.", "quantifier": "all dates / all (year, month) pairs", "why_tests_cant": "The domain is infinite, so a finite set of examples cannot establish it.", "anchors": ["qc.py:yesterday", "qc.py:last_month_was", "qc.py:next_month_is"]}
{"id": "C05", "title": "Month generator enumerates the closed interval exactly once", "statement": "year_month_gen(y1,m1,y2,m2) for a non-empty interval yields exactly 12*(y2-y1)+m2-m1+1 months, in increasing order, each exactly once, starting and ending at the given months.", "quantifier": "all year/month intervals", "why_tests_cant": "A generator loop with a mutable month counter; every length must be covered, not a few lengths. Termination itself is a for-all claim.", "anchors": ["qc.py:year_month_gen", "YMCounter.py:YMCounter.__init__"]}
{"id": "C06", "title": "Date check", "statement": "For months 1..12 date_check passes (0) exactly the valid calendar dates with year 1850..2024 and fails (1) the others; a missing day fails; a missing month or year raises.", "quantifier": "all integer/missing year, month, day", "why_tests_cant": "The domain is infinite, so a finite set of examples cannot establish it.", "anchors": ["qc.py:date_check"]}
{"id": "C07", "title": "Position and time checks", "statement": "position_check passes exactly latitudes in [-90,90] with longitudes in [-180,360]; time_check fails exactly missing hours and hours outside [0,24).", "quantifier": "all numeric or missing inputs", "why_tests_cant": "Boundary behaviour over a continuum.", "anchors": ["qc.py:position_check", "qc.py:time_check"]}
{"id": "C08", "title": "Threshold checks implement their inequality", "statement": "climatology_check, value_check, no_normal_check, hard_limit, supersat_check and sst_freeze_check return only 0 or 1, flag exactly the inputs outside the documented inequality, treat missing inputs as documented, and widening a limit never turns a pass into a fail.", "quantifier": "all numeric or missing values and limits", "why_tests_cant": "Real-valued inputs and monotonicity claims relate infinitely many pairs of runs.", "anchors": ["qc.py:climatology_check", "qc.py:value_check", "qc.py:no_normal_check", "qc.py:hard_limit", "qc.py:supersat_check", "qc.py:sst_freeze_check"]}
{"id": "C09", "title": "Standard-deviation climatology checks", "statement": "climatology_plus_stdev_check flags exactly when |obs-clim| exceeds the multiplier times the standard deviation clipped into the allowed range (multiplier and limits positive, otherwise it raises), and climatology_plus_stdev_with_lowbar flags exactly when both |obs-clim| exceeds the low bar and the normalised anomaly exceeds the limit; the flag is monotone in the anomaly.", "quantifier": "all values, normals, standard deviations, limits", "why_tests_cant": "The domain is infinite, so a finite set of examples cannot establish it.", "anchors": ["qc.py:climatology_plus_stdev_check", "qc.py:climatology_plus_stdev_with_lowbar"]}
{"id": "C10", "title": "Grid index functions locate the containing cell", "statement": "lat_to_yindex and lon_to_xindex return an index of an existing grid cell whose bounds contain the point, are monotone between cells, longitude lookup is 360-degree periodic and grid-centre functions are their inverse.", "quantifier": "all latitudes in range, all longitudes in the accepted range, grid resolutions dividing the globe", "why_tests_cant": "Continuum of inputs with boundary special cases.", "anchors": ["qc.py:lat_to_yindex", "qc.py:lon_to_xindex", "qc.py:yindex_to_lat", "qc.py:xindex_to_lon"]}
{"id": "C11", "title": "MDS grid index functions locate the containing cell", "statement": "mds_lat_to_yindex and mds_lon_to_xindex return an in-range cell index whose closed bounds contain the point, for every position a report can have after longitude normalisation, and differ from the plain lookups only on cell borders.", "quantifier": "all latitudes in [-90,90], longitudes in [-180,180], resolution dividing the globe", "why_tests_cant": "Truncation toward zero makes both hemispheres different; boundary ties.", "anchors": ["qc.py:mds_lat_to_yindex", "qc.py:mds_lon_to_xindex", "Extended_IMMA.py:MarineReport.lon"]}
{"id": "C12", "title": "Bilinear interpolation is bounded and exact at corners", "statement": "bilinear_interp returns the corner value at each corner, reproduces every function of the form a+bx+cy+dxy, and lies between the smallest and largest corner value, so its internal range assertions can never fire; it raises exactly when the point is outside the box or the box is degenerate or a value is missing.", "quantifier": "all boxes, points and corner values", "why_tests_cant": "The domain is infinite, so a finite set of examples cannot establish it.", "anchors": ["qc.py:bilinear_interp"]}
{"id": "C13", "title": "Four surrounding points bracket the position", "statement": "get_four_surrounding_points returns longitudes x1<=lon<=x2 with x2-x1=1 and grid-centre latitudes y1<=lat<=y2; with max90=0 the latitudes are exactly one degree apart except at the cell-centre latitude closest to the South Pole.", "quantifier": "all latitudes in [-90,90], longitudes in [-180,180]", "why_tests_cant": "Wrap-around at the date line and poles over a continuum.", "anchors": ["qc.py:get_four_surrounding_points"]}
{"id": "C14", "title": "Filling missing corner values", "statement": "fill_missing_vals keeps every present value unchanged, fills all four corners whenever at least one is present, every filled value lies within the range of the present values, and returns all-missing only when all are missing.", "quantifier": "all 16 missing patterns with all values", "why_tests_cant": "The domain is infinite, so a finite set of examples cannot establish it.", "anchors": ["qc.py:fill_missing_vals", "qc.py:missing_mean"]}
{"id": "C15", "title": "Climatology lookups never index out of range", "statement": "Climatology.get_value with a pentad, daily or single-field climatology reads the cell containing the position at the time slice of the date, never an index outside the array, and returns None for an impossible month/day; get_interpolated_value stays within the range of the field values near the point or is missing.", "quantifier": "all fields of allowed shapes, positions, dates", "why_tests_cant": "All shapes x all positions x all days.", "anchors": ["Climatology.py:Climatology.get_value", "Climatology.py:Climatology.get_value_mds_style", "Climatology.py:Climatology.get_tindex", "Climatology.py:Climatology.get_interpolated_value"]}
{"id": "C16", "title": "Winsorised mean", "statement": "winsorised_mean equals the mean after replacing the lowest and highest quarter of the values by the nearest retained value; it lies between the minimum and maximum, ignores the order of the inputs and is shift-equivariant.", "quantifier": "all non-empty lists of numbers", "why_tests_cant": "Lists of every length and permutation.", "anchors": ["qc.py:winsorised_mean"]}
{"id": "C17", "title": "Trimmed mean and trimmed standard deviation", "statement": "trimmed_mean / trim_mean average exactly the central values that remain after dropping the stated fraction from each end; with no trimming it is the plain mean; the result is bounded by the extremes, permutation invariant and shift equivariant, and trimming is symmetric under reversing the order of values.", "quantifier": "all non-empty lists and trim fractions", "why_tests_cant": "Lists of every length and permutation.", "anchors": ["qc.py:trimmed_mean", "trackqc.py:trim_mean", "trackqc.py:trim_std"]}
{"id": "C18", "title": "Generic identifiers and blacklists", "statement": "id_is_generic depends only on the identifier and year in the documented list and is used consistently by track checking; blacklist returns 1 exactly for reports satisfying one of the listed deck/period/region rules and 0 otherwise.", "quantifier": "all identifiers, years, positions", "why_tests_cant": "The domain is infinite, so a finite set of examples cannot establish it.", "anchors": ["qc.py:id_is_generic", "qc.py:blacklist"]}
{"id": "C19", "title": "Buddy-check threshold multiplier", "statement": "get_threshold_multiplier returns the multiplier belonging to the largest observation-count limit strictly below the number of observations (4 for no observations), for every well-formed threshold table, raises on ill-formed tables and negative counts, and is non-increasing in the number of observations for the tables used by the code.", "quantifier": "all counts and well-formed threshold tables of any length", "why_tests_cant": "Tables of every length.", "anchors": ["Extended_IMMA.py:get_threshold_multiplier"]}
{"id": "C20", "title": "Chunking of months partitions the data months", "statement": "YMCounter.get_chunks(gap) returns equally many starts and ends; chunks are disjoint, ordered, begin and end on months with data, cover every month with data, are separated by at least gap empty months and contain no gap-long run of empty months (gap between 1 and 10).", "quantifier": "all month histories of any length, all gaps 1..10", "why_tests_cant": "A stateful scan over arbitrary 0/1 histories.", "anchors": ["YMCounter.py:YMCounter.get_chunks"]}
{"id": "C21", "title": "Chunk classification is stable under new data", "statement": "A chunk classified 'regular' or 'new' is bounded by at least gap empty months on both sides inside the record (or preceded by at least gap months), so it is found with the same dates when months are appended later; 'new' marks exactly the chunks that became complete with the last month, so running month by month each chunk is 'new' exactly once.", "quantifier": "all histories and all extensions of them", "why_tests_cant": "Relates unboundedly many successive runs (a history property).", "anchors": ["YMCounter.py:YMCounter.yield_start_and_end_dates", "Tracking_QC_wrapper.py:main"]}
{"id": "C22", "title": "QC flag store", "statement": "After set_qc(v,f,x), get_qc(v,f) returns x and every other recorded flag is unchanged unless its concatenated key coincides; flags never written read as 9; unknown QC types raise.", "quantifier": "all sequences of set/get operations over all flag names", "why_tests_cant": "A history property over arbitrary operation sequences.", "anchors": ["Extended_IMMA.py:MarineReport.set_qc", "Extended_IMMA.py:MarineReport.get_qc"]}
{"id": "C23", "title": "QC filter splits a deck into an order-preserving partition", "statement": "split_reports puts every report in exactly one of the passes/fails decks, in the original order, with the passes being exactly those whose filtered flags all have the required value; test_report is the conjunction of the individual filter conditions.", "quantifier": "all filters of any length, all decks of any length", "why_tests_cant": "Arbitrary-length lists.", "anchors": ["Extended_IMMA.py:QC_filter.test_report", "Extended_IMMA.py:QC_filter.split_reports"]}
{"id": "C24", "title": "Deck groups reports by platform", "statement": "For a deck built by appending, get_one_platform_at_a_time yields one voyage per identifier, containing exactly the unfiltered reports with that identifier, in deck order, each report in exactly one voyage.", "quantifier": "all append sequences", "why_tests_cant": "History property over arbitrary sequences of appended reports.", "anchors": ["Extended_IMMA.py:Deck.append", "Extended_IMMA.py:Deck.get_one_platform_at_a_time", "Extended_IMMA.py:Deck.sort", "Extended_IMMA.py:Deck.index_by_id"]}
{"id": "C25", "title": "Saturated-run check", "statement": "find_saturated_runs flags exactly the reports belonging to a maximal run of consecutive saturated reports with more than shortest_run members whose first and last are at least the minimum time apart, and sets every other report to pass.", "quantifier": "all voyages of any length, all thresholds", "why_tests_cant": "Run-length state machine over arbitrary sequences.", "anchors": ["Extended_IMMA.py:Voyage.find_saturated_runs"]}
{"id": "C26", "title": "Repeated-value check", "statement": "find_repeated_values flags exactly the reports whose value occurs in more than the threshold fraction of the voyage's non-missing values, only when there are more than the minimum number of observations, and everything else gets 0.", "quantifier": "all voyages and thresholds", "why_tests_cant": "Arbitrary-length multiset property.", "anchors": ["Extended_IMMA.py:Voyage.find_repeated_values"]}
{"id": "C27", "title": "Excessive-rounding check", "statement": "find_multiple_rounded_values flags exactly the whole-number values of a voyage in which the share of whole numbers reaches the threshold and more than the minimum number of values are present; all other reports get 0.", "quantifier": "all voyages and thresholds", "why_tests_cant": "Arbitrary-length multiset property.", "anchors": ["Extended_IMMA.py:Voyage.find_multiple_rounded_values"]}
{"id": "C28", "title": "IQUAM track check terminates with a violation-free remainder", "statement": "iquam_track_check always terminates and when it does no two unflagged reports in each other's neighbourhood violate the speed limit; a voyage without violations gets no flags; each flagged report violated the limit with some report; every report gets flag 0 or 1.", "quantifier": "all voyages, all speed limits, any distances/times", "why_tests_cant": "Iterative greedy removal with arrays of violation sets; termination and final state must hold for all violation graphs.", "anchors": ["Extended_IMMA.py:Voyage.iquam_track_check"]}
{"id": "C29", "title": "Spike check terminates with a violation-free remainder", "statement": "spike_check always terminates and afterwards no two unflagged reports in each other's neighbourhood have a gradient violation; no violation means no flags.", "quantifier": "all voyages and gradients", "why_tests_cant": "Same greedy loop on a different graph.", "anchors": ["Extended_IMMA.py:Voyage.spike_check"]}
{"id": "C30", "title": "Track check flags exactly the off-track reports", "statement": "Voyage.track_check on a voyage built by adding reports with positions, valid dates and hours, in time order and with coded headings, never raises. A report gets POS/trk = 1 exactly when it is interior, lies more than the given distance from the position interpolated between its neighbours, breaks the voyage's speed limit on two of its legs, and contradicts dead reckoning, heading, speed or the absolute limit. First and last reports are never flagged; generic identifiers, buoys and voyages of fewer than 3 reports are never flagged; data and other flags are unchanged. mds_track_check returns one such 0/1 flag per report.", "quantifier": "all voyages of any length, all parameters, every well-defined geometry", "why_tests_cant": "Arbitrary-length sequences of observations with missing speeds and headings.", "anchors": ["track_check.py:mds_track_check", "Extended_IMMA.py:Voyage.track_check"]}
{"id": "C31", "title": "Repeated track check only adds flags and stops", "statement": "mds_full_track_check performs at most five passes, each over the reports not flagged so far, stops at the first pass that flags nothing, leaves exactly the reports flagged by some pass with POS/bad_track = 1 and all others with 0, never flags the first or last report and never raises.", "quantifier": "all voyages of located, time-ordered reports", "why_tests_cant": "Iteration over shrinking sub-voyages.", "anchors": ["track_check.py:mds_full_track_check"]}
{"id": "C32", "title": "Modal speed and speed limits", "statement": "modesp gives the centre of the most populated 3-knot bin (lowest on ties), raised to 8.5 knots, hence between 8.5 and 34.5 knots whatever the speeds, in km/h, and None for fewer than two entries; set_speed_limits gives 15/20/0 knots for missing or slow modal speeds and 1.25m/30/0.75m otherwise, the minimum always below the maximum.", "quantifier": "all lists of speeds", "why_tests_cant": "Arbitrary-length lists of real speeds.", "anchors": ["track_check.py:modesp", "track_check.py:set_speed_limits"]}
{"id": "C33", "title": "Aground check flags a suffix", "statement": "On a drifter record in time order, aground_check and new_aground_check flag exactly the reports from the first median-smoothed position on after which the drifter stays within the tolerance over every assessed window (windows of min to max days, or to the end of the record): the flagged reports are a suffix, nothing is flagged if the drifter still moves in the last assessed window, and the checks end without exception for valid parameters.", "quantifier": "all drifter records and valid parameters", "why_tests_cant": "Sliding windows of variable length over arbitrary time series.", "anchors": ["trackqc.py:aground_check", "trackqc.py:new_aground_check"]}
{"id": "C34", "title": "Drifter speed check flags exactly the too-fast windows", "statement": "speed_check flags a report iff it lies in an assessed window (from a report to the last one within max days, at least min days later) over which the mean speed exceeds the limit; new_speed_check uses, among the reports an IQUAM check of the record as a ship does not take out, windows to the first report at least min days later. Both end without exception for positive windows; a zero minimum window raises IndexError although the parameter check allows it.", "quantifier": "all drifter records and valid parameters", "why_tests_cant": "Sliding windows of variable length over arbitrary time series.", "anchors": ["trackqc.py:speed_check", "trackqc.py:new_speed_check"]}
{"id": "C35", "title": "SST tail check flags only tails", "statement": "sst_tail_check flags as start tail exactly the reports up to the last compared observation cut at the start and as end tail exactly those from the first one cut at the end, where the cut observations are given by the runs of failing long windows and then of failing short windows from either end; the start flags are a prefix and the end flags a suffix of the record, they never overlap, nothing is flagged when all windows fail or the background is unreliable, and for valid parameters and records the check always finishes (its internal assertion cannot fire).", "quantifier": "all records, all valid parameters, all elevations of the sun and square roots", "why_tests_cant": "Two opposite scans with windows of two lengths; assertion unreachability is a for-all claim.", "anchors": ["trackqc.py:sst_tail_check"]}
{"id": "C36", "title": "SST bias/noise check classifies records uniformly", "statement": "sst_biased_noisy_check gives every observation of a record the same bias, noise and short flags: with enough compared observations the record is biased exactly when the mean difference from the background exceeds the limit and noisy exactly when the scatter exceeds the expected one; with too few, it is flagged exactly when it has enough suspicious observations and no report had an unreliable background; with none, nothing is flagged.", "quantifier": "all records and valid parameters", "why_tests_cant": "The domain is infinite, so a finite set of examples cannot establish it.", "anchors": ["trackqc.py:sst_biased_noisy_check"]}
{"id": "C37", "title": "Buddy checks compare each report with its neighbours only, whatever the order", "statement": "The buddy checks group the filtered reports into 1-degree, 5-day cells and compare each report's anomaly with the average of the neighbouring occupied cells in the first search box that has any. The flag is 1 exactly when the difference reaches the multiple of the standard deviation that belongs to the number of neighbours; a report without neighbours is flagged only from 500 degrees on; reports that fail the filter get 0; nothing else changes; the order of the deck does not matter, nor do reports out of reach of the search boxes or in the report's own cell; the box is widened towards the poles to keep its width in kilometres. The Bayesian check uses the same neighbours.", "quantifier": "all decks of reports, filters, standard deviation fields, search boxes and tables", "why_tests_cant": "Accumulation over arbitrarily many reports and three-dimensional wrap-around.", "anchors": ["Extended_IMMA.py:Np_Super_Ob", "Extended_IMMA.py:Deck.mds_buddy_check", "Extended_IMMA.py:Deck.bayesian_buddy_check"]}
{"id": "C38", "title": "Bayesian gross-error probability", "statement": "p_gross answers exactly for sensible arguments, with Bayes' theorem for a rounded, truncated normal distribution against a uniform one; both are distributions; the result is a probability that grows with the prior and with the distance of the observation from the mean; the flag made of it is an integer 0..9 that grows with it.", "quantifier": "all probabilities, quantisation intervals, limits and values", "why_tests_cant": "Continuum; needs the shape of the normal distribution.", "anchors": ["qc.py:p_gross", "qc.py:p_data_given_good", "qc.py:p_data_given_gross", "Extended_IMMA.py:Deck.bayesian_buddy_check"]}
{"id": "C39", "title": "Great-circle distances, courses, destinations and fractions", "statement": "sphere_distance is the Earth's radius times the central angle between the two positions; so it is a metric on positions, at most half the circumference, and ignores whole turns of longitude. The course between two points leads to the second point over that distance; the destination function follows the great circle; the intermediate point divides the distance in the given ratio; the predicted next position continues the great circle at the same speed.", "quantifier": "all latitudes, longitudes, courses, distances and fractions (poles and antipodes where stated)", "why_tests_cant": "Trigonometric identities over the reals.", "anchors": ["spherical_geometry.py:angular_distance", "spherical_geometry.py:sphere_distance", "spherical_geometry.py:course_between_points", "spherical_geometry.py:lat_lon_from_course_and_distance", "spherical_geometry.py:intermediate_point", "Extended_IMMA.py:Voyage.predict_next_point"]}
{"id": "C40", "title": "Angle difference", "statement": "angle_diff of two angles within a turn of one another is the smallest rotation between them, in [0, pi], and symmetric; further apart it is negative.", "quantifier": "all pairs of angles", "why_tests_cant": "Continuum.", "anchors": ["qc.py:angle_diff"]}
{"id": "C41", "title": "Humidity conversions", "statement": "Vapour pressure, specific humidity, relative humidity, wet bulb and dew point depression follow the published formulas, over ice when the wet bulb is not above freezing, and round to the nearest tenth; missing inputs give a missing output. With dew point equal to temperature relative humidity is 100, depression zero and wet bulb the temperature; with dew point below it the rounded relative humidity is at most 100 and the wet bulb lies between them; vapour pressures over water and over ice grow with dew point; conversions to and from specific humidity and dew point invert each other. The humidity variables of a report get exactly these values, or are missing when an input is missing or relative humidity exceeds 150. (Across the ice/water switch vapour pressure can fall as dew point rises: finding.)", "quantifier": "all temperatures from -237 to 800 degrees, all pressures (up to 1100 hPa where stated), all reports", "why_tests_cant": "Continuum, transcendental formulas with an ice/water branch.", "anchors": ["CalcHums.py:vap", "CalcHums.py:sh", "CalcHums.py:rh", "CalcHums.py:wb", "CalcHums.py:dpd", "CalcHums.py:td_from_vap", "CalcHums.py:vap_from_sh", "CalcHums.py:sh_from_vap", "Extended_IMMA.py:MarineReport.calculate_humidity_variables"]}
{"id": "C42", "title": "IMMA record coding round trip", "statement": "Base-36 decoding inverts base-36 encoding for the values 0..35. Reading an attachment gives every parameter the meaning of the bytes at its place, None for blanks, and fails with ValueError exactly when some field is not the number it should be. A record (core and attachments) whose values fit their fields is written as one line and reading that line returns the same attachments and the same value for every parameter. Reading any line ends. (False, as proved: negative numbers are written one unit too high, attachments 8 and 99 and an empty last attachment do not survive.)", "quantifier": "all lines of text, all records, all attachments and parameters", "why_tests_cant": "All values of all fields in all combinations of attachments; tests read a few files.", "anchors": ["IMMA1.py:IMMA.readstr", "IMMA1.py:IMMA.write", "IMMA1.py:IMMA.decode", "IMMA1.py:IMMA.encode", "IMMA1.py:decode_base36", "IMMA1.py:encode_base36"]}
{"id": "C43", "title": "File name templates, directories and ID files", "statement": "In a template every YYYY, MMMM and DDDD, from the left, is replaced by the year in at least four, the month and the day in at least two digits, and every other character is copied; two dates with four-digit years fill a template to the same text only if they agree on everything it asks for; the file name is the filled file template joined to the filled directory template; the first candidate file that exists is read; the directories for a month all exist after they are made (if making one only fails when it is there) and the last is returned; a bad-ID file gives one identifier per non-blank line, without white space at the end and padded to nine characters, so a nine-character identifier is excluded exactly if it matches a line; the background field is the first named file that exists and is not empty, plain or compressed.", "quantifier": "all templates, dates, sets of existing files and ID files", "why_tests_cant": "All strings and all states of the file system.", "anchors": ["BackgroundField.py:process_string", "BackgroundField.py:make_filename", "BackgroundField.py:process_bad_id_file", "BackgroundField.py:build_completions", "BackgroundField.py:safe_make_dir_generic", "BackgroundField.py:safe_make_dir", "BackgroundField.py:icoads_filename_from_stub", "BackgroundField.py:icoads_filename", "BackgroundField.py:get_background_filename"]}
{"id": "C44", "title": "Main program: every report of a month is processed once, in a window of three months", "statement": "A run of the main program deals with each month from the first to the last once, in order. For a month it reads the files of the month before, the month and the month after; a line counts if it can be read, its identifier is not excluded and its year and month are those of the file, and each counting line gives exactly one report of the deck, in order, with the identifiers and variables of the record (only the second air temperature, humidity and the documented repair of the hour differ). Every report gets the normals of its place and date, the base flags its own data demand, and a flag telling whether it is of the month; ship checks are made on the reports of the whole window with one identifier that pass the position filter, independently of the order of identifiers; later checks change only motion and their own flags. The output files of the month hold exactly one row for each counting line of the month's own file; neighbouring months never appear. Within a file the background field of a report is that of the day before it.", "quantifier": "all contents of all files, climatologies, backgrounds, parameters, months", "why_tests_cant": "Composition of loops over arbitrary files, with state carried from line to line and file to file.", "anchors": ["marine_qc.py:main", "Extended_IMMA.py:Deck.write_output", "Extended_IMMA.py:Deck.get_one_platform_at_a_time", "qc.py:year_month_gen"]}
{"id": "C45", "title": "Day/night test", "statement": "day_test raises only for bad inputs and otherwise returns 0/1 decided by the solar elevation at the stated time before the report; the hour roll-back across midnight, month and year ends is exact. The elevation formula computes the angle whose sine is sin(lat) sin(dec) + cos(lat) cos(dec) cos(hour angle): wraps and clips never change it. Hour 24 is let through by the tests' own checks and then raises.", "quantifier": "all positions and times", "why_tests_cant": "Continuum with calendar roll-over.", "anchors": ["qc.py:day_test", "qc.py:sunangle", "qc.py:dayinyear"]}
{"id": "C46", "title": "Base QC sets exactly the documented flags", "statement": "Base QC of a report that has a position, a year and a month never fails, sets all 36 base flags, each 1 or 0 exactly according to its own documented condition on the report (position, date, time, day, source, missing value, climatology, hard limits, supersaturation, wind consistency), changes no other flag and nothing else but the documented repair of a missing hour; the flags depend on the report alone and repeating base QC gives the same flags. The wind, pressure and sea temperature variants and the older routine obey the same kind of table. A report lacking latitude, longitude, year or month stops the program; the relative humidity limit fails every report; the limits of the second air temperature are applied to the first.", "quantifier": "all reports and parameter sets", "why_tests_cant": "Composition of many checks over all reports.", "anchors": ["Extended_IMMA.py:MarineReportQC.perform_base_qc", "qc.py:base_qc_report"]}
{"id": "C47", "title": "Report ordering and sorting", "statement": "Report comparison is a strict ordering by identifier and then time for complete reports, and sorting a voyage gives a time-ordered permutation of its reports.", "quantifier": "all lists of reports", "why_tests_cant": "Arbitrary-length permutations, ties, missing times.", "anchors": ["Extended_IMMA.py:MarineReport.__gt__", "Extended_IMMA.py:MarineReport.__eq__", "Extended_IMMA.py:Voyage.sort"]}
{"id": "C48", "title": "Safe file names", "statement": "safe_filename replaces every slash and every star by an underscore and changes nothing else: same length, no slash or star left, safe names unchanged, applying it twice is the same as once.", "quantifier": "all strings", "why_tests_cant": "All strings.", "anchors": ["Extended_IMMA.py:safe_filename"]}
{"id": "C49", "title": "Comma separated output", "statement": "For any columns the printing functions give a header and rows with the same number of comma-separated fields: UID, ISO date (zeros if there is no valid date in a four-digit year), pentad, the named variables (anomalies, integers, floats, the identifier in quotes, a marker for missing values), or UID and the flags of a type. Writing a deck gives one file of variables and one of flags per type, with different names; each holds the header and, in the order of the deck, one row for each report of the month and no other, so all files list the same UIDs line by line. The same holds for voyages, and the tracking file has one row per report with all blocks in one line.", "quantifier": "all reports, all column lists, all decks and voyages, months, run names and directories; every way to print floats without commas and white space", "why_tests_cant": "All column lists, values and decks.", "anchors": ["Extended_IMMA.py:MarineReport.print_variable_block", "Extended_IMMA.py:MarineReport.print_qc_block", "Extended_IMMA.py:datestring", "Extended_IMMA.py:tostring", "Extended_IMMA.py:Deck.write_output", "Extended_IMMA.py:Deck.write_min_output", "Extended_IMMA.py:Deck.write_qc", "Extended_IMMA.py:Voyage.write_output", "Extended_IMMA.py:Voyage.write_qc", "Extended_IMMA.py:Voyage.write_tracking_output"]}
{"id": "C50", "title": "Wind consistency", "statement": "wind_consistency flags exactly reports with the calm direction code 361 and a speed other than zero (a missing speed counts), and reports with the variable direction code 362 and a speed above the limit; a missing direction passes.", "quantifier": "all wind speeds and directions", "why_tests_cant": "The domain is infinite, so a finite set of examples cannot establish it.", "anchors": ["qc.py:wind_consistency"]}
{"id": "C51", "title": "Tracking jobs cover every identifier's months", "statement": "The tracking wrapper submits, for every identifier in the monthly ID files, exactly the chunks its mode asks for, no job twice; in 'all' mode every month of every identifier is in exactly one job.", "quantifier": "all intervals, gaps 1..10, modes, and contents of the monthly ID files", "why_tests_cant": "Quantifies over arbitrary monthly histories of arbitrarily many identifiers.", "anchors": ["Tracking_QC_wrapper.py:main", "YMCounter.py:YMCounter"]}
{"id": "C52", "title": "Report variables and the time stamp", "statement": "setvar then getvar returns the value (truncated for integer variables) and leaves every other variable, every QC flag and the identifier unchanged; unknown names raise on writing and read as missing; changing year, day or hour refreshes the report's time stamp (changing the month does not: a finding).", "quantifier": "all reports, all variable names and values, all histories of setvar", "why_tests_cant": "A store property over arbitrary reports and sequences of writes.", "anchors": ["Extended_IMMA.py:MarineReport.getvar", "Extended_IMMA.py:MarineReport.setvar", "Extended_IMMA.py:MarineReport.calculate_dt"]}
{"id": "C53", "title": "Motion fields of a voyage", "statement": "Adding reports one by one to a voyage keeps every report's data and flags; each report but the first then carries the distance, course, time difference and speed from its predecessor and the first carries none. Sorting a voyage recomputes them for all but the first report (which keeps stale values: a finding).", "quantifier": "all sequences of located reports, any geometry", "why_tests_cant": "An invariant of every construction history of a voyage.", "anchors": ["Extended_IMMA.py:Voyage.add_report", "Extended_IMMA.py:Voyage.sort", "Extended_IMMA.py:MarineReport.__sub__"]}
{"id": "C54", "title": "Climatology files are read with the right orientation", "statement": "A climatology read from a file gives, at every time and place, the file's value at that latitude and longitude, whether the file's rows run north-to-south or south-to-north, its columns start at the date line or at Greenwich (grids finer than two degrees), or its 1-degree field is transposed; without a file every lookup is missing; files without coordinates or with another number of time steps are refused. (Coarser grids from Greenwich and files with a level axis are misplaced: findings.)", "quantifier": "all files, resolutions and contents", "why_tests_cant": "Every cell of every grid size and orientation.", "anchors": ["Climatology.py:Climatology.from_filename", "Climatology.py:Climatology.__init__"]}
{"id": "C55", "title": "Ship course and speed codes", "statement": "Every report carries the course its DS code stands for (eighths of a circle, 9 unknown) and the speed its VS code stands for: the middle of its range of knots in the table of its year (before 1968 three knots wide, then five), zero for code 0.", "quantifier": "all reports", "why_tests_cant": "All codes and years, through report construction.", "anchors": ["Extended_IMMA.py:MarineReport.calculate_dsi_vsi"]}
{"id": "C56", "title": "Longitudes and anomalies of a report", "statement": "A report's longitude is the stored one brought into -180..180 by whole turns; its anomaly is value minus normal and its normalised anomaly that over the standard deviation, missing when any part is missing; attaching a normal leaves other variables alone.", "quantifier": "all reports, variables, normals and standard deviations", "why_tests_cant": "Every store state and value.", "anchors": ["Extended_IMMA.py:MarineReport.lon", "Extended_IMMA.py:MarineReport.getanom", "Extended_IMMA.py:MarineReport.get_normalised_anom", "Extended_IMMA.py:MarineReport.add_climate_variable"]}
{"id": "C57", "title": "Tracking control of a drifting buoy", "statement": "Given the reports of one drifter in any order, the tracking control ends and changes nothing but its seven flags. It flags as aground and as picked up among the reports with good date, time and position that are not blacklisted; it looks for bad tails among those neither aground nor picked up that have a good temperature, and for bias, noise and short records among those outside the tails. Every check sees its reports in order of time and flags exactly what it finds; reports that fail a filter keep what they had. The results go to one file per kind of buoy, a header and one row per report in order of time. (Reports in the same minute in the wrong order stop it, and so does one report without position: findings.)", "quantifier": "all records of a drifter, all parameters in range, any geometry and elevation of the sun", "why_tests_cant": "Arbitrary records and orders of reports through four dependent checks.", "anchors": ["tracking_qc.py:main", "Extended_IMMA.py:Voyage.new_buoy_aground_check", "Extended_IMMA.py:Voyage.new_buoy_speed_check", "Extended_IMMA.py:Voyage.buoy_tail_check", "Extended_IMMA.py:Voyage.buoy_bias_noise_check"]}
{"id": "C58", "title": "The tracking control reads back what the main program wrote", "statement": "From the three files the main program writes for a drifter and a month (variables, position flags, temperature flags) the tracking control gets back every report in order: the same identifiers, date and flags, the values as printed, a time stamp that fits the date and hour, and nothing else. Months without files contribute nothing; a month with some of the files missing, with different numbers of lines, or whose rows belong to different reports stops the control, so flags never reach another report; a row of flags with more cells than the header has names stops it too, and so do months without any report; every text that is a table in CSV is read as that table, blank lines passed over. From there to the tracking files the whole program does what C57 says. (Identifiers with a star or slash are not found again and identifiers with a quotation mark come back changed: findings.)", "quantifier": "all reports, months and identifiers that can be printed, any printing and reading of numbers that agree", "why_tests_cant": "Arbitrary texts through a printer and a CSV reader written independently of each other.", "anchors": ["tracking_qc.py:main", "tracking_qc.py:process_string", "Extended_IMMA.py:Voyage.write_output", "Extended_IMMA.py:Voyage.write_qc"]}
{"id": "C59", "title": "The jobs of the tracking wrapper run the control they were made for", "statement": "With the files of identifiers as the main program writes them, the wrapper succeeds, reads back exactly the identifiers in them, writes no job file twice, and the jobs it writes, as the shell and the option parser read them, start the tracking control exactly on the chunks of each buoy that are to be done: with that identifier (its blanks at the end are put back), the first and last month of the chunk, and the classes of the chunk, in whatever order the options are written. A missing file of identifiers stops the wrapper before any job. (An identifier with a blank inside makes a job that cannot start, one with a comma is cut, and two that differ in a blank share a job file: findings.)", "quantifier": "all identifiers, histories of months, gaps, modes, directories and orders of options", "why_tests_cant": "The text of a job is read by the shell and by an option parser, the identifiers are arbitrary and the order of the options is that of a Python 2 dictionary.", "anchors": ["Tracking_QC_wrapper.py:main", "Tracking_QC_wrapper.py:write_submission", "tracking_qc.py:main"]}
{"id": "C60", "title": "The high resolution program: one flag row per usable line of the month", "statement": "marine_qc_hires.py, run for a month, reads the files of the month before, the month and the month after; every usable line becomes one report, in order, with the high resolution normal of its place and date and no other normal, and with the base flags its own values demand. The well placed reports of a ship go through the track check and the check for repeated values, then the sea temperatures fit for it are compared with their neighbours; nothing else changes a flag. The flag file holds exactly one row per usable line of the month's own file; with tracking every drifter of the month is listed once and has a flag file of its own; a run covers every month of the range once, in order. It is stopped by a blank line and by a window without data, and the spike column it writes is never set.", "quantifier": "all files of reports, parameters, climatologies, identifiers, months and ranges of months", "why_tests_cant": "The files, the ships in them, and the order of their reports are unbounded; the claim is about what each of many stages leaves alone.", "anchors": ["marine_qc_hires.py:main", "Extended_IMMA.py:Deck.write_qc", "Extended_IMMA.py:Voyage.write_qc"]}
{"id": "C61", "title": "The tracking-only program hands the drifters of the month to the tracking control", "statement": "marine_qc_track_only.py, run for a month, reads the files of three months; every usable line becomes one report with the sea temperature normal, the background and ice of the day before it, the variance of its month and the base flags its own values demand. The well placed reports of a ship go through its six checks, then the sea temperatures fit for it are compared with their neighbours. With tracking it writes the identifier file, which names every drifter with reports of the month exactly once, and the output of each drifter; nothing else. A window without data gives an empty identifier file. Without tracking it writes nothing; a blank line stops it.", "quantifier": "all files of reports, background fields, parameters, identifiers, months and ranges of months", "why_tests_cant": "The files and identifiers are unbounded and the background in memory depends on the whole history of lines read.", "anchors": ["marine_qc_track_only.py:main", "Extended_IMMA.py:Voyage.write_output", "Extended_IMMA.py:Deck.get_one_platform_at_a_time"]}
{"id": "C62", "title": "A report's climatological value, and the library of climatologies", "statement": "get_clim and get_hires_clim give, for a report on the earth with a valid date, the value of the cell that has its position at the slice of its date, missing if that cell is; for a report without position or date, or with an impossible one, they give None and never raise. get_clim_interpolated agrees, errors included, with the interpolation of the Climatology class at the report's place on a one degree field of pentads, so it lies within the bounds of the field and is exact on bilinear fields. A field is found in the library under the variable and statistic it was last added with, and under no other. A single field is read differently from an equal field of pentads beside the date line.", "quantifier": "all reports, fields, missing cells, positions, dates and histories of additions", "why_tests_cant": "Positions and fields range over a continuum; the perturbed lookups near the poles and the date line are exceptional points.", "anchors": ["qc.py:get_clim", "qc.py:get_hires_clim", "qc.py:get_clim_interpolated", "Extended_IMMA.py:ClimatologyLibrary"]}
{"id": "C63", "title": "A run of the main program comes to an end", "statement": "If the climatologies, background fields and parameters are complete and sensible, and the files of the months are in order (every line legible up to the identifier, every usable record on the globe, with an hour that belongs to a day and temperatures within the range of the humidity formulas, the records of a ship in order of time, something to check in each window), then the main program makes all its checks for every month of the run and writes all its files without an exception, with and without tracking. The humidity routine and the probability of gross errors of the code meet these conditions. One usable line of a valid day with an hour of 24 or more stops the run before the time check that should flag it.", "quantifier": "all setups, months, files, lines and reports that meet the conditions", "why_tests_cant": "The program has dozens of assertions, lookups and divisions between reading a line and writing its flags; tests run a few files and cannot exclude that some file in order trips one of them.", "anchors": ["marine_qc.py:main", "Extended_IMMA.py:Deck", "Extended_IMMA.py:MarineReport.calculate_dt", "Extended_IMMA.py:Voyage", "qc.py:p_gross"]}
{"id": "C64", "title": "The fixed-width lines of a report", "statement": "The short and the long fixed-width line of a report are 168 and 273 characters long and each column shows what is documented for it: the identifier and unique identifier, the position in hundredths of a degree, the date, the variables in tenths and their anomalies in hundredths rounded to the nearest, -32768 for what is missing, the course and speed codes as one number, the flags as digits. There is a line exactly if position, year, month and deck are known; reports that print the same line agree in every flag and number shown. Resetting the extra data of a report leaves those worked out from the course and speed codes and nothing else. (Only nine characters of the identifier are printed: a finding.)", "quantifier": "all reports whose numbers fit into eight columns, in particular all with values up to 90000", "why_tests_cant": "Arbitrary values, missing values and flags in any combination.", "anchors": ["Extended_IMMA.py:MarineReport.print_report", "Extended_IMMA.py:MarineReport.print_longform_report", "Extended_IMMA.py:pvar", "Extended_IMMA.py:MarineReport.printvar", "Extended_IMMA.py:MarineReport.reset_ext"]}
{"id": "C65", "title": "The other readers of reports", "statement": "The simple reader takes every field of a line from its columns, whatever the line and however short: an integer, a number in its unit, a text, missing if it cannot be read. The near-real-time reader takes six fields, refuses other numbers of fields, marks the report as one of a drifting buoy and caps positions without changing the verdict of the position check. The row reader takes the cells of a table, -32768 as missing, and raises for rows that are too short.", "quantifier": "all lines and rows, any reading of numbers and dates", "why_tests_cant": "Arbitrary texts of any length.", "anchors": ["SimpleIMMA.py:IMMA.readstr", "NRT.py:NRT.readstr", "TestIMMA.py:IMMA.readstr"]}
{"id": "C66", "title": "The tracking wrapper and the batch queue", "statement": "Whatever else happens in the batch queue, the wrapper never makes it hold more than 251 jobs of its user (or one more than there were at the start). It hands every job over once and in order, hands over nothing while the user is listed more than 250 times, and hands all of them over if it gets its turn again and again with at most 250 listed. Findings: the user's name is fixed in the program, so for anybody else there is no limit; users whose name contains it count as well and can make the wrapper wait for ever; a job that the queue refuses is lost without notice.", "quantifier": "all lists of jobs, all queues, all interleavings of the wrapper with jobs that end and jobs of other users that come, all texts of the listing that show the user once or more per job", "why_tests_cant": "The queue changes concurrently and without bound; tests cannot run through its schedules.", "anchors": ["Tracking_QC_wrapper.py:checkload", "Tracking_QC_wrapper.py:write_submission"]}
{"id": "C67", "title": "The directories of the tracking jobs", "statement": "Before a job file is written the directories of the jobs and of their logs exist: they are made if the output directory is there, nothing else is touched, and doing it again changes nothing. Without the output directory an exception is raised before any job file is opened.", "quantifier": "all sets of directories and output directories", "why_tests_cant": "Any state of the file system.", "anchors": ["Tracking_QC_wrapper.py:safemake", "Tracking_QC_wrapper.py:write_submission"]}
{"id": "C68", "title": "The two other programs come to an end", "statement": "The high-resolution and the tracking-only program make all their checks for every month of a run and write all their files without an exception if the sea temperature climatology, the deviations and parameters (and, for tracking, the background fields) are complete and sensible and the files of the months are in order: every line legible up to the identifier, every usable record on the globe with an hour that belongs to a day and a heading that is a code, the records of a ship in order of time. Whatever is complete and in order for the main program is so for these two; they need nothing about humidity, air temperature or pressure. One usable line of a valid day with an hour of 24 or more stops both.", "quantifier": "all setups, months, files, lines and reports that meet the conditions", "why_tests_cant": "As for the main program: tests run a few files and cannot exclude that some file in order trips an assertion, a lookup or a division.", "anchors": ["marine_qc_hires.py:main", "marine_qc_track_only.py:main", "Extended_IMMA.py:Deck", "Extended_IMMA.py:Voyage"]}
{"id": "C69", "title": "The grid cell of a position in double precision", "statement": "Computed with doubles instead of exact numbers, the row and column that the grid functions give are still within the grid and the cell still contains the position: exactly for the MDS functions on one-degree cells, where they also agree with exact arithmetic on cell borders; up to 6e-14 degrees on cells of 0.05 degrees; up to 3e-13 degrees for a climatology of any number of rows from which dividing 180 degrees by the cell size gives the number of rows back, as it does for all grids in use. For other numbers of rows, 350 say, the South Pole gets an index out of range.", "quantifier": "all doubles that are latitudes and longitudes; all numbers of rows up to 10000 with the stated condition", "why_tests_cant": "Tests try some positions; whether some double near a cell border or a pole leads out of the grid is a question about all of the 2^64 doubles.", "anchors": ["qc.py:mds_lat_to_yindex", "qc.py:mds_lon_to_xindex", "qc.py:lat_to_yindex", "qc.py:lon_to_xindex", "Climatology.py:get_value", "Climatology.py:get_value_ostia", "Climatology.py:get_value_mds_style"]}
{"id": "C70", "title": "Time stamps and time differences in double precision", "statement": "The time stamp of a report has an hour from 0 to 23 and a minute from 0 to 59 for every double that is an hour of a day; the hour is exact, the minute never ahead of the time by more than rounding; whole hours are exact, and hundredths of an hour give the last whole minute or, where they are a whole number of minutes, perhaps the one before (12.35 hours give 12:20). The time difference between two moments in the years 1 to 6000 is the exact one up to 3e-8 hours, is never negative when the second moment is not the earlier one, changes sign when the moments are swapped, and is exactly 24 hours per day for the same hour of different days from the year 1031 on. A difference of zero does not mean the same moment.", "quantifier": "all doubles that are hours of a day; all pairs of days in the years 1 to 6000", "why_tests_cant": "Rounding errors depend on the operands in an irregular way; tests see a few of them.", "anchors": ["Extended_IMMA.py:calculate_dt", "qc.py:time_difference", "qc.py:jul_day"]}
{"id": "C71", "title": "Scaled fields and rounded output in double precision", "statement": "A whole number of units read from a field of a record, turned into a float and written back leads to the same digits as exact arithmetic, for every field of every attachment and every number of up to eleven digits, although tenths and hundredths are not doubles; the float is the decimal number up to a relative error of 3e-16. Written to an output line as a whole number of the same units it is the number read. Rounding gives a nearest whole number and, of two, the one further from zero.", "quantifier": "all attachments, fields and whole numbers up to 10^11 in absolute value; all scales 1/k for k up to 1000; all doubles up to 10^11 for rounding", "why_tests_cant": "The error of a scaled number depends on the number; tests read a few numbers and cannot exclude that some other one is off by a unit.", "anchors": ["IMMA1.py:decode", "IMMA1.py:encode", "IMMA1.py:definitions", "Extended_IMMA.py:pvar", "Extended_IMMA.py:print_report"]}
{"id": "C72", "title": "Limits and probability flags in double precision", "statement": "A value whose distance from the climatological average is within the limit is never flagged because of rounding, and one beyond the limit by 1e-13 is always flagged. This is about the doubles: decimal numbers exactly at the limit may be flagged (8.2 against an average of 0.2 and a limit of 8). The flag for a probability is from 0 to 9 for every double from 0 to 1, and is its number of whole tenths up to an error of 1e-15, with 1 counted as 9.", "quantifier": "all triples of doubles with a distance up to 10^12; all doubles from 0 to 1", "why_tests_cant": "The comparison may go wrong for a few operands near the limit only, which tests are unlikely to hit.", "anchors": ["qc.py:climatology_check", "Extended_IMMA.py:bayesian_buddy_check"]}
{"id": "C73", "title": "The winsorised mean in double precision", "statement": "The winsorised mean of up to a million doubles is the exact winsorised mean of the same numbers up to (n + 3) * M * 4e-16, where M bounds their absolute values; and it is the same double whatever the order the numbers come in, because they are sorted before they are added. It need not lie between the smallest and the largest number: three times 0.1 has a mean above 0.1.", "quantifier": "all lists of 1 to a million finite doubles of at most 100000 in absolute value, and all their permutations", "why_tests_cant": "Sums of doubles depend on the order of the terms and on each rounding; tests see a few lists.", "anchors": ["qc.py:winsorised_mean"]}
{"id": "C74", "title": "Reports, variables and flags by position", "statement": "A voyage's accessors take a position like a Python index: 0 to n-1 from the front, -1 to -n from the back, IndexError for any other. getrep, getvar and get_qc read the report in that place; setvar and set_qc change that report alone, and of it only the named variable or flag; last_rep is the report added last. After any history of such writes the voyage has the same number of reports and those never written to are as they were. A deck's pop takes out the report in its place and keeps the others in order.", "quantifier": "every voyage or deck, every integer position, every variable, flag and value, every history of writes", "why_tests_cant": "positions, voyages and histories are unbounded; a test only shows single reads and writes on small voyages", "anchors": ["Extended_IMMA.py:Voyage.getrep", "Extended_IMMA.py:Voyage.last_rep", "Extended_IMMA.py:Voyage.setvar", "Extended_IMMA.py:Voyage.getvar", "Extended_IMMA.py:Voyage.set_qc", "Extended_IMMA.py:Voyage.get_qc", "Extended_IMMA.py:Deck.pop"]}
{"id": "C75", "title": "The modal speed of a track in double precision", "statement": "The modal speed that the track check computes in doubles is the modal speed (centre of the fullest 3-knot bin, at least 8.5 knots) of speeds within 6e-16 of their size of those given; if no speed is within 1e-13 knots of a border between bins it is the exact modal speed, to 1e-13 km/h, and the speed limits derived from it are those of exact arithmetic to 1e-12 km/h. A speed of exactly 3, 6, ..., 33 knots, converted to km/h in doubles, counts for the upper bin as documented. Speeds up to 1e9 km/h raise no error.", "quantifier": "all lists of at least two entries, all finite double speeds of at most 1e9 km/h in absolute value", "why_tests_cant": "A wrong bin shows only for speeds within a few units in the last place of a border, and any number of speeds may be involved; tests try a few.", "anchors": ["track_check.py:modesp", "track_check.py:set_speed_limits"]}
{"id": "C76", "title": "Equal, repeated and whole readings in double precision", "statement": "Readings of a whole number of units (1, a tenth, a hundredth or a thousandth) are equal as doubles, and have the same twelve-digit text, exactly when the numbers read are equal; read back from the text they are whole exactly when the number of units is that of a whole number. The share of a count compared with a decimal threshold gives the same answer in doubles as exactly. So the repeated value check and the rounded value check flag exactly the readings which the numbers on the record call for, although 0.3 read as 3 tenths is not the double nearest to 0.3.", "quantifier": "all numbers of units up to 10^8 in absolute value; all counts up to a million and thresholds p/q with q up to a million; all voyages of such readings, missing ones included", "why_tests_cant": "Whether two doubles or two texts coincide, or a quotient falls on a threshold, depends on each operand; tests try a few.", "anchors": ["Extended_IMMA.py:Voyage.find_repeated_values", "Extended_IMMA.py:Voyage.find_multiple_rounded_values", "IMMA1.py:decode"]}
{"id": "C77", "title": "The buddy check's averages and flag in double precision", "statement": "The buddy check adds up anomalies in doubles, in an order that depends on the order of the reports and, across cells, on numpy. Whatever the order and the bracketing, the average of the neighbouring cells (each with the average of its reports) is the exact one up to (N + 1) * M * 1.2e-15 for N reports with anomalies of at most M, numbers of observations are added exactly, and the flag is that of exact arithmetic unless the anomaly is within (N + 400) * M * 1.6e-15 of the limit. Within that margin the order of the reports may decide the flag.", "quantifier": "all non-empty sets of neighbouring cells with up to a million reports, all anomalies up to 1000 in absolute value, all orders and bracketings of the sums, all limits up to 1000", "why_tests_cant": "Sums of doubles depend on order and bracketing, of which there are exponentially many; a test sees one of them.", "anchors": ["Extended_IMMA.py:Np_Super_Ob.add_rep", "Extended_IMMA.py:Np_Super_Ob.take_average", "Extended_IMMA.py:Np_Super_Ob.get_buddy_limits_with_parameters", "Extended_IMMA.py:Deck.mds_buddy_check"]}
{"id": "C78", "title": "Interpolation between grid points survives rounding", "statement": "In double precision, interpolating at a position inside a cell between four corner values of at most M returns a value and never trips an assertion. The value differs from the exact bilinear one by at most 3e-15 M, so it lies within any bounds on the corners to that error. At the corners of a one degree cell it equals the corner value without error. A position outside the cell, or a cell without area, raises AssertionError. A constant field is not always reproduced exactly.", "quantifier": "all finite doubles for the corners (up to 1e9 in size), positions and cell edges with sides from a millionth of a degree to 2000 degrees", "why_tests_cant": "The assertions inside compare rounded results with rounded bounds; a few positions in a test cannot show that they hold at every double.", "anchors": ["qc.py: bilinear_interp"]}
{"id": "C79", "title": "Points around a reported position survive rounding", "statement": "For a report whose latitude and longitude are given in hundredths of a degree, the four surrounding points worked out in double precision are exactly the half degree lines on either side of the position, whichever hemisphere or side of the date line it is on. Interpolating there never raises and gives the bilinear value at the reported position to a billionth. The one exception is latitude 89.5 S, where the two lines coincide and the interpolation raises. For other doubles the points can be wrong.", "quantifier": "all latitudes from -90.00 to 90.00 and all longitudes from -180.00 to 360.00 in hundredths of a degree, both settings of max90, all corner values up to 1e9", "why_tests_cant": "Hundredths of a degree are not doubles and the code truncates after adding and subtracting a half: there are over a billion reported positions, each of which may round across a line.", "anchors": ["qc.py: get_four_surrounding_points, xindex_to_lon, yindex_to_lat, lon_to_xindex, lat_to_yindex, bilinear_interp", "Extended_IMMA.py: MarineReport.lon"]}
{"id": "C80", "title": "Position, time and limit checks on reported values survive rounding", "statement": "For values that a report gives in tenths or hundredths and that the code holds as doubles, the checks answer as the decimals do: position (-90.00 to 90.00, -180.00 to 360.00), hour (0.00 to 23.99), blacklisted regions, regions of suspect air temperatures, hard limits that are whole numbers, the freezing point of -1.8, supersaturation, and calm or variable winds. A value equal to a limit that is not a whole number may fail.", "quantifier": "all readings in tenths or hundredths up to a million, all positions in hundredths of a degree, every identifier, deck, year, month and platform type, all whole limits up to a million", "why_tests_cant": "A reading such as 0.3 is not a double; whether the decoded value lands on the right side of a boundary depends on the rounding at each boundary.", "anchors": ["qc.py: position_check, time_check, blacklist, hard_limit, supersat_check, sst_freeze_check, wind_consistency", "Extended_IMMA.py: MarineReport.lon, MarineReportQC.mat_blacklist"]}
{"id": "C81", "title": "Interrupted, repeated and shared-out runs", "statement": "A run of the main program that is stopped at any point, any number of times, and then repeated to its end leaves exactly the files of a run that was never stopped: every file it writes complete, every other file as it was. A run over a range of months writes the same files, in the same order, as a run over the first of them followed by a run over the rest; and the months may be run in any order or by several programs at the same time, as each month has its own directory. Flag files cut short by such a stop never lead the tracking control astray: it stops, or it has read the flags of every report.", "quantifier": "all inputs and settings of the main program, all earlier contents of the disk, all points at which runs are stopped and all parts of the output lost by that, all divisions of the range of months, all orders and interleavings of the files of the months; for the cut files all lists of readable reports and all cuts", "why_tests_cant": "The points at which a run can be stopped, what is then on the disk, and the ways the files of concurrent runs interleave cannot be enumerated by tests.", "anchors": ["marine_qc.py: main", "Extended_IMMA.py: Deck.write_output, Deck.write_qc, Voyage.write_output, Voyage.write_qc", "tracking_qc.py: main", "qc.py: year_month_gen"]}
{"id": "C82", "title": "The sun of the day test is where the Astronomical Almanac has it", "statement": "For every date from 1980 to 2099, every time of day and every place, the solar elevation that sunangle's formulas give is within 0.018 degrees of the one that follows from the low-precision formulas of the Astronomical Almanac (ecliptic longitude, obliquity, sidereal time). The day test therefore answers day when the almanac has the sun more than 0.018 degrees above the horizon at the instant it looks at, and night when it is more than 0.018 degrees below. The same accuracy holds in the leap years from 1904 to 1976. In the other years from 1901 to 1979 the elevation is the almanac's for the same time of the day before, and some reports fall on the wrong side: at the north pole on 21 March 1979 at 15:00 the sun has risen and the day test finds night.", "quantifier": "all dates from 1901 to 2099, all hours and minutes, all latitudes and longitudes", "why_tests_cant": "The unit tests compare a handful of sun angles with stored values. The accuracy is a statement about a continuum of times and places, and the error from the wrong day before 1980 is small enough to pass as noise in any single case.", "anchors": ["qc.py: sunangle", "qc.py: day_test"]}
{"id": "C83", "title": "The sun angle gives the direction in which the sun is seen", "statement": "For any date, time, time zone and place the sun angle function returns the elevation of the day tests, the right ascension (0 to 360 degrees) and declination of the sun, local sidereal time and an hour angle that is sidereal time less right ascension; arguments out of range raise an AssertionError. North of the equator the azimuth, clockwise from north and from 0 to 360 degrees, together with the elevation is the direction in which the sun is seen. South of the equator the azimuth has north and south exchanged, on the equator the function raises ZeroDivisionError, and within a millionth of a radian of the zenith it returns 0 when the sun is to the south and 180 when it is to the north.", "quantifier": "all years, days, hours, minutes, seconds, time zones, summer times, latitudes and longitudes", "why_tests_cant": "The azimuth is one of four branches of an arcsine chosen by comparing tangents; tests try a few places, and the fault south of the equator shows only against the geometry of the sphere, for every hour of every day.", "anchors": ["qc.py:sunangle"]}
{"id": "C84", "title": "What the other ships sent does not change a ship's own control", "statement": "Run the main program for a month on two collections of files that hold the same usable records of one ship, in the same order, in each of the three months of the window. Whatever other lines the files hold, the ship's reports come out of the two runs in the same order with the same values, normals, motion and flags, apart from the six flags that come from comparison with neighbours. (Without drifter tracking. With it the background temperature attached to a report can depend on another ship's report.)", "quantifier": "all program settings without tracking, all months, all identifiers, all pairs of file collections with the same records of the ship for which both runs finish", "why_tests_cant": "Non-interference compares two whole runs for every possible content of the other lines; a test can only add or remove a few reports.", "anchors": ["marine_qc.py:main", "Extended_IMMA.py:Deck.get_one_platform_at_a_time", "Extended_IMMA.py:Voyage", "qc.py"]}
{"id": "C85", "title": "The trimmed mean and standard deviation in double precision", "statement": "With the readings held as doubles, the trimmed mean differs from the exact trimmed mean of the same numbers by at most (n+1)*M*4e-16 for n readings of at most M, and the square of the trimmed standard deviation from the exact variance by at most (n+4)*M^2*4e-15, whatever the order and bracketing in which the additions are made. The standard deviation is always a finite number and never the root of a negative one. A comparison of the mean with a limit comes out as on exact numbers unless the mean is within that error of the limit; the long window of the SST tail check fails when it is clearly biased or clearly noisy and passes when it is clearly neither, a margin of (n+10)*3e-11 squared degrees apart. (Equal readings can nevertheless have a standard deviation above zero.)", "quantifier": "all lists of one to a million doubles up to the stated size, all trimming criteria of 0 or at least 3, all ways of adding up", "why_tests_cant": "Rounding errors accumulate over arbitrarily many additions whose order the numerical library chooses.", "anchors": ["trackqc.py:trim_mean", "trackqc.py:trim_std", "qc.py:trimmed_mean", "trackqc.py:sst_tail_check"]}
{"id": "C86", "title": "Verdicts on a drifter's differences and record in double precision", "statement": "With differences, background errors and parameters held as doubles (errors and parameters from 0 to 10), the SST tail and bias checks find a difference beyond n combined errors and do not find one within them, unless the squares are within 4e-11; so a short window or short record fails when at least n_bad differences are clearly beyond the limit and passes when fewer than n_bad are not clearly within it. A long record is found biased, or noisy, exactly when its mean, or its variance, is beyond the limit, unless they are within the stated rounding error. (At the limit itself the verdict can be wrong: 2.35 is found to be beyond the root of 1.41^2 + 1.88^2.)", "quantifier": "all differences, background errors, parameters and record lengths up to a million, all ways of adding up", "why_tests_cant": "Rounding in squares, sums and roots for every combination of doubles.", "anchors": ["trackqc.py:sst_tail_check", "trackqc.py:sst_biased_noisy_check"]}
