# Formal model of MarineQC in Rocq (Coq 8.16.1)

## What is here

* `properties.jsonl`: the properties (C01, C02, ...), in terms of the Python API.
* `rocq/theories/M_*.v`: the model. One Gallina function per Python function,
  each with a comment citing file and lines in `/repo`. No proofs.
* `rocq/theories/S_*.v`: small independent specifications used by the theorem statements.
* `rocq/theories/L_*.v`: lemmas and proofs.
* `rocq/theories/P_*.v`: the property theorems only, each closed by `exact`,
  with an `Example` meeting its hypotheses and `Print Assumptions`.
* `rocq/theories/T_*.v`: the project's unit tests, run on the model (tests, not proofs).
* `MANIFEST.json`: property -> theorem names.
* `seeded/LOG.jsonl`: mutation log, one line per edited model. `failed_at` is what was
  observed: the lemma or theorem at which the rebuild stopped. `theorems_failed` is derived
  from it: the numbered theorems whose text reaches that lemma through names they use. It
  says which theorems lost their proof, not that each one is false of the edited model.
  The edits in the form "in '...': x becomes y" were drawn at random, and their `claim` is
  only the titles of the properties of those theorems. An edited model that Coq does not
  accept has a line too, with a note; it tests nothing.

## Modelling conventions

* The code is Python 2: `/` on two ints floors, `None < x` is true for every number x.
* Exceptions are values: `Err e` of the result type in `M_Base.v`; every `assert`,
  out-of-range index and division by zero that the code can reach is an explicit branch.
* Floats are exact rationals `Q` in most of the model (a finite double *is* a rational, so pure comparison
  code is modelled exactly; where the code computes, rounding is left out). Where rounding can change what a
  user sees there is a second model on doubles (`M_Float.v`, `M_Float2.v`, `M_Float3.v`, operation by operation with Flocq's
  binary64): grid cells, time stamps and time differences, scaled fields and rounded output, limits and
  probability flags, the winsorised mean, the modal speed, shares and texts of readings, averages of the buddy check. C69 to C73 and C75 to C80 relate the two.
  Transcendental parts use `R`, or an oracle function quantified in the theorem.
  NaN is modelled only where the code tests for it.
* `None` is `option`.
* Objects shared by reference (reports in a voyage/deck) are values threaded through
  the functions; a check that writes flags returns the list of new reports/flags.
* numpy arrays are lists or functions on indices, with explicit range checks.
* `print` and file handles are not modelled; files are lists of lines (strings).

## Per property: what is modelled and how it is proved

| id | model | proof method |
|----|-------|--------------|
| C01 | `jul_day` in Z (M_Calendar) | polynomial and floor arithmetic, induction on days |
| C02 | `time_difference` over Q (M_Calendar) | from C01, field arithmetic |
| C03 | `day_in_year`, `which_pentad`, `pentad_to_month_day` (M_Calendar) | case analysis over the finite range with a completeness lemma for all integers |
| C04 | `yesterday`, month helpers (M_Calendar) | arithmetic on a linear month number |
| C05 | `year_month_gen` as a fuelled loop (M_Calendar) | a proved sufficient fuel; induction |
| C06 | `date_check` over option Z (M_Checks) | case analysis against the Gregorian calendar of S_Calendar |
| C07 | `position_check`, `time_check` over xnum | case analysis, lra |
| C08 | threshold checks over xnum, NaN included | case analysis, lra |
| C09 | standard-deviation checks over Q | field arithmetic |
| C10 | index functions over Q with floor | floor lemmas |
| C11 | MDS index functions, truncation towards zero | floor lemmas; lookups outside the range refuted |
| C12 | `bilinear_interp` over Q | convexity |
| C13 | `get_four_surrounding_points` over Q | floor lemmas |
| C14 | `fill_missing_vals` over option Q | case analysis on the 16 patterns, exact formula |
| C15 | climatology = shape + function on indices (M_Grid) | from C03, C10 |
| C16 | `winsorised_mean` on sorted lists (M_Stats) | sorting and permutation lemmas |
| C17 | trimmed mean and standard deviation (M_Stats; square root over R) | sorting and permutation lemmas |
| C18 | identifier and deck rules as boolean functions | case analysis |
| C19 | loop over the table | induction |
| C20 | `get_chunks` as a scan over a 0/1 list (M_Chunks) | loop invariant |
| C21 | chunk classification | append and prefix lemmas on C20's invariant |
| C22 | flag store as association list, keys concatenated as in the code | induction over operation sequences |
| C23 | filters over lists | induction |
| C24 | deck with index by identifier | induction over appends |
| C25 | `find_saturated_runs` scan | loop invariant against maximal runs |
| C26 | `find_repeated_values` | multiplicities of a list |
| C27 | `find_multiple_rounded_values` | counting lemmas |
| C28 | IQUAM removal loop (M_Voyage), geometry an oracle | decreasing measure and invariant |
| C29 | spike removal loop | the same |
| C30 | MDS track check (M_Track), geometry an oracle | list lemmas, one condition per interior report |
| C31 | repeated track check | induction on passes |
| C32 | modal speed, limits | histogram lemmas |
| C33 | aground checks (M_Drifter), geometry an oracle | loop invariants against a declarative window specification |
| C34 | speed checks (M_Drifter) | the same |
| C35 | SST tail check (M_Drifter) | loop invariants; greedy cut specified declaratively |
| C36 | SST bias/noise check (M_Drifter) | case analysis, list lemmas |
| C37 | super-observations as sparse grid (M_Buddy; half-width over R in M_BuddyR) | induction over added reports, permutation lemmas |
| C38 | `p_gross` over R, erf a parameter or the exact integral (M_Bayes) | real arithmetic, monotonicity of erf |
| C39 | spherical geometry over R (M_Sphere) | vectors on the sphere, trigonometric identities |
| C40 | `angle_diff` over R | periodicity |
| C41 | humidity over R (M_Hum) | monotonicity of exp, inequalities |
| C42 | IMMA reader and writer over byte strings (M_Imma, M_ImmaTables) | induction over field lists |
| C43 | templates, directories, identifier files (M_Files) | induction over strings |
| C44 | main program (M_Main): window, reading, preparation, checks, output | frames of every stage, induction over lines and months |
| C45 | day tests (M_Sun) with the elevation an argument; elevation over R (M_SunR) | calendar arithmetic; trigonometry |
| C46 | base QC (M_BaseQC) | symbolic execution of the flag store, one condition per flag |
| C47 | comparison and insertion sort (M_Report, M_Voyage) | permutation lemmas |
| C48 | `safe_filename` (M_Files) | induction over strings |
| C49 | comma separated output (M_Print) | induction over columns and rows |
| C50 | `wind_consistency` | case analysis |
| C51 | job selection of the tracking wrapper (M_Chunks) | from C20, C21 |
| C52 | report variables, time stamp (M_Report) | induction over operation sequences |
| C53 | motion fields of a voyage (M_Voyage) | induction over added reports |
| C54 | climatology files (M_ClimFile) | index arithmetic of transposed and flipped arrays |
| C55 | DS and VS codes (M_Report) | case analysis |
| C56 | longitudes and anomalies (M_Report) | floor lemmas |
| C57 | `tracking_qc.main` and the drifter methods of Voyage (M_Tracking) | a voyage as positions in the list of reports; each stage by the theorems of C33 to C36, composed because later stages touch other flags |
| C58 | `tracking_qc.main`, reading (M_Tracking), and `Voyage.write_output` (M_Print) | the csv reader as a state machine; a row of printed cells is read as those cells (induction on the characters), then cell by cell; the whole program by C05, C57 |
| C59 | `Tracking_QC_wrapper` (M_Jobs: reading of identifiers, job text) with the shell and option parser as readers, `tracking_qc.main` options | words of a line of harmless characters (induction); option parsing is insensitive to order (permutations); then C51 for which chunks |
| C60 | `marine_qc_hires.py` (M_Variants: reading, preparation, checks, output; shares M_Main) | the generic loop over the window (L_Variants) instantiated with the preparation and checks of the program |
| C61 | `marine_qc_track_only.py` (M_Variants), background fields as in M_Main | the same generic loop; invariant on the fields in memory |
| C62 | `qc.get_clim`, `get_hires_clim`, `get_clim_interpolated`, `ClimatologyLibrary`, `MultivariableClimatology` (M_ClimRep) | agreement of the two readers cell by cell, then C15; induction over additions |
| C63 | the whole of `marine_qc.main` (M_Main) with its parts | step by step from the line to the files: each step is total on what the step before hands over (L_Total to L_Total5) |
| C64 | the fixed-width output of `MarineReport` (M_Fixed) | a line as its cells one behind the other (L_Fixed); rounding by floor bounds |
| C65 | `NRT.readstr`, `SimpleIMMA.readstr`, `TestIMMA.readstr` (M_Readers) | a line cut into cells by widths is cut by columns (induction over the widths) |
| C66 | `checkload` and the loop of `write_submission` beside a queue that changes on its own (M_Queue) | an invariant over all interleavings; counting without overlap is monotone and superadditive (induction on length); well-founded induction on the jobs left for the liveness |
| C67 | `safemake`, the directories of `write_submission` (M_Queue) | direct, with the parent of a path by induction |
| C68 | the whole of `marine_qc_hires.main` and `marine_qc_track_only.main` (M_Variants) | each step is total on what the step before hands over (L_Total6, L_Total7), the conditions a weakening of those of C63 |
| C69 | The grid functions on doubles (Flocq's binary64, rounding to nearest even) in M_Float, operation by operation as Python 2 evaluates them | Each operation is shown to give the rounding of the exact result (no overflow in the range at hand); rounding is monotone and exact on whole numbers, which keeps indices in range; error bounds are added up |
| C70 | The hour and minute of a time stamp and time_difference on doubles in M_Float | The fraction of a double is a double, so the hour is exact; errors of the Julian days are at most 2^-32 each; the sign by monotonicity of rounding; whole days because all doubles between 2^21 and 2^22 are multiples of 2^-31 |
| C71 | Decoding, encoding, pvar and Python 2's round on doubles in M_Float; the tables of the attachments (M_ImmaTables) | Relative error of each operation (Flocq), so that the number before truncation is within 1/4 of a whole one; the part of a double after the point is a double, so rounding is exact |
| C72 | climatology_check and the flag for a probability on doubles in M_Float | Rounding is monotone and leaves the limit, itself a double, in place; error bound beyond it |
| C73 | winsorised_mean on doubles, operation by operation, in M_Float2 | The loop on doubles and the loop on rationals side by side, with the error after each addition bounded by a multiple of n * M * 2^-53; order: sorted permutations have the same values, and each operation depends on the values only |
| C74 | Voyage's accessors and Deck.pop with Python indices, in M_VoyageAcc | Index arithmetic; a write splits the list at its place; induction over the history of writes |
| C75 | modesp and set_speed_limits on doubles, operation by operation, in M_Float3 | Relative error of the two operations before the floor; the computed bin is the exact bin of the speed that would give the rounded value exactly; equal bins give equal histograms |
| C76 | The value and text of a double (12 significant digits) and the share comparisons in M_Float4; find_repeated_values and find_multiple_rounded_values with that text as the key | Readings in one unit are further apart than twice their rounding error and twice the error of 12 digits; a quotient of counts and a threshold which differ exactly differ by more than their errors, and equal ones round to the same double |
| C77 | Sums of doubles as binary trees, cell averages, the average of cells and the comparison with the limit in M_Float5 | Induction on the tree: each addition of two non-empty parts errs by at most 3 B u, where B bounds the sum; additions of zero are exact; the errors of the two levels and of the comparison add up |
| C78 | M_Float6.fbilinear_interp: every operation of the code as a binary64 operation, for corners that are not missing | error analysis of each product and sum by Flocq's rounding lemmas (L_Float10, L_Float12), against S_Float3.bilinear on the reals |
| C79 | M_Float6.fget_four_surrounding_points, fxindex_to_lon1, fyindex_to_lat1, flon over the doubles decoded from a report | distance of a decimal from the half degree lines exceeds the rounding error (L_Float11), composed with C78 |
| C80 | M_Float7: the checks with binary64 comparisons on decoded fields | whole and half units are decoded exactly and other readings keep their distance (L_Float11, L_Float13); the blacklist is then that of C18 |
| C81 | A disk is a map from paths to contents; writing a file (mode 'w') replaces what it held (M_Disk). A stopped run leaves each file as it was or with the beginning of something it was to write (S_Disk). The program is M_Main, the tracking control M_Tracking. | The disk at a path is fixed by the last file of that path; paths of different months lie in different directories, so filters by path of any interleaving agree; sorted lists of months are unique. A cut flag file has fewer lines or a last row with a missing or empty flag. Findings: old files are never removed, and a file of variables cut in its last line is read as whole. |
| C82 | The formulas of sunangle over the reals (M_SunR, with C45), the almanac's formulas in a separate specification (S_Almanac). | Bounds on pi from Machin's formula in the standard library. Each difference of elements is affine in time up to Lipschitz terms, so it is bounded at the ends. The elevation follows by the triangle inequality on the sphere. |
| C83 | sunangle with all its arguments and all six results over the reals (M_Sunangle.v) | the azimuth from the branch test, by the identity of the spherical triangle; a specification by the east, north and up parts of the direction (S_Sunangle.v) |
| C84 | two runs of checked_deck (M_Main.v) on different files, settings equal (S_Apart.v with_lines) | the records of the ship give its reports one by one; the reports placed back after the ship checks are a function of the ship's reports before; buddy checks only set their own flag |
| C85 | M_Float8 (trimming, mean and standard deviation on Flocq binary64; the bracketing of np.sum is a parameter) | error bounds by induction over the bracketing, with the square root's rounding from Flocq; C85_mean, C85_std, C85_std_root, C85_over, C85_constant_refuted |
| C86 | M_Float9 (the limit and its comparison, the count, the mean and deviation of a record, on Flocq binary64) | absolute error bounds for the squares of both sides, then a comparison of squares; C86_difference, C86_many, C86_biased, C86_noisy, C86_at_the_limit_refuted |

## Trusted base

* Coq 8.16.1's kernel (and `coqchk`, which re-checks the compiled files). No plugin, no native compiler,
  no kernel check switched off; `vm_compute` is used in examples and in finite case analyses.
* The axioms listed below, all of the standard library. No axiom, `Parameter`, `Variable` outside a section,
  `Admitted` or open obligation, no functor or module type is used in `rocq/theories`.
* The model itself: that each Gallina definition does what the Python function cited beside it does. This was
  checked by reading (there is no way to run the code in this sandbox) and by running the project's own unit tests on the
  model: 347 of the 372 test methods of `test_qc.py`, `test_trackqc.py`, `test_track_check.py`, `test_Extended_IMMA.py`,
  `test_YMCounter.py`, `test_BackgroundField.py` and `test_Climatology.py` are translated in the `T_*.v` files and hold of
  it (the others read NetCDF files that are not in the repository, or are about reals; each file lists those it leaves
  out). In these files the geometry, the square root and the solar elevation are computed with twenty decimals
  (`T_Num.v`). The files are written by `conformance/gen.py`. They are tests of the model, not proofs, and no theorem depends on them: each is evaluated by `vm_compute` when its file is built, and the build stops if the result is not the expected one. The simplifications are stated in the
  comments of each definition; the general ones are:
  * floats are exact rationals or reals, so nothing is claimed about rounding, except in C69 to C73 and C75 to C80, which are about
    doubles (Flocq's `BinarySingleNaN`, round to nearest even; Flocq adds no axiom of its own, what it takes from the
    standard library is in the list below); NaN and infinities are modelled only where the code tests for them
    (M_Checks, M_BaseQC);
  * the surroundings are arguments over which the theorems quantify: great-circle geometry (`sphere`), solar elevation,
    square root, error function, printing of floats, which files exist and what they hold. Theorems that need a
    property of such an argument state it as a hypothesis, and an example shows that it can be met;
  * strings are byte strings; locale, unicode and file encodings are not modelled;
  * a mutable object shared by reference is a value that is threaded through the functions; where sharing matters
    (reports of a voyage are those of the deck) the new values are put back explicitly (M_Main `put_back`);
  * text printed on the terminal, timing and memory are not modelled.

### Axioms, theorem by theorem

As listed by `Print Assumptions` (the last column of P_*.v repeats it in the build log).
Every theorem of `MANIFEST.json` not named below is *closed under the global context*: no axiom at all.

* {`functional_extensionality_dep`, `sig_forall_dec`}: `C38_gross`, `C41_specific`, `C41_specific_back`, `C45_time`, `C45_time_refuted`, `C76_digits`.
* {`functional_extensionality_dep`, `sig_forall_dec`, `sig_not_dec`}: `C17_std_untrimmed`, `C17_std_value`, `C38_prior`, `C38_probability`, `C38_refuses`, `C38_saturation_refuted`, `C40_negative_refuted`, `C40_smallest`, `C40_symmetric`, `C41_formulas`, `C41_missing`, `C41_one_value`, `C41_report`, `C41_report_missing`, `C41_report_names`, `C41_saturated`, `C41_wet_bulb`, `C44_humidity`, `C63_humidity`.
* {`classic`, `functional_extensionality_dep`, `sig_forall_dec`, `sig_not_dec`}: `C37_double_count_refuted`, `C37_own_cell_refuted`, `C37_reach`, `C37_reach_bounds`, `C38_bayes`, `C38_distance`, `C38_distributions`, `C38_good`, `C39_central_angle`, `C39_course`, `C39_course_special`, `C39_destination`, `C39_destination_range_refuted`, `C39_equator`, `C39_half_circumference`, `C39_intermediate`, `C39_intermediate_accepts`, `C39_longitudes`, `C39_meridian`, `C39_predict`, `C39_round_trip`, `C39_second_formula_refuted`, `C39_symmetric`, `C39_triangle`, `C39_zero`, `C41_dew_point`, `C41_increasing`, `C41_increasing_refuted`, `C41_relative_humidity`, `C41_relative_humidity_refuted`, `C41_supersaturated`, `C45_day_test_sun`, `C45_declination`, `C45_elevation`, `C45_longitude_turn`, `C45_pole`, `C63_gross`, `C69_border_refuted`, `C69_climatology`, `C69_column`, `C69_fine_column`, `C69_fine_row`, `C69_mds_column`, `C69_mds_exact`, `C69_mds_row`, `C69_row`, `C69_row_refuted`, `C69_rows_refuted`, `C70_difference`, `C70_hours`, `C70_hundredths`, `C70_instant_refuted`, `C70_minute`, `C70_minute_refuted`, `C70_sign`, `C70_whole_days`, `C70_whole_hours`, `C71_encode`, `C71_fields`, `C71_output`, `C71_round`, `C72_beyond`, `C72_decimal_refuted`, `C72_flag`, `C72_within`, `C73_bounded_refuted`, `C73_close`, `C73_order`, `C75_border`, `C75_limits`, `C75_modal`, `C75_modal_clear`, `C75_short`, `C76_equal`, `C76_nearest_refuted`, `C76_repeated`, `C76_rounded`, `C76_share`, `C76_text`, `C76_whole`, `C77_buddy`, `C77_cell`, `C77_count`, `C77_flag`, `C77_order_refuted`, `C77_sum`, `C78_between`, `C78_close`, `C78_constant_refuted`, `C78_corner`, `C78_raises`, `C79_interpolated`, `C79_north_refuted`, `C79_points`, `C79_south_refuted`, `C79_west_refuted`, `C80_blacklist`, `C80_freezing`, `C80_limits`, `C80_limits_refuted`, `C80_position`, `C80_regions`, `C80_supersaturation`, `C80_time`, `C80_wind`, `C82_day_early_refuted`, `C82_day_test`, `C82_elevation`, `C82_equinox_refuted`, `C82_leap_years`, `C82_longitude`, `C82_obliquity`, `C83_azimuth`, `C83_azimuth_south_refuted`, `C83_equator_refuted`, `C83_rejects`, `C83_results`, `C83_zenith_refuted`, `C85_constant_refuted`, `C85_mean`, `C85_over`, `C85_std`, `C85_std_root`, `C85_window`, `C86_at_the_limit_refuted`, `C86_biased`, `C86_difference`, `C86_many`, `C86_noisy`.

All four are axioms of the Coq standard library: the first two and functional extensionality come with `Reals`
(`Coq.Reals.ClassicalDedekindReals`, `Coq.Logic.FunctionalExtensionality`), `classic` is `Coq.Logic.Classical_Prop`
(used by Coquelicot and by the library's trigonometry). None is declared here.

### Parts of the code that are modelled

For every source file of `/repo`, the functions and the model files whose comments cite them.

* `BackgroundField.py` (9 of 9 functions)
  * M_Files: `process_bad_id_file`, `build_completions`, `safe_make_dir`, `icoads_filename_from_stub`, `icoads_filename`, `process_string`, `make_filename`, `get_background_filename`
  * M_Files, M_Tracking: `safe_make_dir_generic`
* `CalcHums.py` (8 of 8 functions)
  * M_Hum: `vap`, `vap_from_sh`, `sh`, `sh_from_vap`, `rh`, `wb`, `dpd`, `td_from_vap`
* `Climatology.py` (7 of 7 functions)
  * M_Grid: `Climatology.__init__`, `Climatology.get_tindex`, `Climatology.get_value_ostia`, `Climatology.get_value_mds_style`, `Climatology.get_value`, `Climatology.get_interpolated_value`
  * M_ClimFile: `Climatology.from_filename`
* `Extended_IMMA.py` (125 of 129 functions)
  * M_Files: `safe_filename`
  * M_Print: `datestring`, `tostring`, `MarineReport.print_variable_block`, `MarineReport.print_qc_block`
  * M_Fixed, M_Float: `pvar`
  * M_ClimRep, M_Stats: `get_threshold_multiplier`
  * M_ClimRep: `MultivariableClimatology.__init__`, `MultivariableClimatology.add_statistic`, `MultivariableClimatology.get_statistic`, `ClimatologyLibrary.__init__`, `ClimatologyLibrary.add_field`
  * M_ClimRep, M_Report: `ClimatologyLibrary.get_field`, `QC_filter.__init__`
  * M_Report: `QC_filter.add_qc_filter`, `QC_filter.test_report`, `QC_filter.split_reports`, `ClimVariable.__init__`, `ClimVariable.getclim`, `ClimVariable.setclim`, `MarineReport.lat`, `MarineReport.calculate_dsi_vsi`, `MarineReport.__eq__`, `MarineReport.__gt__`, `MarineReport.__ge__`, `MarineReport.__le__`, `MarineReport.add_climate_variable`, `MarineReport.getnorm`, `MarineReport.getanom`, `MarineReport.get_normalised_anom`, `MarineReport.getext`, `MarineReport.setext`, `MarineReport.setvar`, `MarineReport.getvar`, `MarineReport.set_qc`, `MarineReport.get_qc`, `MarineReport.saturated`, `Np_Super_Ob.get_buddy_stdev`, `Deck.__init__`, `Deck.__len__`, `Deck.append`, `Deck.sort`, `Deck.index_by_id`, `Deck.set_qc`, `Deck.add_filter`
  * M_Main, M_Report, M_Tracking: `MarineReport.__init__`
  * M_Checks, M_Float6, M_Report: `MarineReport.lon`
  * M_Hum: `MarineReport.calculate_humidity_variables`
  * M_Fixed: `MarineReport.reset_ext`, `MarineReport.printvar`, `MarineReport.printsim`, `MarineReport.print_longform_report`, `MarineReport.print_report`
  * M_Float, M_Report: `MarineReport.calculate_dt`
  * M_Sphere, M_Voyage: `MarineReport.__sub__`
  * M_BaseQC: `MarineReportQC.perform_base_qc`, `MarineReportQC.perform_base_wind_qc`, `MarineReportQC.perform_base_dat_qc`, `MarineReportQC.perform_base_slp_qc`, `MarineReportQC.perform_base_sst_qc`, `MarineReportQC.do_fix_missing_hour`, `MarineReportQC.do_position_check`, `MarineReportQC.do_date_check`, `MarineReportQC.do_time_check`, `MarineReportQC.do_day_check`, `MarineReportQC.do_blacklist`, `MarineReportQC.do_base_wind_qc`, `MarineReportQC.do_base_slp_qc`, `MarineReportQC.do_base_sst_qc`, `MarineReportQC.do_base_mat_qc`, `MarineReportQC.do_base_dat_qc`, `MarineReportQC.do_kate_mat_qc`, `MarineReportQC.do_base_dpt_qc`, `MarineReportQC.is_deck_780`, `MarineReportQC.wind_blacklist`, `MarineReportQC.humidity_blacklist`, `MarineReportQC.is_buoy`, `MarineReportQC.is_ship`
  * M_BaseQC, M_Float7: `MarineReportQC.mat_blacklist`
  * M_VoyageAcc: `Voyage.__init__`, `Voyage.__len__`, `Voyage.rep_feed`, `Voyage.getrep`, `Voyage.last_rep`, `Voyage.setvar`, `Voyage.getvar`, `Voyage.get_qc`
  * M_Voyage, M_VoyageAcc: `Voyage.set_qc`
  * M_Voyage: `Voyage.add_report`, `Voyage.find_saturated_runs`, `Voyage.iquam_track_check`, `Voyage.spike_check`
  * M_Tracking, M_Voyage: `Voyage.sort`
  * M_Track: `Voyage.get_speed`, `Voyage.meansp`, `Voyage.calc_alternate_speeds`, `Voyage.distr1`, `Voyage.distr2`, `Voyage.midpt`, `Voyage.track_check`
  * M_Float4, M_Voyage: `Voyage.find_multiple_rounded_values`, `Voyage.find_repeated_values`
  * M_Sphere: `Voyage.predict_next_point`
  * M_Tracking: `Voyage.buoy_aground_check`, `Voyage.new_buoy_aground_check`, `Voyage.buoy_speed_check`, `Voyage.new_buoy_speed_check`, `Voyage.buoy_tail_check`, `Voyage.buoy_bias_noise_check`
  * M_Disk, M_Print: `Voyage.write_qc`, `Voyage.write_tracking_output`, `Voyage.write_output`, `Deck.write_qc`, `Deck.write_output`, `Deck.write_min_output`
  * M_Float5: `Np_Super_Ob.__init__`, `Np_Super_Ob.take_average`
  * M_Buddy: `Np_Super_Ob.add_rep`, `Np_Super_Ob.get_new_buddy_limits`
  * M_Buddy, M_BuddyR: `Np_Super_Ob.get_neighbour_anomalies`
  * M_Buddy, M_Float5: `Np_Super_Ob.get_buddy_limits_with_parameters`, `Deck.mds_buddy_check`
  * M_Report, M_VoyageAcc: `Deck.pop`
  * M_Buddy, M_Float: `Deck.bayesian_buddy_check`
  * M_Main, M_Report: `Deck.get_one_platform_at_a_time`
* `IMMA1.py` (9 of 14 functions)
  * M_Imma: `IMMA.readstr`, `IMMA.write`, `getAttachment`, `getParameters`, `getDefinitions`, `decode_base36`
  * M_Float, M_Imma: `IMMA.decode`, `IMMA.encode`
  * M_Imma, M_ImmaTables: `encode_base36`
* `NRT.py` (1 of 4 functions)
  * M_Readers: `NRT.readstr`
* `SimpleIMMA.py` (3 of 4 functions)
  * M_Readers: `trint`, `trfloat`, `IMMA.readstr`
* `TestIMMA.py` (2 of 4 functions)
  * M_Readers: `IMMA.__init__`, `IMMA.readstr`
* `Tracking_QC_wrapper.py` (5 of 5 functions)
  * M_Jobs: `safe_dir`
  * M_Queue: `checkload`, `safemake`
  * M_Jobs, M_Queue: `write_submission`
  * M_Chunks, M_Jobs, M_Queue: `main`
* `YMCounter.py` (5 of 5 functions)
  * M_Chunks: `YMCounter.__init__`, `YMCounter.setym`, `YMCounter.get_chunks`, `YMCounter.index`, `YMCounter.yield_start_and_end_dates`
* `marine_qc.py` (1 of 1 functions)
  * M_Disk, M_Main: `main`
* `marine_qc_hires.py` (1 of 1 functions)
  * M_Variants: `main`
* `marine_qc_track_only.py` (1 of 1 functions)
  * M_Variants: `main`
* `qc.py` (53 of 54 functions)
  * M_Calendar: `month_match`, `yesterday`, `season`, `pentad_to_month_day`, `which_pentad`, `day_in_year`, `date_check`, `dayinyear`, `jul_day`, `last_month_was`, `next_month_is`, `year_month_gen`, `get_month_lengths`
  * M_Grid: `get_hires_sst`, `get_sst_daily`, `get_sst`, `missing_mean`, `fill_missing_vals`, `get_sst_single_field`
  * M_ClimRep: `get_hires_clim`, `get_clim_interpolated`, `get_clim`
  * M_Float6, M_Grid: `bilinear_interp`, `get_four_surrounding_points`, `yindex_to_lat`, `xindex_to_lon`
  * M_Checks, M_Float7: `blacklist`, `hard_limit`, `supersat_check`, `sst_freeze_check`, `position_check`, `time_check`, `wind_consistency`
  * M_BaseQC, M_Checks: `climatology_plus_stdev_with_lowbar`, `climatology_plus_stdev_check`
  * M_Checks, M_Float: `climatology_check`
  * M_Checks: `value_check`, `no_normal_check`, `id_is_generic`
  * M_Bayes: `p_data_given_good`, `p_data_given_gross`, `p_gross`
  * M_Sphere: `angle_diff`
  * M_Sun, M_SunR, M_Sunangle: `sunangle`
  * M_Sun: `day_test`
  * M_Calendar, M_Float: `time_difference`
  * M_Float2, M_Stats: `winsorised_mean`
  * M_Float8, M_Stats: `trimmed_mean`
  * M_Float, M_Grid: `mds_lat_to_yindex`, `lat_to_yindex`, `mds_lon_to_xindex`, `lon_to_xindex`
  * M_BaseQC, M_Float7: `base_qc_report`
* `spherical_geometry.py` (5 of 5 functions)
  * M_Sphere: `sphere_distance`, `angular_distance`, `lat_lon_from_course_and_distance`, `course_between_points`, `intermediate_point`
* `track_check.py` (11 of 11 functions)
  * M_Float3, M_Track: `modesp`, `set_speed_limits`
  * M_Track: `increment_position`, `distr1`, `distr2`, `midpt`, `direction_continuity`, `speed_continuity`, `check_distance_from_estimate`, `mds_track_check`, `mds_full_track_check`
* `tracking_qc.py` (4 of 4 functions)
  * M_Tracking: `EasyImma.__init__`, `safe_make_tracking_dir`, `safe_make_edge_dir`
  * M_Jobs, M_Tracking: `main`
* `trackqc.py` (9 of 9 functions)
  * M_Sun: `track_day_test`
  * M_Float8, M_Stats: `trim_mean`, `trim_std`
  * M_Drifter: `aground_check`, `new_aground_check`, `speed_check`, `new_speed_check`
  * M_Drifter, M_Float8, M_Float9: `sst_tail_check`
  * M_Drifter, M_Float9: `sst_biased_noisy_check`

### Parts of the code that are not modelled

* `Extended_IMMA.py`: `MarineReportQC.do_fix_deck201_zero_hour`, `Voyage.find_matching_value_runs`, `Np_Super_Ob.get_buddy_limits`, `Np_Super_Ob.get_buddy_mean`
* `IMMA1.py`: `IMMA.__init__`, `IMMA.__getitem__`, `IMMA.__setitem__`, `IMMA.read`, `read`
* `NRT.py`: `NRT.__init__`, `NRT.__getitem__`, `NRT.__setitem__`
* `SimpleIMMA.py`: `IMMA.__init__`
* `TestIMMA.py`: `trint`, `trfloat`
* `qc.py`: `imma1_record_to_marine_rep`
* argument parsing by `argparse`/`ConfigParser`, what `squeue` and `sbatch` do (C66 takes the text of `squeue` and the acceptance of a job as arbitrary); NetCDF reading below the arrays it returns.
* the unit tests of the repository (`test_*.py`).
* `printsim` of `Extended_IMMA.py`, which nothing calls; `do_fix_deck201_zero_hour` and `find_matching_value_runs`, which have no effect; the one-line accessors of `IMMA` and `Np_Super_Ob`.
* `qc.imma1_record_to_marine_rep`, which nothing can run: it names a class that is not imported.
* `IMMA.read` and `read` of `IMMA1.py`, which hand the next line of a file to `readstr` (modelled).
* NUL bytes, which Python 2's csv reader refuses, are not told apart from other characters in the model of that reader.

## Findings

Where the plain reading of a property is false of the code, a theorem ending in `_refuted` says so, with a concrete input.

* C02: `C02_sign_without_valid_dates_refuted`
* C04: `C04_season_zero_refuted`
* C05: `C05_termination_refuted`
* C06: `C06_bad_month_fails_refuted`
* C07: `C07_nan_hour_fails_refuted`
* C08: `C08_nan_fails_climatology_refuted`
* C09: `C09_stdev_nan_fails_refuted`
* C11: `C11_mds_lon_above_180_refuted`
* C13: `C13_degenerate_at_895S_refuted`
* C15: `C15_mds_style_above_180_refuted`, `C15_interpolated_895S_refuted`, `C15_interpolated_fine_grid_refuted`, `C15_get_sst_daily_above_180_refuted`
* C16: `C16_integer_list_refuted`
* C17: `C17_nothing_left_refuted`
* C20: `C20_large_gap_refuted`
* C22: `C22_distinct_flags_refuted`
* C24: `C24_sort_refuted`, `C24_pop_refuted`
* C27: `C27_negative_count_refuted`
* C30: `C30_unsorted_refuted`, `C30_one_flag_each_refuted`
* C32: `C32_middle_limit_refuted`
* C34: `C34_zero_window_refuted`
* C37: `C37_double_count_refuted`, `C37_own_cell_refuted`, `C37_missing_anomaly_refuted`, `C37_pole_refuted`
* C38: `C38_saturation_refuted`
* C39: `C39_destination_range_refuted`, `C39_second_formula_refuted`
* C40: `C40_negative_refuted`
* C41: `C41_increasing_refuted`, `C41_relative_humidity_refuted`
* C42: `C42_base36_refuted`, `C42_negative_refuted`, `C42_latitude_refuted`, `C42_attachments_refuted`, `C42_nu_refuted`
* C43: `C43_distinct_refuted`, `C43_directories_refuted`, `C43_excluded_refuted`, `C43_background_refuted`, `C43_background_plain_refuted`
* C44: `C44_blank_line_refuted`, `C44_unreadable_refuted`, `C44_no_position_refuted`, `C44_empty_refuted`, `C44_background_refuted`
* C45: `C45_hour_24_refuted`, `C45_time_refuted`
* C46: `C46_humidity_limits_refuted`, `C46_at2_limits_refuted`, `C46_dat_refuted`, `C46_old_disagrees_refuted`
* C47: `C47_missing_time_refuted`
* C48: `C48_safe_refuted`
* C49: `C49_no_columns_refuted`, `C49_no_uid_refuted`, `C49_empty_deck_refuted`, `C49_voyage_name_refuted`, `C49_comma_refuted`
* C51: `C51_noend_refuted`
* C52: `C52_month_stamp_refuted`
* C53: `C53_first_after_sort_refuted`
* C54: `C54_coarse_refuted`, `C54_levels_refuted`
* C56: `C56_zero_stdev_refuted`
* C57: `C57_same_minute_refuted`, `C57_no_position_refuted`
* C58: `C58_unsafe_id_refuted`, `C58_quote_refuted`
* C59: `C59_blank_inside_refuted`, `C59_comma_refuted`, `C59_same_file_refuted`
* C60: `C60_blank_line_refuted`, `C60_spike_refuted`, `C60_empty_refuted`
* C61: `C61_no_output_refuted`, `C61_blank_line_refuted`
* C62: `C62_single_field_refuted`
* C63: `C63_hour_refuted`
* C64: `C64_identifier_refuted`
* C66: `C66_other_user_refuted`, `C66_refused_refuted`, `C66_others_counted_refuted`
* C68: `C68_hour_refuted`
* C69: `C69_rows_refuted`, `C69_row_refuted`, `C69_border_refuted`
* C70: `C70_minute_refuted`, `C70_instant_refuted`
* C72: `C72_decimal_refuted`
* C73: `C73_bounded_refuted`
* C74: `C74_pop_index_refuted`
* C76: `C76_nearest_refuted`
* C77: `C77_order_refuted`
* C78: `C78_constant_refuted`
* C79: `C79_south_refuted`, `C79_west_refuted`, `C79_north_refuted`
* C80: `C80_limits_refuted`
* C81: `C81_stale_refuted`, `C81_cut_variables_refuted`
* C82: `C82_day_early_refuted`, `C82_equinox_refuted`
* C83: `C83_azimuth_south_refuted`, `C83_equator_refuted`, `C83_zenith_refuted`
* C84: `C84_background_refuted`
* C85: `C85_constant_refuted`
* C86: `C86_at_the_limit_refuted`
