{
 "claims": [
  {
   "property": "C04",
   "status": "proved",
   "theorems": [
    "C04_kwargs",
    "C04_none_rejected"
   ],
   "note": ""
  },
  {
   "property": "C06",
   "status": "proved",
   "theorems": [
    "C06_exact_on_quartics",
    "C06_shape_and_errors",
    "C06_linear"
   ],
   "note": ""
  },
  {
   "property": "C07",
   "status": "proved",
   "theorems": [
    "C07_parabola_exact",
    "C07_equivariant",
    "C07_window_inside"
   ],
   "note": ""
  },
  {
   "property": "C08",
   "status": "proved",
   "theorems": [
    "C08_both_kinds",
    "C08_monotonic_values",
    "C08_no_silent_extrapolation",
    "C08_in_range_returns",
    "C08_outside_raises",
    "C08_rejects",
    "C08_monotonic_spline_nan_refuted"
   ],
   "note": "Finding: the monotonic interpolator returns nan within 1e-10 outside the data."
  },
  {
   "property": "C09",
   "status": "proved",
   "theorems": [
    "C09_C10_history_independent",
    "C09_user_ext_lost_refuted"
   ],
   "note": ""
  },
  {
   "property": "C10",
   "status": "proved",
   "theorems": [
    "C09_C10_history_independent",
    "C10_k_never_changes",
    "C10_two_points_needed"
   ],
   "note": ""
  },
  {
   "property": "C11",
   "status": "proved",
   "theorems": [
    "C11_contiguous",
    "C11_C12_good_extrema",
    "C11_empty_raises"
   ],
   "note": ""
  },
  {
   "property": "C12",
   "status": "proved",
   "theorems": [
    "C11_C12_good_extrema",
    "C12_fixed_point"
   ],
   "note": ""
  },
  {
   "property": "C13",
   "status": "proved",
   "theorems": [
    "C13_jumps",
    "C13_unchanged",
    "C13_end_clean",
    "C13_start_jump_survives"
   ],
   "note": "Finding: the docstring claims the start is cleaned as well; the too-wide gap there always survives."
  },
  {
   "property": "C14",
   "status": "proved",
   "theorems": [
    "C14_too_close",
    "C14_unchanged",
    "C14_end_clean",
    "C14_start_pair_survives"
   ],
   "note": "Finding: at the start the close pair always survives."
  },
  {
   "property": "C15",
   "status": "proved",
   "theorems": [
    "C15_midpoints"
   ],
   "note": ""
  },
  {
   "property": "C21",
   "status": "proved",
   "theorems": [
    "C21_range_and_sign",
    "C21_increasing_in_ratio"
   ],
   "note": ""
  },
  {
   "property": "C22",
   "status": "proved",
   "theorems": [
    "C22_newtonian_orbit",
    "C22_frequencies_exist"
   ],
   "note": ""
  },
  {
   "property": "C23",
   "status": "proved",
   "theorems": [
    "C23_scale_free"
   ],
   "note": ""
  },
  {
   "property": "C37",
   "status": "proved",
   "theorems": [
    "C37_reduced_degrees",
    "C37_terminates"
   ],
   "note": ""
  },
  {
   "property": "C38",
   "status": "proved",
   "theorems": [
    "C38_search_result",
    "C38_terminates"
   ],
   "note": ""
  },
  {
   "property": "C39",
   "status": "proved",
   "theorems": [
    "C39_best_iterate",
    "C39_no_iterate"
   ],
   "note": ""
  },
  {
   "property": "C05",
   "status": "proved",
   "theorems": [
    "C05_levels_agree",
    "C05_or_raises",
    "C05_call_levels",
    "C05_call_success"
   ],
   "note": "The extrema finder is an oracle taken not to depend on the level."
  },
  {
   "property": "C16",
   "status": "proved",
   "theorems": [
    "C16_tref_out"
   ],
   "note": ""
  },
  {
   "property": "C17",
   "status": "proved",
   "theorems": [
    "C17_shape"
   ],
   "note": ""
  },
  {
   "property": "C18",
   "status": "proved",
   "theorems": [
    "C18_no_extrapolation"
   ],
   "note": ""
  },
  {
   "property": "C19",
   "status": "proved",
   "theorems": [
    "C19_out_of_range"
   ],
   "note": ""
  },
  {
   "property": "C20",
   "status": "proved",
   "theorems": [
    "C20_only_when_asked",
    "C20_few_extrema"
   ],
   "note": ""
  },
  {
   "property": "C24",
   "status": "proved",
   "theorems": [
    "C24_reported",
    "C24_range_and_zeros",
    "C24_grows"
   ],
   "note": ""
  },
  {
   "property": "C25",
   "status": "proved",
   "theorems": [
    "C25_affine"
   ],
   "note": ""
  },
  {
   "property": "C26",
   "status": "proved",
   "theorems": [
    "C26_fref_out",
    "C26_times",
    "C26_upper_bound_refuted"
   ],
   "note": "The documented inclusive upper bound is refuted."
  },
  {
   "property": "C27",
   "status": "proved",
   "theorems": [
    "C27_increasing",
    "C27_check"
   ],
   "note": ""
  },
  {
   "property": "C28",
   "status": "proved",
   "theorems": [
    "C28_value",
    "C28_between",
    "C28_midpoints",
    "C28_merge"
   ],
   "note": ""
  },
  {
   "property": "C29",
   "status": "proved",
   "theorems": [
    "C29_bounds_stay",
    "C29_accepted",
    "C29_freq_stay",
    "C29_freq_accepted",
    "C29_rational_refuted"
   ],
   "note": "Finding: with rational fits and reference frequencies a second measurement can change the bounds."
  },
  {
   "property": "C32",
   "status": "proved",
   "theorems": [
    "C32_same_object",
    "C32_time_history",
    "C32_freq_history",
    "C32_rational_refuted",
    "C32_same_dictionary",
    "C32_second_call_rejected",
    "C32_omegalm_second",
    "C32_call_repeated"
   ],
   "note": "Findings: two situations where a second call with the same dataDict raises, and one where a second measurement differs."
  },
  {
   "property": "C35",
   "status": "proved",
   "theorems": [
    "C35_segment",
    "C35_covers",
    "C35_total",
    "C35_last_sample_refuted",
    "C35_off",
    "C35_short_data",
    "C35_long_data",
    "C35_frequency_reference",
    "C35_frequency_sample",
    "C35_frequency_bounds"
   ],
   "note": "C35_last_sample_refuted: a reference at the last sample lies outside its own segment."
  },
  {
   "property": "C63",
   "status": "proved",
   "theorems": [
    "C63_bounds_infeasible_after_zero",
    "C63_bounds_feasible_before_zero"
   ],
   "note": ""
  },
  {
   "property": "C64",
   "status": "proved",
   "theorems": [
    "C64_warnings",
    "C64_important",
    "C64_level_0",
    "C64_level_minus_1",
    "C64_silent_refuted"
   ],
   "note": "The eccentricity slope is an oracle on the sampled curve; warning texts are abbreviated."
  },
  {
   "property": "C65",
   "status": "proved",
   "theorems": [
    "C65_extrema_used"
   ],
   "note": ""
  },
  {
   "property": "C66",
   "status": "proved",
   "theorems": [
    "C66_average_used"
   ],
   "note": ""
  },
  {
   "property": "C03",
   "status": "proved",
   "theorems": [
    "C03_rejected",
    "C03_accepted",
    "C03_no_time"
   ],
   "note": "Missing t with a change of frame raises, but not always Exception."
  },
  {
   "property": "C30",
   "status": "proved",
   "theorems": [
    "C30_cut",
    "C30_equal_lengths",
    "C30_negative",
    "C30_too_many"
   ],
   "note": ""
  },
  {
   "property": "C31",
   "status": "proved",
   "theorems": [
    "C31_unchanged",
    "C31_omegalm_shortened",
    "C31_hlm_added"
   ],
   "note": "About the dictionaries; the in-place shift of the time array by the fit methods is C41."
  },
  {
   "property": "C33",
   "status": "proved",
   "theorems": [
    "C33_data_used",
    "C33_symmetric_data",
    "C33_symmetric"
   ],
   "note": ""
  },
  {
   "property": "C34",
   "status": "proved",
   "theorems": [
    "C34_width",
    "C34_retimed"
   ],
   "note": ""
  },
  {
   "property": "C60",
   "status": "proved",
   "theorems": [
    "C60_total",
    "C60_succeeds",
    "C60_order",
    "C60_other_kind"
   ],
   "note": "numpy's square root is an arbitrary function applied to the exact sum; the bounds are about the exact root of that sum."
  },
  {
   "property": "C01",
   "status": "proved",
   "theorems": [
    "C01_both_or_neither",
    "C01_exactly_one",
    "C01_scalar"
   ],
   "note": ""
  },
  {
   "property": "C02",
   "status": "proved",
   "theorems": [
    "C02_rejected",
    "C02_result"
   ],
   "note": ""
  },
  {
   "property": "C36",
   "status": "proved",
   "theorems": [
    "C36_residual",
    "C36_vanishing"
   ],
   "note": "Vanishing residuals: non-precessing data without truncation, with any spline that goes through its points."
  },
  {
   "property": "C61",
   "status": "proved",
   "theorems": [
    "C61_needs_zeroecc",
    "C61_exception",
    "C61_ignored",
    "C61_filter",
    "C61_incomplete"
   ],
   "note": "The other methods return the same numbers without the zeroecc entries. Assumed for precessing data in the inertial frame with amplm_zeroecc: a complex number is given back exactly by modulus and phase. Measuring at a reference frequency with omega_gw_zeroecc averages is excepted. C61_incomplete (a finding): zeroecc amplitudes and frequencies without t_zeroecc are refused by every method."
  },
  {
   "property": "C67",
   "status": "proved",
   "theorems": [
    "C67_frame"
   ],
   "note": ""
  },
  {
   "property": "C68",
   "status": "proved",
   "theorems": [
    "C68_rejected",
    "C68_accepted"
   ],
   "note": ""
  },
  {
   "property": "C69",
   "status": "proved",
   "theorems": [
    "C69_options_known",
    "C69_interpolation_known"
   ],
   "note": ""
  },
  {
   "property": "C70",
   "status": "proved",
   "theorems": [
    "C70_omitted"
   ],
   "note": ""
  },
  {
   "property": "C71",
   "status": "proved",
   "theorems": [
    "C71_unchanged",
    "C71_filter_completed"
   ],
   "note": ""
  },
  {
   "property": "C72",
   "status": "proved",
   "theorems": [
    "C72_warned",
    "C72_refused"
   ],
   "note": ""
  },
  {
   "property": "C47",
   "status": "proved",
   "theorems": [
    "C47_results",
    "C47_determined",
    "C47_raises_only",
    "C47_summary",
    "C47_summary_raises",
    "C47_repeated_label_refuted"
   ],
   "note": ""
  },
  {
   "property": "C48",
   "status": "proved",
   "theorems": [
    "C48_same_table"
   ],
   "note": ""
  },
  {
   "property": "C49",
   "status": "proved",
   "theorems": [
    "C49_once",
    "C49_every_moment",
    "C49_terminates",
    "C49_batch_zero"
   ],
   "note": ""
  },
  {
   "property": "C50",
   "status": "proved",
   "theorems": [
    "C50_resume",
    "C50_torn_refuted"
   ],
   "note": "checkpoint writes are atomic in the model; C50_torn_refuted shows what a torn file does"
  },
  {
   "property": "C51",
   "status": "proved",
   "theorems": [
    "C51_contents",
    "C51_lag",
    "C51_serial_lag"
   ],
   "note": ""
  },
  {
   "property": "C52",
   "status": "proved",
   "theorems": [
    "C52_serial_repeats",
    "C52_agree"
   ],
   "note": ""
  },
  {
   "property": "C53",
   "status": "proved",
   "theorems": [
    "C53_common",
    "C53_inside",
    "C53_none",
    "C53_results",
    "C53_raises_only",
    "C53_collected"
   ],
   "note": ""
  },
  {
   "property": "C54",
   "status": "proved",
   "theorems": [
    "C54_accepted",
    "C54_rejected"
   ],
   "note": "ASCII strings"
  },
  {
   "property": "C55",
   "status": "proved",
   "theorems": [
    "C55_nothing",
    "C55_empty"
   ],
   "note": ""
  },
  {
   "property": "C40",
   "status": "proved",
   "theorems": [
    "C40_terminates",
    "C40_returned",
    "C40_short",
    "C40_no_index_error",
    "C40_single_orbit_refuted"
   ],
   "note": "The peak finder, the fits and the evaluation of the envelope are arbitrary functions; printing, plots and diagnostic data are left out."
  },
  {
   "property": "C41",
   "status": "proved",
   "theorems": [
    "C41_times"
   ],
   "note": "Times are exact rationals: that the restored floats are bitwise the original ones is not claimed."
  },
  {
   "property": "C42",
   "status": "proved",
   "theorems": [
    "C42_centre",
    "C42_reaches",
    "C42_increasing",
    "C42_secular",
    "C42_beyond",
    "C42_inside"
   ],
   "note": "Over the reals, for times before T."
  },
  {
   "property": "C73",
   "status": "proved",
   "theorems": [
    "C73_options"
   ],
   "note": "The default width of the peak finder is C34."
  },
  {
   "property": "C43",
   "status": "proved",
   "theorems": [
    "C43_real",
    "C43_continuous",
    "C43_used"
   ],
   "note": "Over the reals with the real cosine, and for the rational mask that the filter model uses with any cosine-like function."
  },
  {
   "property": "C44",
   "status": "proved",
   "theorems": [
    "C44_recombined",
    "C44_between",
    "C44_range"
   ],
   "note": "Windows are any non-negative arrays of the requested length."
  },
  {
   "property": "C45",
   "status": "proved",
   "theorems": [
    "C45_contract",
    "C45_same",
    "C45_same_refuted"
   ],
   "note": "Plots and debug output are left out."
  },
  {
   "property": "C46",
   "status": "proved",
   "theorems": [
    "C46_sweep",
    "C46_terminates",
    "C46_alpha_zero",
    "C46_everywhere"
   ],
   "note": "The interpolated spacing of crossings is an arbitrary function."
  },
  {
   "property": "C62",
   "status": "proved",
   "theorems": [
    "C62_crossings",
    "C62_few",
    "C62_enough",
    "C62_twice"
   ],
   "note": ""
  },
  {
   "property": "C74",
   "status": "proved",
   "theorems": [
    "C74_cutoff",
    "C74_order"
   ],
   "note": ""
  },
  {
   "property": "C75",
   "status": "proved",
   "theorems": [
    "C75_segment"
   ],
   "note": "Trend fit, Fourier transforms and windows are arbitrary functions."
  },
  {
   "property": "C76",
   "status": "proved",
   "theorems": [
    "C76_symmetric",
    "C76_mirror",
    "C76_merged",
    "C76_measured",
    "C76_padding",
    "C76_taper"
   ],
   "note": ""
  },
  {
   "property": "C77",
   "status": "proved",
   "theorems": [
    "C77_measured"
   ],
   "note": ""
  },
  {
   "property": "C56",
   "status": "proved",
   "theorems": [
    "C56_window",
    "C56_raises",
    "C56_self",
    "C56_symmetric",
    "C56_disjoint",
    "C56_turns",
    "C56_turns_refuted"
   ],
   "note": "Scalars count as arrays of one element."
  },
  {
   "property": "C57",
   "status": "proved",
   "theorems": [
    "C57_raises"
   ],
   "note": "The code after the constructor is an arbitrary function: it is never reached."
  },
  {
   "property": "C58",
   "status": "proved",
   "theorems": [
    "C58_columns",
    "C58_round_trip",
    "C58_missing",
    "C58_no_22",
    "C58_small",
    "C58_rotation"
   ],
   "note": "The order of modes inside scri is taken from its documentation."
  },
  {
   "property": "C59",
   "status": "proved",
   "theorems": [
    "C59_aligned",
    "C59_total",
    "C59_dropped",
    "C59_none",
    "C59_beyond",
    "C59_horizons"
   ],
   "note": "The phase of a mode and the orbital phase of the black holes are arbitrary functions."
  },
  {
   "property": "C78",
   "status": "proved",
   "theorems": [
    "C78_published",
    "C78_origins",
    "C78_unknown_keyword",
    "C78_defaults",
    "C78_order",
    "C78_required_lal",
    "C78_required_path"
   ],
   "note": "Keywords are strings with values; Python's own argument errors are left out."
  },
  {
   "property": "C79",
   "status": "proved",
   "theorems": [
    "C79_mean_anomaly"
   ],
   "note": "Finding."
  },
  {
   "property": "C80",
   "status": "proved",
   "theorems": [
    "C80_shape",
    "C80_call"
   ],
   "note": "The waveform library is an arbitrary function."
  },
  {
   "property": "C81",
   "status": "proved",
   "theorems": [
    "C81_counterpart",
    "C81_ends"
   ],
   "note": "While-loop with fuel; C81_ends gives the number of turns."
  },
  {
   "property": "C82",
   "status": "proved",
   "theorems": [
    "C82_refused",
    "C82_small",
    "C82_precessing"
   ],
   "note": ""
  },
  {
   "property": "C83",
   "status": "proved",
   "theorems": [
    "C83_counterpart",
    "C83_covers",
    "C83_refuted"
   ],
   "note": "The expected statement is refuted; it holds with ten samples before the start."
  },
  {
   "property": "C84",
   "status": "proved",
   "theorems": [
    "C84_ratio",
    "C84_refused",
    "C84_warned"
   ],
   "note": ""
  },
  {
   "property": "C85",
   "status": "proved",
   "theorems": [
    "C85_missing",
    "C85_horizons"
   ],
   "note": ""
  },
  {
   "property": "C86",
   "status": "proved",
   "theorems": [
    "C86_keys",
    "C86_sxs",
    "C86_sxs_values",
    "C86_lvcnr",
    "C86_hack",
    "C86_hack_merger_refuted"
   ],
   "note": "The merger of LVCNR_hack data is not at t = 0: refuted."
  },
  {
   "property": "C87",
   "status": "proved",
   "theorems": [
    "C87_window",
    "C87_zeroecc",
    "C87_end_refuted"
   ],
   "note": "The documented end at the merger is refuted."
  },
  {
   "property": "C88",
   "status": "proved",
   "theorems": [
    "C88_eob",
    "C88_refused",
    "C88_zero_path",
    "C88_ignored"
   ],
   "note": ""
  },
  {
   "property": "C89",
   "status": "proved",
   "theorems": [
    "C89_fetches",
    "C89_kept",
    "C89_resume_once",
    "C89_resume",
    "C89_directory",
    "C89_again",
    "C89_unknown",
    "C89_enough"
   ],
   "note": "A transfer is one step."
  },
  {
   "property": "C90",
   "status": "proved",
   "theorems": [
    "C90_metadata_path",
    "C90_step"
   ],
   "note": "Both are findings."
  },
  {
   "property": "C91",
   "status": "proved",
   "theorems": [
    "C91_lvcnr",
    "C91_hack",
    "C91_emri",
    "C91_params"
   ],
   "note": "Values of the splines are oracles."
  },
  {
   "property": "C92",
   "status": "proved",
   "theorems": [
    "C92_warned",
    "C92_silent",
    "C92_others"
   ],
   "note": ""
  },
  {
   "property": "C93",
   "status": "proved",
   "theorems": [
    "C93_given",
    "C93_new",
    "C93_axis_alone",
    "C93_figure_alone"
   ],
   "note": "The last two are findings."
  },
  {
   "property": "C94",
   "status": "proved",
   "theorems": [
    "C94_sheet",
    "C94_keys",
    "C94_too_small",
    "C94_labels"
   ],
   "note": "C94_keys and C94_labels are findings."
  },
  {
   "property": "C95",
   "status": "proved",
   "theorems": [
    "C95_eccentricity",
    "C95_mean_anomaly",
    "C95_ratios",
    "C95_data",
    "C95_frequency",
    "C95_average",
    "C95_slope",
    "C95_limits",
    "C95_stale_refuted"
   ],
   "note": "For reference times and a first measurement; C95_stale_refuted is a finding about later ones."
  },
  {
   "property": "C96",
   "status": "proved",
   "theorems": [
    "C96_used",
    "C96_refused",
    "C96_ignored"
   ],
   "note": "The last two are findings."
  },
  {
   "property": "C97",
   "status": "proved",
   "theorems": [
    "C97_order",
    "C97_results",
    "C97_bounds",
    "C97_measure",
    "C97_bounds_refuted"
   ],
   "note": "C97_bounds_refuted is a finding."
  },
  {
   "property": "C98",
   "status": "proved",
   "theorems": [
    "C98_peaks",
    "C98_fits",
    "C98_short"
   ],
   "note": "The case in which eccentricity is set to zero has no extrema and is C20."
  },
  {
   "property": "C99",
   "status": "proved",
   "theorems": [
    "C99_measure",
    "C99_history",
    "C99_call",
    "C99_uniform_refuted",
    "C99_formula",
    "C99_fitter",
    "C99_fitter_refuted"
   ],
   "note": "Of the interpolating splines it is assumed that they follow a stretching and shifting of the axes; for a measurement on an object extrema are taken to be found at the same samples, for a whole call this follows from what is asked of the peak search. A whole call asks for exactly even steps when the unit changes; the absolute tolerance there is a finding. With rational fits the fitter is assumed to follow the change of units; its absolute tolerance is the finding."
  },
  {
   "property": "C100",
   "status": "proved",
   "theorems": [
    "C100_kept",
    "C100_final",
    "C100_other_selection_refuted"
   ],
   "note": "C100_other_selection_refuted: results of samples that a later run does not select are dropped from the checkpoint."
  },
  {
   "property": "C101",
   "status": "proved",
   "theorems": [
    "C101_idle"
   ],
   "note": "Consequence: mistakes in options that do not apply are not reported."
  },
  {
   "property": "C102",
   "status": "proved",
   "theorems": [
    "C102_only_known_keys"
   ],
   "note": "At debug level 2 unknown keys are refused: see C72_refused."
  },
  {
   "property": "C103",
   "status": "proved",
   "theorems": [
    "C103_forms",
    "C103_frame",
    "C103_counterpart_refuted"
   ],
   "note": "C103_frame assumes that a complex number is given back exactly by modulus and phase. C103_counterpart_refuted (a finding): with a circular counterpart given as amplitudes and phases in the inertial frame the result is different."
  },
  {
   "property": "C104",
   "status": "proved",
   "theorems": [
    "C104_only_22"
   ],
   "note": "For waveforms without given omegalm; the merger time is the peak (C07) of the total amplitude (C60)."
  },
  {
   "property": "C105",
   "status": "proved",
   "theorems": [
    "C105_upright",
    "C105_one_sign"
   ],
   "note": "For calls without a change of frame. Two orbits are 8 pi of the gravitational wave phase, with the double np.pi."
  },
  {
   "property": "C106",
   "status": "proved",
   "theorems": [
    "C106_origin"
   ],
   "note": "The origin of the phases of complex modes is covered together with C103, which exchanges the two forms of a waveform. A change of frame is left out: it mixes the modes, so their relative phases matter there."
  },
  {
   "property": "C107",
   "status": "proved",
   "theorems": [
    "C107_distance",
    "C107_levels_refuted"
   ],
   "note": "C107_levels_refuted shows why the levels are left out: a height given to find_peaks is in the unit of the amplitudes."
  }
 ]
}