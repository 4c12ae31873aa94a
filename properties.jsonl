{"id": "C01", "title": "Exactly one reference kind", "statement": "measure_eccentricity proceeds past argument validation only if exactly one of tref_in and fref_in is given; if both or neither are given it raises KeyError before looking at the data, and a given reference (scalar or array) is treated as a one-dimensional array whose shape kind (scalar or array) is remembered for the output.", "quantifier": "every combination of tref_in and fref_in (None, scalar or array of any length) and every other argument", "why_tests_cant": "the input space is unbounded in array length and the claim is about every argument combination, including what is not looked at", "anchors": ["gw_eccentricity/eccDefinition.py::eccDefinition.__init__", "gw_eccentricity/gw_eccentricity.py::measure_eccentricity"]}
{"id": "C02", "title": "Method dispatch", "statement": "measure_eccentricity accepts exactly the names returned by get_available_methods(); any other method name raises Exception whatever the other arguments are, and for an accepted name the returned dictionary is the measurement's own dictionary with the measuring object added under gwecc_object, every other entry unchanged.", "quantifier": "every method string, every dataDict and reference input", "why_tests_cant": "arbitrary strings and arbitrary other arguments", "anchors": ["gw_eccentricity/gw_eccentricity.py::get_available_methods", "gw_eccentricity/gw_eccentricity.py::measure_eccentricity"]}
{"id": "C03", "title": "Waveform representation is exclusive", "statement": "A dataDict is accepted only when the eccentric data is given either as hlm, or as both amplm and phaselm, but not as both; the same exclusion applies to the zeroecc data; t is mandatory. Violations raise Exception, and no accepted dataDict mixes representations.", "quantifier": "every set of keys in dataDict", "why_tests_cant": "all key subsets including unrecognized keys; a missed combination would only show on one subset", "anchors": ["gw_eccentricity/eccDefinition.py::eccDefinition.process_data_dict"]}
{"id": "C04", "title": "Keyword dictionaries: defaults filled, user values kept, unknown keys rejected", "statement": "check_kwargs_and_set_defaults raises ValueError iff some user key is not a default key; otherwise every default key is present afterwards, every user value is kept, every other value is the default and no key is added beyond the defaults. Passing None means all defaults.", "quantifier": "every user dictionary and every defaults dictionary", "why_tests_cant": "dictionaries are unbounded; the claim says what must not change as well", "anchors": ["gw_eccentricity/utils.py::check_kwargs_and_set_defaults"]}
{"id": "C05", "title": "Debug levels only change reporting", "statement": "debug_message accepts exactly the levels -1, 0, 1, 2 (ValueError otherwise); level -1 never reports, level 0 reports only important messages, level 1 reports every message as a warning, level 2 turns every message into an Exception. Consequently a measurement gives identical numbers at levels -1, 0 and 1, and at level 2 it either gives those numbers or raises.", "quantifier": "every message sequence, every input waveform, and every pair of debug levels", "why_tests_cant": "a non-interference claim relating two whole executions for every input", "anchors": ["gw_eccentricity/utils.py::debug_message", "gw_eccentricity/eccDefinition.py::eccDefinition.measure_ecc", "gw_eccentricity/eccDefinition.py::eccDefinition.check_extrema_separation", "gw_eccentricity/eccDefinition.py::eccDefinition.check_if_dropped_too_many_extrema", "gw_eccentricity/eccDefinition.py::eccDefinition.check_pericenters_and_apocenters_appear_alternately"]}
{"id": "C06", "title": "Fourth-order derivative is exact on quartics", "statement": "time_deriv_4thOrder(y, dt) has the same length as y and, for samples of any polynomial of degree at most 4 on a uniform grid of at least 5 points, returns the exact derivative at every sample, including the two boundary points at each end; it is linear in y and scales as 1/dt.", "quantifier": "every polynomial of degree at most 4, every grid start, spacing dt != 0 and length >= 5, every index", "why_tests_cant": "tests can only sample polynomials and lengths and compare with a tolerance", "anchors": ["gw_eccentricity/utils.py::time_deriv_4thOrder"]}
{"id": "C07", "title": "Quadratic peak time", "statement": "peak_time_via_quadratic_fit returns the exact vertex (time and value) when the five samples around the discrete maximum lie on a parabola, and it is equivariant: shifting time by c shifts the peak time by c, scaling the function by k scales the peak value and leaves the peak time, and the fitted window always lies inside the array.", "quantifier": "every parabola, every strictly increasing time grid of length >= 5, every shift and positive scale", "why_tests_cant": "continuum of parabolas, grids, shifts and scales", "anchors": ["gw_eccentricity/utils.py::peak_time_via_quadratic_fit"]}
{"id": "C08", "title": "Interpolation never extrapolates silently", "statement": "interpolate(newX, oldX, oldY) with extrapolation not allowed returns only if every new point lies within [min(oldX)-1e-10, max(oldX)+1e-10], raises otherwise, and raises on oldX/oldY length mismatch or a not strictly increasing oldX; the result has one value per new point. The default interpolator returns numbers only; the monotonic one returns nan exactly at the points outside the data by at most 1e-10.", "quantifier": "every newX, oldX, oldY of any lengths and both interpolator kinds", "why_tests_cant": "arrays of any length and position of the offending point", "anchors": ["gw_eccentricity/utils.py::interpolate", "gw_eccentricity/utils.py::get_interpolant"]}
{"id": "C09", "title": "Extrapolation mode of an interpolant does not depend on history", "statement": "get_interpolant always builds the spline with ext=2 (raise outside) when extrapolation is disallowed, and with ext=0 when extrapolation is allowed and ext was left at 2, whatever earlier calls shared the same keyword dictionary. Side effect on that dictionary: a call that disallows extrapolation overwrites a user's ext value.", "quantifier": "every sequence of get_interpolant calls sharing one kwargs dictionary", "why_tests_cant": "the property ranges over call histories", "anchors": ["gw_eccentricity/utils.py::get_interpolant"]}
{"id": "C10", "title": "Spline degree never exceeds the data", "statement": "get_interpolant on n >= 2 strictly increasing points uses spline degree min(k, n-1) when n <= k and k otherwise, never modifies the caller's k, and refuses fewer than two points.", "quantifier": "every number of points, every k", "why_tests_cant": "all sizes; also a non-mutation claim", "anchors": ["gw_eccentricity/utils.py::get_interpolant"]}
{"id": "C11", "title": "Extrema cleaning keeps an order-preserving contiguous block", "statement": "The cleaned pericenter and apocenter lists returned by get_good_extrema are contiguous blocks of the detected ones in the same order: cleaning only removes from the two ends, never reorders, duplicates or invents an extremum.", "quantifier": "every strictly increasing list of pericenters and apocenters, every phase array", "why_tests_cant": "lists of any length and any phases", "anchors": ["gw_eccentricity/eccDefinition.py::eccDefinition.get_good_extrema", "gw_eccentricity/eccDefinition.py::eccDefinition.drop_extrema_if_extrema_jumps", "gw_eccentricity/eccDefinition.py::eccDefinition.drop_extrema_if_too_close", "gw_eccentricity/eccDefinition.py::eccDefinition.drop_extra_extrema_at_ends"]}
{"id": "C12", "title": "At most one extra extremum at each end", "statement": "After drop_extra_extrema_at_ends, at most one pericenter follows the last apocenter and at most one apocenter follows the last pericenter, and likewise at the start; lists already satisfying this are returned unchanged, and neither list becomes empty.", "quantifier": "every pair of nonempty strictly increasing disjoint index lists", "why_tests_cant": "unbounded lists", "anchors": ["gw_eccentricity/eccDefinition.py::eccDefinition.drop_extra_extrema_at_ends"]}
{"id": "C13", "title": "Jump dropping at the ends", "statement": "drop_extrema_if_extrema_jumps leaves the list unchanged when no ratio of consecutive phase differences is above 1.5 in its second half or below 1/1.5 in its first half. When the first ratio above 1.5 lies after the middle, everything after the extremum where it happens is dropped and no such jump remains. When the last ratio below 1/1.5 lies before the middle, everything before it is dropped, and that jump stays as the first one of the kept list.", "quantifier": "every list of at least 2 extrema and every phase sequence", "why_tests_cant": "unbounded lists and positions of the jump; the documentation mismatch shows only on particular patterns", "anchors": ["gw_eccentricity/eccDefinition.py::eccDefinition.drop_extrema_if_extrema_jumps"]}
{"id": "C14", "title": "Too-close dropping at the ends", "statement": "drop_extrema_if_too_close leaves the list unchanged when all phase differences are at least 4 pi. A close pair in the second half removes the tail so that no close pair remains after the cut. A close pair in the first half removes everything before the last such pair, and keeps the pair itself.", "quantifier": "every list of at least 2 extrema and every phase sequence", "why_tests_cant": "unbounded lists and positions", "anchors": ["gw_eccentricity/eccDefinition.py::eccDefinition.drop_extrema_if_too_close"]}
{"id": "C15", "title": "Midpoint apocenters interleave", "statement": "get_apocenters_from_pericenters returns one location between each pair of consecutive pericenters: n-1 apocenters for n pericenters, each at least the left pericenter and less than the right one, strictly between them whenever they differ by more than 1, so the apocenter list is strictly increasing and alternates with the pericenters.", "quantifier": "every strictly increasing list of pericenters", "why_tests_cant": "unbounded lists", "anchors": ["gw_eccentricity/eccDefinition.py::eccDefinition.get_apocenters_from_pericenters"]}
{"id": "C16", "title": "tref_out is exactly the in-range part of tref_in", "statement": "For a time-domain measurement that returns, tref_out consists of exactly those entries of tref_in with max(first pericenter time, first apocenter time) <= t <= min(last pericenter time, last apocenter time), in the input order with multiplicity, and eccentricity and mean_anomaly have exactly one entry per entry of tref_out.", "quantifier": "every waveform, every detected extrema, every tref_in of any length and order", "why_tests_cant": "any length, any order, values equal to the bounds", "anchors": ["gw_eccentricity/eccDefinition.py::eccDefinition.measure_ecc", "gw_eccentricity/eccDefinition.py::eccDefinition.make_return_dict_for_eccentricity_and_mean_anomaly"]}
{"id": "C17", "title": "Result dictionary shape", "statement": "The result has exactly one of tref_out and fref_out, according to whether tref_in or fref_in was given, besides eccentricity and mean_anomaly; if the reference input was a scalar all three entries are scalars, otherwise all are arrays.", "quantifier": "every measurement that returns, including the zero-eccentricity fallback", "why_tests_cant": "must hold for every exit path", "anchors": ["gw_eccentricity/eccDefinition.py::eccDefinition.make_return_dict_for_eccentricity_and_mean_anomaly", "gw_eccentricity/eccDefinition.py::eccDefinition.set_eccentricity_and_mean_anomaly_to_zero"]}
{"id": "C18", "title": "Interpolants are never evaluated outside their knots", "statement": "Every time at which a measurement evaluates the pericenter and apocenter frequency interpolants to report an eccentricity lies within the first and last time of the corresponding extrema; no reported eccentricity is an extrapolation.", "quantifier": "every waveform, extrema and reference input for which the measurement returns", "why_tests_cant": "a must-never claim over all inputs", "anchors": ["gw_eccentricity/eccDefinition.py::eccDefinition.measure_ecc", "gw_eccentricity/eccDefinition.py::eccDefinition.compute_eccentricity"]}
{"id": "C19", "title": "Out-of-range references raise", "statement": "If no entry of tref_in lies in the measurable window the measurement raises Exception and returns nothing; a value above the window, below it, or between two bounds all raise.", "quantifier": "every waveform and reference array with no in-range entry", "why_tests_cant": "any array length and position", "anchors": ["gw_eccentricity/eccDefinition.py::eccDefinition.measure_ecc", "gw_eccentricity/eccDefinition.py::eccDefinition.check_input_limits"]}
{"id": "C20", "title": "Zero-eccentricity fallback is opt-in", "statement": "A measurement reports all-zero eccentricity and mean anomaly through the small-eccentricity fallback only when return_zero_if_small_ecc_failure was set, fewer than two pericenters or fewer than two apocenters were found, and the waveform covers more than about five orbits; the fallback then reports zero at every requested reference point (tref_out = tref_in or fref_out = fref_in). Without the flag, fewer than two extrema always ends in an exception.", "quantifier": "every detected extrema, orbit count, flag value and reference input", "why_tests_cant": "all sizes and both flags; includes the must-never direction", "anchors": ["gw_eccentricity/eccDefinition.py::eccDefinition.check_num_extrema", "gw_eccentricity/eccDefinition.py::eccDefinition.measure_ecc", "gw_eccentricity/eccDefinition.py::eccDefinition.set_eccentricity_and_mean_anomaly_to_zero"]}
{"id": "C21", "title": "Eccentricity formula: range, zero and monotonicity", "statement": "For 0 < omega_apocenter <= omega_pericenter the reported eccentricity lies in [0, 1), is 0 iff the two frequencies are equal, and strictly increases with omega_pericenter/omega_apocenter; the intermediate e_omega = (sqrt(wp)-sqrt(wa))/(sqrt(wp)+sqrt(wa)) lies in [0,1).", "quantifier": "every pair of positive frequencies with wa <= wp", "why_tests_cant": "a statement over the reals", "anchors": ["gw_eccentricity/eccDefinition.py::eccDefinition.compute_eccentricity", "gw_eccentricity/eccDefinition.py::eccDefinition.et_from_ew22_0pn"]}
{"id": "C22", "title": "Eccentricity formula: correct Newtonian limit", "statement": "The transformation e_omega -> e_t inverts the leading-order (0PN) relation: the reported e_t satisfies the cubic relation that defines it, so a waveform whose extrema frequencies come from a Newtonian orbit of eccentricity e_t reports exactly e_t.", "quantifier": "every e_t in [0,1)", "why_tests_cant": "a statement over the reals; tests only compare with tolerances", "anchors": ["gw_eccentricity/eccDefinition.py::eccDefinition.et_from_ew22_0pn"]}
{"id": "C23", "title": "Eccentricity is independent of units", "statement": "Multiplying all frequencies by a positive constant (changing mass or time units) leaves every reported eccentricity unchanged.", "quantifier": "every pair of positive frequencies and every positive factor", "why_tests_cant": "a statement over the reals", "anchors": ["gw_eccentricity/eccDefinition.py::eccDefinition.compute_eccentricity"]}
{"id": "C24", "title": "Mean anomaly range, zeros and linearity", "statement": "At any time t with t_p[i] <= t < t_p[i+1] the reported mean anomaly is exactly 2 pi (t - t_p[i])/(t_p[i+1] - t_p[i]): it is in [0, 2 pi), is 0 exactly at pericenters, strictly increases between consecutive pericenters, and at the last pericenter it takes the documented boundary value.", "quantifier": "every strictly increasing list of pericenter times and every reference time in its range", "why_tests_cant": "unbounded lists and a dense set of times, including ties with knots", "anchors": ["gw_eccentricity/eccDefinition.py::eccDefinition.compute_mean_anomaly"]}
{"id": "C25", "title": "Mean anomaly is invariant under affine time changes", "statement": "Replacing every time t by a t + b with a > 0 (unit change and time shift) leaves every reported mean anomaly unchanged.", "quantifier": "every pericenter list, reference list, a > 0, b", "why_tests_cant": "relational statement between two executions", "anchors": ["gw_eccentricity/eccDefinition.py::eccDefinition.compute_mean_anomaly"]}
{"id": "C26", "title": "fref_out is exactly the in-range part of fref_in", "statement": "For a frequency-domain measurement fref_out is exactly the entries of fref_in with fref_min <= f < fref_max in input order, where the bounds are the minimum and maximum of the averaged frequency over 2 pi; it raises if none is in range. The upper bound is exclusive, although documented as inclusive.", "quantifier": "every averaged-frequency array and every fref_in", "why_tests_cant": "all lengths and values equal to the bounds", "anchors": ["gw_eccentricity/eccDefinition.py::eccDefinition.get_fref_out", "gw_eccentricity/eccDefinition.py::eccDefinition.get_fref_bounds", "gw_eccentricity/gw_eccentricity.py::measure_eccentricity"]}
{"id": "C27", "title": "Frequency averages used for inversion are strictly increasing", "statement": "A frequency-domain measurement inverts the averaged frequency only if it is strictly increasing in time; any non-increase between consecutive values raises Exception, in the pericenter averages, the apocenter averages, their merge or the interpolated average.", "quantifier": "every averaged-frequency sequence", "why_tests_cant": "position and number of violations arbitrary", "anchors": ["gw_eccentricity/eccDefinition.py::eccDefinition.check_monotonicity_of_omega_gw_average", "gw_eccentricity/eccDefinition.py::eccDefinition.compute_orbit_averaged_omega_gw_between_extrema", "gw_eccentricity/eccDefinition.py::eccDefinition.compute_tref_in_and_fref_out_from_fref_in"]}
{"id": "C28", "title": "Orbit averages are the true averages of omega", "statement": "The orbit-averaged frequency between consecutive extrema equals the phase difference over the time difference, hence lies between the smallest and largest instantaneous frequency in between, is attached to the midpoint time, and the merged list of midpoints is sorted, keeps each average with its own midpoint and loses none.", "quantifier": "every strictly increasing extrema lists, time and phase arrays", "why_tests_cant": "unbounded lists; the pairing claim concerns a permutation", "anchors": ["gw_eccentricity/eccDefinition.py::eccDefinition.get_orbit_averaged_omega_gw_between_pericenters", "gw_eccentricity/eccDefinition.py::eccDefinition.get_t_average_for_orbit_averaged_omega_gw", "gw_eccentricity/eccDefinition.py::eccDefinition.compute_orbit_averaged_omega_gw_between_extrema"]}
{"id": "C29", "title": "fref bounds cache", "statement": "With reference times, or with reference frequencies and spline interpolation, get_fref_bounds returns the bounds of the averaging method of the first computation for the lifetime of the object: after one computation every later call returns the same pair regardless of its method argument (documented), and every frequency accepted by a measurement with the same object lies within that pair. With rational fits a second measurement may change the pair, because the degrees found by the first one are kept.", "quantifier": "every history of get_fref_bounds and measurement calls with any method arguments", "why_tests_cant": "ranges over call histories", "anchors": ["gw_eccentricity/eccDefinition.py::eccDefinition.get_fref_bounds", "gw_eccentricity/eccDefinition.py::eccDefinition.get_fref_out"]}
{"id": "C30", "title": "Merger truncation is consistent across data", "statement": "When orbits before merger are excluded, the time array and every mode of amplitude, phase and frequency are cut at the same index, so that all have equal length. The cut is at the sample whose phase is nearest to phase_merger - 4 pi num_orbits, that sample excluded; None cuts nothing, a negative count raises ValueError, and more orbits than the data has raises Exception.", "quantifier": "every mode set, phase array and number of orbits", "why_tests_cant": "any number of modes and samples", "anchors": ["gw_eccentricity/eccDefinition.py::eccDefinition.process_data_dict", "gw_eccentricity/eccDefinition.py::eccDefinition.get_index_at_num_orbits_earlier_than_merger"]}
{"id": "C31", "title": "Caller's dataDict is left unchanged", "statement": "measure_eccentricity does not modify the dictionary passed as dataDict nor the mode dictionaries in it, as long as omegalm is not given together with a truncation, and precessing inertial-frame data is given as hlm. In the two excluded situations it does modify them: omegalm modes are truncated in place, and hlm is added to the dictionary.", "quantifier": "every dataDict and every argument combination", "why_tests_cant": "a frame condition over all inputs and histories", "anchors": ["gw_eccentricity/eccDefinition.py::eccDefinition.get_amp_phase_omega_data", "gw_eccentricity/eccDefinition.py::eccDefinition.process_data_dict", "gw_eccentricity/eccDefinition.py::eccDefinition.transform_inertial_to_coprecessing"]}
{"id": "C32", "title": "Repeating a measurement gives the same result", "statement": "Reading the same dataDict again with the same arguments does the same whenever the caller's dictionary is left unchanged, and a measuring object with spline interpolation gives the same result whenever it is asked again, whatever calls lie between: with reference times always, with reference frequencies as soon as one of the measurements returns. With precessing inertial-frame amplm and phaselm data, or with omegalm and a truncation, the second call with the same dataDict raises instead; with rational fits, a second measurement on one object may differ from the first because the degrees found are kept.", "quantifier": "every dataDict and every argument combination, both calls; every object and history of calls", "why_tests_cant": "a two-execution statement over all inputs", "anchors": ["gw_eccentricity/eccDefinition.py::eccDefinition.process_data_dict", "gw_eccentricity/eccDefinition.py::eccDefinition.transform_inertial_to_coprecessing"]}
{"id": "C33", "title": "Precessing data use the reflection-symmetric combination", "statement": "For precessing systems the amplitude, phase and frequency used are the symmetric (2,2)/(2,-2) combinations 0.5(amp22+amp2-2), 0.5(phase22-phase2-2) and 0.5(omega22-omega2-2); for reflection-symmetric (non-precessing) modes these equal the (2,2) quantities, so declaring a non-precessing system as precessing in the coprecessing frame does not change the data used.", "quantifier": "every pair of mode arrays", "why_tests_cant": "arrays of any length, relational claim", "anchors": ["gw_eccentricity/eccDefinition.py::eccDefinition.get_amp_phase_omega_gw"]}
{"id": "C34", "title": "Peak-finder width is time-unit independent and positive enough", "statement": "The width in samples used for finding extrema depends only on the number of samples per orbit near merger: it is unchanged when time is rescaled or shifted and when the phase is shifted.", "quantifier": "every phase and time array, every affine time change with positive factor", "why_tests_cant": "relational claim over arrays of any length", "anchors": ["gw_eccentricity/eccDefinition.py::eccDefinition.get_width_for_peak_finder_from_phase_gw"]}
{"id": "C35", "title": "Short segments contain the reference points", "statement": "With use_only_these_many_orbits = N, the segment used is a contiguous run of samples, the same for all arrays. It contains every time from the first to the last reference time up to the last sample but one of the data, reaches ceil(N/2) orbits (of 4.4 pi) beyond each side when available, spans N orbits in total when available, and is no longer than needed. The last sample of the data is never part of it. Data with fewer than N orbits is used in full.", "quantifier": "every phase array, N > 0, and reference times inside the data", "why_tests_cant": "arrays of any length and all positions of the reference", "anchors": ["gw_eccentricity/eccDefinition.py::eccDefinition.get_amp_phase_omega_gw_segments", "gw_eccentricity/eccDefinition.py::eccDefinition._get_segment_indices"]}
{"id": "C36", "title": "Residual data", "statement": "Residual amplitude and frequency are computed at the eccentric waveform's own times after aligning the mergers; a zeroecc waveform that starts later than the eccentric one or ends before its merger is rejected; when the zeroecc data equals the eccentric data the residuals vanish at the knots.", "quantifier": "every eccentric and zeroecc waveform", "why_tests_cant": "unbounded arrays", "anchors": ["gw_eccentricity/eccDefinition.py::eccDefinition.compute_res_amp_gw_and_res_omega_gw"]}
{"id": "C37", "title": "Degree reduction terminates with a well-determined fit", "statement": "get_reduced_degrees returns degrees no larger than the given ones with m + n + 1 < number of points, removing no more than necessary and alternating denominator first so that the removed amounts differ by at most one unless one degree hits zero; it raises ValueError iff fewer than two points are given (for non-negative degrees), and always terminates.", "quantifier": "every pair of non-negative degrees and every number of points", "why_tests_cant": "unbounded integers; termination", "anchors": ["gw_eccentricity/rational_fit.py::get_reduced_degrees", "gw_eccentricity/rational_fit.py::is_underdetermined"]}
{"id": "C38", "title": "Adaptive degree search terminates with a monotone fit or the spline fallback", "statement": "get_rational_fit_for_extrema always terminates; the returned interpolant is either the spline through the data (after a failure at degrees (1,1) or lower), or a rational fit whose sampled first derivative is strictly monotone and which is not underdetermined and, when the first attempt was already monotone, is the highest-degree monotone fit reached by raising both degrees by one.", "quantifier": "every fitting oracle (any behaviour of the fitter at each degree), initial degrees, number of points", "why_tests_cant": "depends on an arbitrary oracle; termination", "anchors": ["gw_eccentricity/eccDefinition.py::eccDefinition.get_rational_fit_for_extrema", "gw_eccentricity/eccDefinition.py::eccDefinition.check_if_first_derivative_is_not_strictly_monotonic"]}
{"id": "C39", "title": "Rational fit keeps its best iterate", "statement": "RationalFit.fit performs at most max_iterations solver steps, stops at convergence or at a linear-algebra failure, and the stored coefficients are those of the earliest iterate with the smallest residual norm; with no completed iterate it raises ValueError.", "quantifier": "every solver behaviour and every max_iterations", "why_tests_cant": "arbitrary oracle and iteration count", "anchors": ["gw_eccentricity/rational_fit.py::RationalFit.fit"]}
{"id": "C40", "title": "Frequency-fit extrema search terminates and stays in bounds", "statement": "The envelope-fit search for extrema (FrequencyFits and AmplitudeFits) always terminates, within 10001 local searches of at most 21 passes each. What it returns are strictly increasing locations inside the data, each a peak of the data minus an envelope in a window around it, with one (time, data, phase) entry per location. It raises for data that cover too few orbits. With num_orbits at least 2 it never indexes outside its arrays; with num_orbits = 1 it can.", "quantifier": "every peak-finder and optimizer behaviour, all data and options", "why_tests_cant": "termination for arbitrary oracles", "anchors": ["gw_eccentricity/eccDefinitionUsingFrequencyFits.py::eccDefinitionUsingFrequencyFits.find_extrema", "gw_eccentricity/eccDefinitionUsingFrequencyFits.py::eccDefinitionUsingFrequencyFits.FindExtremaNearIdxRef"]}
{"id": "C41", "title": "Time array restored after extrema search", "statement": "After find_extrema of the fit-based methods returns normally, the measuring object's time array (shared with the caller's array) has its original values. After an exception raised inside the search it stays shifted by the merger time.", "quantifier": "every run, including every point at which an exception can occur", "why_tests_cant": "every exception point", "anchors": ["gw_eccentricity/eccDefinitionUsingFrequencyFits.py::eccDefinitionUsingFrequencyFits.find_extrema"]}
{"id": "C42", "title": "Envelope reparametrisation", "statement": "The envelope model used in the fits takes the fitted value f0 and slope f1 at the reference time t0: A (T - t)^n at t0 has value f0 and derivative f1 for every T > t0, and evaluation at times beyond T raises.", "quantifier": "every f0 > 0, f1, T, t0 and every time array", "why_tests_cant": "a statement over the reals", "anchors": ["gw_eccentricity/eccDefinitionUsingFrequencyFits.py::envelope_fitting_function", "gw_eccentricity/utils.py::QusicircularFitForMappingFrequencyToTime"]}
{"id": "C43", "title": "Low-pass mask", "statement": "The low-pass mask has values in [0,1], is 1 up to fc(1-w), 1/2 at fc, 0 from fc(1+w) on, is non-increasing and continuous. (It is not symmetric in frequency sign: at negative frequencies below fc(1-w) it is 1.)", "quantifier": "every cutoff fc > 0, width w > 0 and every frequency array", "why_tests_cant": "a statement over the reals", "anchors": ["gw_eccentricity/spin_filter.py::_make_lowpass_mask"]}
{"id": "C44", "title": "Segment recombination is a weighted average", "statement": "Where filtered segments overlap, the combined value is a convex combination of the segment values, so it lies between their minimum and maximum, equals the common value where they agree, and samples covered by no positive weight are filled by interpolation between covered neighbours.", "quantifier": "every set of segments, weights and values", "why_tests_cant": "any number of segments and any coverage", "anchors": ["gw_eccentricity/spin_filter.py::FilterSpinInducedOscillations._combine_segments"]}
{"id": "C45", "title": "Filter result contract", "statement": "check_and_filter returns the filtered data if and only if filtering is required and not disabled, and the original data otherwise, for amplitude and for frequency; phase is filtered exactly if the frequency is, and is then the cumulative sum of frequency times dt. The choice is the same for amplitude and frequency if the data type for the requirement check is prescribed, and need not be by default.", "quantifier": "every data and options", "why_tests_cant": "all branches for all inputs", "anchors": ["gw_eccentricity/spin_filter.py::check_and_filter_spin_induced_oscillations"]}
{"id": "C46", "title": "Segment sweep", "statement": "The filter's sweep starts at the first time and advances by alpha times the local spacing of crossings; each segment consists of the samples within half the segment size times that spacing of its centre. With positive alpha and segment size it terminates whatever the interpolated spacing is; with alpha = 0 it never terminates. If every half segment is at least a sweep step plus a time step, every sample but the first and last is an average of filtered segments.", "quantifier": "every data, spacing function and options", "why_tests_cant": "termination for arbitrary oracle", "anchors": ["gw_eccentricity/spin_filter.py::FilterSpinInducedOscillations.apply_filter"]}
{"id": "C47", "title": "Post-processing keeps order and isolates failures", "statement": "Post-processing returns exactly one result per requested sample in the requested order, if the labels of the posterior are distinct; a sample whose waveform generation or measurement raises gives a result with status fail and the error message, and does not affect any other sample. With a repeated label in the posterior the samples after it are computed from other samples' parameters.", "quantifier": "every list of samples and every waveform generator behaviour", "why_tests_cant": "any number of samples and any failure pattern", "anchors": ["gw_eccentricity/postprocess/core.py::postprocess_sample", "gw_eccentricity/postprocess/postprocess.py::PostProcess.postprocess"]}
{"id": "C48", "title": "Distributed run equals the serial run", "statement": "For distinct sample indices and any batch size >= 1, any number of workers and any order in which workers answer, the master's final table equals the one of the serial run.", "quantifier": "every number of workers, batch size, save interval and message schedule", "why_tests_cant": "every interleaving", "anchors": ["gw_eccentricity/postprocess/postprocess_cli.py::master", "gw_eccentricity/postprocess/postprocess_cli.py::worker"]}
{"id": "C49", "title": "Each sample is dispatched once and all workers stop", "statement": "In a distributed run with batch size at least 1 every unprocessed sample is sent to exactly one worker, each worker receives exactly one STOP after its last batch, and the run terminates for every schedule. With batch size 0 no sample is ever processed and the run does not terminate.", "quantifier": "every schedule, number of workers, batch size", "why_tests_cant": "every interleaving; liveness", "anchors": ["gw_eccentricity/postprocess/postprocess_cli.py::master", "gw_eccentricity/postprocess/postprocess_cli.py::worker"]}
{"id": "C50", "title": "Crash and resume", "statement": "If the master crashes after any message and is restarted with the checkpoint, the final table equals that of an uninterrupted run (for a deterministic per-sample computation), and no sample recorded in the checkpoint is computed again. This rests on the checkpoint being written atomically: with a truncated checkpoint file every restart raises and the workers wait forever.", "quantifier": "every crash point, any number of crashes, every schedule", "why_tests_cant": "every crash point and history", "anchors": ["gw_eccentricity/postprocess/postprocess_cli.py::master", "gw_eccentricity/postprocess/postprocess_cli.py::save_checkpoint", "gw_eccentricity/postprocess/postprocess_cli.py::load_checkpoint"]}
{"id": "C51", "title": "Checkpoint contents", "statement": "At every moment the checkpoint contains only results that were computed (or loaded from the previous checkpoint for selected samples), with their right sample index, and at most save_every + batch_size - 1 received results are missing from it.", "quantifier": "every schedule and crash point", "why_tests_cant": "every interleaving", "anchors": ["gw_eccentricity/postprocess/postprocess_cli.py::master", "gw_eccentricity/postprocess/postprocess_cli.py::save_checkpoint"]}
{"id": "C52", "title": "Duplicate samples", "statement": "In a distributed run the final table has one row per selected row, also for a label that is selected more than once. In a serial run without a checkpoint each selected row appears once for every selected row with its label, so a label selected n times gives n*n rows. The two tables agree exactly when the selected labels are distinct.", "quantifier": "every list of selected indices", "why_tests_cant": "any duplicates pattern", "anchors": ["gw_eccentricity/postprocess/postprocess_cli.py::master"]}
{"id": "C53", "title": "Common reference frequency range", "statement": "The minimum and maximum reference frequencies reported over all samples are the largest lower and the smallest upper bound over the successful samples, so that a frequency strictly inside is valid for every successful sample; it raises if no sample succeeded. The pair may be inverted when no common frequency exists.", "quantifier": "every list of per-sample bounds", "why_tests_cant": "any number of samples", "anchors": ["gw_eccentricity/postprocess/core.py::FrefBoundsResults"]}
{"id": "C54", "title": "Sample selection parsing", "statement": "parse_samples maps all/none to every sample, an integer to that sample, a:b[:c] to the arithmetic range as Python does, a comma list to its integers in order, and anything else to ValueError.", "quantifier": "every string", "why_tests_cant": "unbounded strings", "anchors": ["gw_eccentricity/postprocess/postprocess_cli.py::parse_samples"]}
{"id": "C55", "title": "Nothing to process", "statement": "If every selected sample is already in the checkpoint, the master writes the final table and sends STOP to every worker without dispatching. With an empty selection and no results, writing the final table raises before STOP is sent and the workers wait forever.", "quantifier": "every number of workers and checkpoint", "why_tests_cant": "liveness over schedules", "anchors": ["gw_eccentricity/postprocess/postprocess_cli.py::master", "gw_eccentricity/postprocess/postprocess_cli.py::save_final"]}
{"id": "C56", "title": "Comparison window", "statement": "compute_errors_between_methods compares two measurements exactly on the common window: every compared time lies in [lo, hi), where lo is the latest of both objects' tmin and the given tmin and hi the earliest of both tmax and the given tmax; the errors are the distances of the eccentricities and of the unwrapped mean anomalies there, do not depend on the order of the objects and are zero for a measurement compared with itself. It raises 'no common time' exactly when a given bound lies beyond the common window.", "quantifier": "every pair of measurements and optional bounds", "why_tests_cant": "arrays of any length", "anchors": ["gw_eccentricity/compare_methods.py::compute_errors_between_methods"]}
{"id": "C57", "title": "Low-frequency truncation helper", "statement": "Every call of truncate_waveform_by_flow raises: it constructs the measuring object without any reference input.", "quantifier": "every call", "why_tests_cant": "a must-always-raise claim over all inputs", "anchors": ["gw_eccentricity/truncate_waveform_by_flow.py::truncate_waveform_by_flow"]}
{"id": "C58", "title": "Mode packing round trip", "statement": "Packing modes for the frame rotation and unpacking them gives back the same modes; the column for (l, m) is l(l+1) - ell_min^2 + m, there are (ell_max+3)(ell_max-1) columns, columns of no mode are zero, and a missing mode raises.", "quantifier": "every 2 <= ell_min <= ell_max and every mode dictionary", "why_tests_cant": "unbounded ell_max", "anchors": ["gw_eccentricity/load_data.py::package_modes_for_scri", "gw_eccentricity/load_data.py::unpack_scri_modes"]}
{"id": "C59", "title": "Junk removal keeps data aligned", "statement": "Removing the initial junk radiation drops the same samples from time and from every mode: those before the sample whose phase (or time) is nearest to the requested number of orbits, so with growing phase every dropped sample lies before it and every kept one but the first after it.", "quantifier": "every mode set and number of orbits", "why_tests_cant": "arrays of any length", "anchors": ["gw_eccentricity/load_data.py::reomve_junk_from_nr_data", "gw_eccentricity/load_data.py::remove_junk_from_sxs_catalogformat_using_horizons_data", "gw_eccentricity/load_data.py::get_num_orbits_duration_from_horizon_data"]}
{"id": "C60", "title": "Total amplitude", "statement": "The amplitude used for locating merger is the square root of the sum of squared mode amplitudes: non-negative, at least each mode's amplitude, independent of mode order, zero iff all are zero, and KeyError for data of another kind.", "quantifier": "every mode dictionary", "why_tests_cant": "any number of modes", "anchors": ["gw_eccentricity/utils.py::amplitude_using_all_modes"]}
{"id": "C61", "title": "Residual methods need circular data", "statement": "ResidualAmplitude and ResidualFrequency raise Exception unless the data contains zeroecc time, amplitude and frequency; the other methods never require them, and their returned eccentricity, mean anomaly and reference values are the same when the zeroecc entries are taken out of the data.", "quantifier": "every dataDict, every set of options, every reference input", "why_tests_cant": "every key subset", "anchors": ["gw_eccentricity/eccDefinitionUsingResidualAmplitude.py::check_and_raise_zeroecc_data_not_found"]}
{"id": "C62", "title": "Crossing detection", "statement": "The intersection points reported between two sampled curves are exactly the samples after which the difference changes sign (zero being a sign of its own), in increasing order; fewer than two raises ValueError, two or more do not raise. A crossing that falls on a sample is counted twice.", "quantifier": "every pair of sampled curves", "why_tests_cant": "arrays of any length", "anchors": ["gw_eccentricity/spin_filter.py::_find_intersection_points"]}
{"id": "C63", "title": "Frequency-to-time mapping needs a merger near zero", "statement": "With fref_in and use_only_these_many_orbits, the reference time is approximated by a fit whose parameter bounds are consistently ordered exactly when the data starts before t = 0. The measurement is therefore not invariant under time shifts in this mode.", "quantifier": "every start time, start frequency and slope", "why_tests_cant": "a relational claim over all time shifts", "anchors": ["gw_eccentricity/utils.py::QusicircularFitForMappingFrequencyToTime", "gw_eccentricity/eccDefinition.py::eccDefinition.get_approximate_tref_for_fref_using_secular_trend"]}
{"id": "C64", "title": "Warnings are faithful", "statement": "At debug level 1 a measurement warns of a negative eccentricity, of a growing eccentricity, of extrema too close in phase, of gaps that widen by more than 3/2, of more than half the extrema dropped, and of unequal or non-alternating extrema exactly when that is the case for the values it used; at level 0 only the important ones appear, at level -1 none (except the small-eccentricity fallback notice, which ignores the level).", "quantifier": "every waveform, extrema list, reference input and object history", "why_tests_cant": "an if-and-only-if between warnings and data for all inputs", "anchors": ["gw_eccentricity/eccDefinition.py::eccDefinition.measure_ecc", "gw_eccentricity/eccDefinition.py::eccDefinition.check_extrema_separation", "gw_eccentricity/eccDefinition.py::eccDefinition.check_pericenters_and_apocenters_appear_alternately", "gw_eccentricity/eccDefinition.py::eccDefinition.check_if_dropped_too_many_extrema", "gw_eccentricity/eccDefinition.py::eccDefinition.check_monotonicity_and_convexity"]}
{"id": "C65", "title": "Only detected extrema are used", "statement": "The pericenters and apocenters used by a measurement are contiguous runs of at least two of those the method detected (or the midpoints between pericenters, when asked); for filtered precessing data the first of each cleaned list is left out.", "quantifier": "every detected pair of lists and all options", "why_tests_cant": "lists of any length", "anchors": ["gw_eccentricity/eccDefinition.py::eccDefinition.measure_ecc", "gw_eccentricity/eccDefinition.py::eccDefinition.get_good_extrema"]}
{"id": "C66", "title": "What the averaged frequency is", "statement": "In a frequency-domain measurement the averaged frequency is tabulated at all sample times in the common window of pericenters and apocenters (for orbit averages: further limited to the range of the midpoints) and equals the mean of the two extrema curves, or the interpolated quasi-circular frequency without extrapolation, or the interpolated per-orbit averages, as the chosen method says.", "quantifier": "every waveform and all three methods", "why_tests_cant": "a claim about the whole table for all inputs", "anchors": ["gw_eccentricity/eccDefinition.py::eccDefinition.get_omega_gw_average", "gw_eccentricity/eccDefinition.py::eccDefinition.compute_orbit_averaged_omega_gw_between_extrema", "gw_eccentricity/eccDefinition.py::eccDefinition.compute_mean_of_extrema_interpolants", "gw_eccentricity/eccDefinition.py::eccDefinition.compute_omega_gw_zeroecc"]}
{"id": "C67", "title": "Unknown frame", "statement": "measure_eccentricity with any frame other than \"inertial\" and \"coprecessing\" raises ValueError before reading the data and changes nothing.", "quantifier": "every frame string and every other argument", "why_tests_cant": "arbitrary strings", "anchors": ["gw_eccentricity/eccDefinition.py::eccDefinition.__init__"]}
{"id": "C68", "title": "Uniform time steps", "statement": "Data whose time steps differ from the first one by more than 1e-8 plus 1e-5 of it is rejected with Exception; a measurement only ever uses uniformly sampled times.", "quantifier": "every time array", "why_tests_cant": "arrays of any length", "anchors": ["gw_eccentricity/eccDefinition.py::eccDefinition.__init__"]}
{"id": "C69", "title": "Options are checked", "statement": "No call succeeds when extra_kwargs has an unknown key or names an unknown interpolation method.", "quantifier": "every extra_kwargs dictionary and every other argument", "why_tests_cant": "arbitrary dictionaries", "anchors": ["gw_eccentricity/eccDefinition.py::eccDefinition.__init__", "gw_eccentricity/utils.py::check_kwargs_and_set_defaults"]}
{"id": "C70", "title": "Omitted options are the defaults", "statement": "Leaving an option out of extra_kwargs, or extra_kwargs altogether, gives the same warnings, exception and result as passing the documented default.", "quantifier": "every option, every waveform and every other argument", "why_tests_cant": "a two-execution statement over all inputs", "anchors": ["gw_eccentricity/eccDefinition.py::eccDefinition.get_default_extra_kwargs", "gw_eccentricity/utils.py::check_kwargs_and_set_defaults"]}
{"id": "C71", "title": "The caller's options", "statement": "A call leaves the caller's extra_kwargs unchanged for non-precessing systems; for precessing systems it writes the completed filter_kwargs into the caller's dictionary (also into a filter_kwargs dictionary given there) and changes nothing else.", "quantifier": "every extra_kwargs and every waveform", "why_tests_cant": "aliasing for all inputs", "anchors": ["gw_eccentricity/eccDefinition.py::eccDefinition.__init__", "gw_eccentricity/spin_filter.py::check_and_filter_spin_induced_oscillations"]}
{"id": "C72", "title": "Unknown waveform keys", "statement": "A key of dataDict that is not recognized is warned of at debug level 1 and makes the call fail at level 2.", "quantifier": "every dataDict key set", "why_tests_cant": "every key set", "anchors": ["gw_eccentricity/eccDefinition.py::eccDefinition.__init__", "gw_eccentricity/eccDefinition.py::eccDefinition.get_recognized_dataDict_keys"]}
{"id": "C73", "title": "Every option does what is documented", "statement": "After a successful call, the returned object is configured exactly as extra_kwargs completed by the documented defaults say: midpoints as apocenters, zero for small eccentricity, number of orbits used, averaging method, interpolation method (rational_fit by default), spline degree of the general interpolant, degree and extrapolation mode (or polynomial degrees) of the extrema interpolant, every option of the peak finder and of the fit methods.", "quantifier": "every extra_kwargs, method, waveform and library behaviour", "why_tests_cant": "all combinations of given and omitted options", "anchors": ["gw_eccentricity/gw_eccentricity.py::measure_eccentricity", "gw_eccentricity/eccDefinition.py::eccDefinition.__init__", "gw_eccentricity/eccDefinition.py::eccDefinition.get_default_extra_kwargs", "gw_eccentricity/utils.py::check_kwargs_and_set_defaults"]}
{"id": "C74", "title": "Cutoff frequency", "statement": "f_spin is the frequency of largest power in the window around the guess (the guess itself if the window is empty), f_ecc the one of largest power in the window below f_spin (f_spin/2.5 if empty), and the cutoff the one of smallest power between f_ecc and f_spin (their midpoint if there is none); 0 < f_ecc <= cutoff <= f_spin.", "quantifier": "every spectrum, guess and windows", "why_tests_cant": "any spectrum, any number of frequencies", "anchors": ["gw_eccentricity/spin_filter.py::_get_fcut_fecc_fspin"]}
{"id": "C75", "title": "Content of a filtered segment", "statement": "A filtered segment is the samples of the data inside its window, all before the merger; its filtered values are the trend fitted to those samples plus the low-passed residual, where the residual is data minus trend, padded on both sides, masked with the mask of the segment's own cutoff, and stripped of the padding.", "quantifier": "every data, segment centre, option and behaviour of fit and Fourier transform", "why_tests_cant": "every data and window", "anchors": ["gw_eccentricity/spin_filter.py::FilterSpinInducedOscillations._filter_segment", "gw_eccentricity/spin_filter.py::FilterSpinInducedOscillations._make_segment"]}
{"id": "C76", "title": "Inputs on which the filter cannot succeed", "statement": "A precessing measurement never succeeds when the (2,2) and (2,-2) modes mirror each other exactly, even with do_not_filter, or when the data reach the merger; filtering never succeeds with padding_length 0; with taper_width 0 only if no frequency of any segment lies between f_ecc and f_spin.", "quantifier": "every waveform and options", "why_tests_cant": "a statement about all options and waveforms of a class", "anchors": ["gw_eccentricity/spin_filter.py::check_and_filter_spin_induced_oscillations", "gw_eccentricity/spin_filter.py::check_filter_requirement", "gw_eccentricity/eccDefinition.py::eccDefinition.__init__"]}
{"id": "C77", "title": "What a precessing measurement takes from the filter", "statement": "With precessing=True the filter receives the prepared data, the time of merger and filter_kwargs completed with the documented defaults; amplitude, phase and frequency that are measured are those the filter returns, and the object remembers whether the frequency was filtered.", "quantifier": "every waveform, extra_kwargs, method and library behaviour", "why_tests_cant": "all combinations of options and waveforms", "anchors": ["gw_eccentricity/spin_filter.py::check_and_filter_spin_induced_oscillations", "gw_eccentricity/eccDefinition.py::eccDefinition.__init__", "gw_eccentricity/gw_eccentricity.py::measure_eccentricity"]}
{"id": "C78", "title": "Origins and keywords of load_waveform", "statement": "load_waveform accepts exactly the seven documented origins and refuses any other; for each of them a keyword outside the published defaults raises ValueError, a keyword left out behaves as if it were given its published default, the order of keywords does not matter, and a missing required keyword raises.", "quantifier": "every origin, set of keywords and behaviour of the waveform libraries and files", "why_tests_cant": "all keyword combinations of all origins", "anchors": ["gw_eccentricity/load_data.py::load_waveform", "gw_eccentricity/load_data.py::get_load_waveform_defaults", "gw_eccentricity/load_data.py::get_available_waveform_origins", "gw_eccentricity/load_data.py::make_a_sub_dict"]}
{"id": "C79", "title": "The initial mean anomaly does not reach the generated waveform", "statement": "With origin LAL the keyword mean_ano is required, but two calls that differ only in its value return the same data.", "quantifier": "every keyword set, value and library behaviour", "why_tests_cant": "a statement about all values of a parameter", "anchors": ["gw_eccentricity/load_data.py::load_LAL_waveform", "gw_eccentricity/load_data.py::load_LAL_waveform_using_hack"]}
{"id": "C80", "title": "Data of a generated waveform", "statement": "With origin LAL the library is asked for the waveform with the given mass ratio, spins, eccentricity, starting frequency and time step; the returned times are uniform with step deltaTOverM, in seconds for physical units, there is one sample of the (2,2) mode per time, it is the library's strain rescaled by a constant, and the merger is at t = 0.", "quantifier": "every keyword set and library behaviour", "why_tests_cant": "every waveform the library can return", "anchors": ["gw_eccentricity/load_data.py::load_LAL_waveform", "gw_eccentricity/load_data.py::load_LAL_waveform_using_hack", "gw_eccentricity/load_data.py::generate_LAL_waveform"]}
{"id": "C81", "title": "Quasi-circular counterpart of a generated waveform", "statement": "With include_zero_ecc the result additionally holds the waveform of the same parameters with eccentricity 0 (1e-5 for EccentricTD), which starts no later than the eccentric one; the starting frequency is multiplied by 0.9 as few times as are needed for that, and the call ends as soon as one of these waveforms starts early enough.", "quantifier": "every keyword set and library behaviour", "why_tests_cant": "the number of tries is unbounded", "anchors": ["gw_eccentricity/load_data.py::load_LAL_waveform"]}
{"id": "C82", "title": "Spins accepted for generated waveforms", "statement": "Spins with more than 1e-5 in the orbital plane, longer than 1 or without three components are refused; smaller components in the plane are replaced by zero. A quasi-circular counterpart can therefore not be loaded for a precessing numerical waveform.", "quantifier": "every spin and keyword set", "why_tests_cant": "all spins", "anchors": ["gw_eccentricity/load_data.py::generate_LAL_waveform", "gw_eccentricity/load_data.py::get_zeroecc_dataDict_for_nr"]}
{"id": "C83", "title": "Quasi-circular counterpart of a numerical waveform covers it", "statement": "With include_zero_ecc the quasi-circular data of a numerical waveform should start no later than the numerical data. It does if the generated waveform has at least ten samples before the start of the numerical data.", "quantifier": "every origin with numerical data, keyword set and library behaviour", "why_tests_cant": "all waveform lengths", "anchors": ["gw_eccentricity/load_data.py::get_zeroecc_dataDict_for_nr"]}
{"id": "C84", "title": "Mass ratio from SXS metadata", "statement": "A mass ratio taken from SXS metadata is at least 1: it is m1/m2, replaced by 1 with a warning if it is below 1 by less than 5e-4, and a smaller one raises.", "quantifier": "every metadata", "why_tests_cant": "all masses", "anchors": ["gw_eccentricity/load_data.py::get_params_dict_from_sxs_metadata"]}
{"id": "C85", "title": "Files an SXS waveform needs", "statement": "Loading an SXS waveform raises FileNotFoundError if the directory, a strain file of the requested extrapolation order or, when it is needed, the metadata file is missing; a missing Horizons.h5 only warns.", "quantifier": "every directory content and keyword set", "why_tests_cant": "all directory contents", "anchors": ["gw_eccentricity/load_data.py::check_sxs_data_dir"]}
{"id": "C86", "title": "Shape of loaded data", "statement": "A loaded dictionary holds t and hlm, zeroecc data exactly with include_zero_ecc and params_dict exactly with include_params_dict; every requested mode is there with one value per time; the times of SXS data are uniform with the requested step, and the merger is at t = 0.", "quantifier": "every origin, keyword set and file content", "why_tests_cant": "all file contents", "anchors": ["gw_eccentricity/load_data.py::make_return_dict_for_sxs_catalog_format", "gw_eccentricity/load_data.py::get_modes_dict_from_sxs_catalog_format", "gw_eccentricity/load_data.py::get_modes_dict_from_sxs_catalog_old_format", "gw_eccentricity/load_data.py::load_lvcnr_waveform", "gw_eccentricity/load_data.py::load_lvcnr_hack"]}
{"id": "C87", "title": "Window of an EMRI waveform", "statement": "start_time and end_time select the samples from the one nearest to start_time up to, but not including, the one nearest to end_time, with times measured from the maximum of the amplitude; without start_time the data starts at its first sample, without end_time it should stop at the maximum of the amplitude.", "quantifier": "every file content and keyword set", "why_tests_cant": "all windows", "anchors": ["gw_eccentricity/load_data.py::load_EMRI_waveform"]}
{"id": "C88", "title": "EOB files", "statement": "An EOB waveform is read only from a path that contains EccTest; the path is required, and that of the quasi-circular file exactly with include_zero_ecc; both waveforms have the merger at t = 0.", "quantifier": "every path, file content and keyword set", "why_tests_cant": "all paths and file contents", "anchors": ["gw_eccentricity/load_data.py::load_EOB_waveform", "gw_eccentricity/load_data.py::load_EOB_EccTest_file"]}
{"id": "C89", "title": "Downloading can be interrupted and repeated", "statement": "A download leaves existing files alone and fetches exactly the missing ones; after an interruption between files at any point, repeating the call gives the same files as an uninterrupted call, and a further call fetches nothing.", "quantifier": "every content of the directory, catalogue and point of interruption", "why_tests_cant": "all interruption points and histories", "anchors": ["gw_eccentricity/load_data.py::download_sxs_waveform"]}
{"id": "C90", "title": "Keywords of the NR loaders without effect", "statement": "metadata_path never changes the result of loading SXS data, and the time step of the quasi-circular data of a numerical waveform does not follow deltaTOverM: it is always 0.1.", "quantifier": "every keyword set, file content and library behaviour", "why_tests_cant": "a statement about all values of a keyword", "anchors": ["gw_eccentricity/load_data.py::make_return_dict_for_sxs_catalog_format", "gw_eccentricity/load_data.py::get_zeroecc_dataDict_for_nr"]}
{"id": "C91", "title": "Values of LVCNR and EMRI data", "statement": "LVCNR data holds the modes that the reader of the file returns for the requested step and starting frequency at 10 solar masses and 1 Mpc, rescaled to dimensionless amplitudes, without the requested orbits of junk; LVCNR_hack and resampled EMRI data have at each time the amplitude and the phase of splines through those of the file, and the geodesic eccentricity is resampled from the same samples; params_dict holds the parameters of the file.", "quantifier": "every keyword set, file content and library behaviour", "why_tests_cant": "all files and keyword combinations", "anchors": ["gw_eccentricity/load_data.py::load_lvcnr_waveform", "gw_eccentricity/load_data.py::load_lvcnr_hack", "gw_eccentricity/load_data.py::load_EMRI_waveform"]}
{"id": "C92", "title": "Warnings about the quasi-circular counterpart", "statement": "Loading numerical data with a quasi-circular counterpart warns that the counterpart is too long exactly if the first one generated starts at least twice as early as the numerical data, and of too many tries exactly if at least two retries were needed; without a counterpart and for the other origins there is no such warning.", "quantifier": "every keyword set, file content and library behaviour", "why_tests_cant": "an equivalence over all inputs", "anchors": ["gw_eccentricity/load_data.py::get_zeroecc_dataDict_for_nr"]}
{"id": "C93", "title": "Where a plot goes", "statement": "A plot function given a figure and an axis draws on exactly that axis, makes no figure and returns the axis; without both it draws in a new figure, and returns figure and axis exactly if no figure was given. An axis given alone, or a figure given alone, stays untouched.", "quantifier": "every plot, object, option and set of existing figures", "why_tests_cant": "all combinations of given and missing arguments, for all ten plots and any earlier drawings", "anchors": ["gw_eccentricity/eccDefinition.py::plot_eccentricity", "gw_eccentricity/eccDefinition.py::plot_data_used_for_finding_extrema"]}
{"id": "C94", "title": "The sheet of diagnostic plots", "statement": "make_diagnostic_plots of an object made by any method draws the same seven panels in the same order, each showing what the single plot shows, on a new figure; surplus axes are removed, a grid with fewer than seven cells is refused, and the residual panels never appear because the kept data never has the key asked for.", "quantifier": "every waveform, method, option, layout and earlier drawing", "why_tests_cant": "quantifies over all constructor inputs and layouts", "anchors": ["gw_eccentricity/eccDefinition.py::make_diagnostic_plots", "gw_eccentricity/eccDefinition.py::process_data_dict"]}
{"id": "C95", "title": "What the plots show", "statement": "After a measurement at reference times the curves of eccentricity and mean anomaly cover exactly the data times at which they are defined and pass through the returned values; phase ratios are those of successive extrema; data plots show the data over all times with dots exactly at the extrema found; the frequency plot shows both extrema curves; the average plot shows the average behind get_fref_bounds(); the slope plot shows the slopes of the eccentricity curve; set axis limits contain everything drawn.", "quantifier": "every waveform, extrema, interpolation and reference times", "why_tests_cant": "agreement at every reference time for all data", "anchors": ["gw_eccentricity/eccDefinition.py::plot_eccentricity", "gw_eccentricity/eccDefinition.py::plot_mean_anomaly", "gw_eccentricity/eccDefinition.py::plot_phase_diff_ratio_between_extrema"]}
{"id": "C96", "title": "Options of plots", "statement": "Options given to the plots of eccentricity, its derivative and mean anomaly reach the curve unchanged; the plots of the frequency and its average raise for a colour or label; the others ignore all options.", "quantifier": "every option dictionary, object and plot", "why_tests_cant": "all keyword sets", "anchors": ["gw_eccentricity/eccDefinition.py::plot_eccentricity", "gw_eccentricity/eccDefinition.py::plot_omega_gw"]}
{"id": "C97", "title": "Plots leave results alone", "statement": "What a plot shows does not depend on the plots made before it; after any plots the stored results, the default reference-frequency bounds and the next measurement are as they would be without them.", "quantifier": "every sequence of plots, object and reference input", "why_tests_cant": "all histories of calls", "anchors": ["gw_eccentricity/eccDefinition.py::plot_omega_gw_average", "gw_eccentricity/eccDefinition.py::get_fref_bounds"]}
{"id": "C98", "title": "Extrema used by a call", "statement": "The pericenters and apocenters a returning call used are consecutive runs of what the method's finder reports for the data of that method, as configured by the user's options completed by the documented ones. For the fit methods these are maxima and minima of the data without its fitted trend, and a call with one returns only if num_orbits is at least one and the phase covers more than 1.1 (num_orbits - 1) orbits.", "quantifier": "every method, input dictionary, option dictionary and finder", "why_tests_cant": "all waveforms and options", "anchors": ["gw_eccentricity/gw_eccentricity.py::measure_eccentricity", "gw_eccentricity/eccDefinition.py::measure_ecc", "gw_eccentricity/eccDefinitionUsingFrequencyFits.py::find_extrema"]}
{"id": "C99", "title": "Units and origin of time", "statement": "Measuring the same waveform with times in another unit and counted from another origin (t becomes a t + b with a > 0, frequencies are divided by a, phases stay) changes nothing but the units: the same warnings, an exception in one if and only if in the other, the same eccentricities and mean anomalies, and reference times and frequencies that are the same in the other units. This holds of a whole call of measure_eccentricity, from the caller's dictionaries to the returned dictionary, and along every history of calls on the object.", "quantifier": "every waveform, circular counterpart, unit, origin, reference times or frequencies, method, frame, option and history of calls; outside code (interpolation, peak search, fits, frame, filter) that follows a change of units", "why_tests_cant": "a relation between pairs of runs over all waveforms and all units", "anchors": ["gw_eccentricity/eccDefinition.py::measure_ecc", "gw_eccentricity/eccDefinition.py::get_fref_bounds", "gw_eccentricity/eccDefinition.py::compute_mean_anomaly", "gw_eccentricity/rational_fit.py::RationalFit", "gw_eccentricity/gw_eccentricity.py::measure_eccentricity"]}
{"id": "C100", "title": "Finished work is not lost", "statement": "A result of a selected sample that is in the checkpoint when a run starts stays in the checkpoint: at every moment of a distributed run, wherever a serial run is stopped, and at the end. A run that had something to compute, with checkpoints switched on, leaves a checkpoint with the results of the selected samples and nothing else; results of samples that this run does not select are dropped.", "quantifier": "every posterior, history of runs, selection, batch size, number of workers, save interval, schedule and crash point", "why_tests_cant": "every history of runs and every interleaving", "anchors": ["gw_eccentricity/postprocess/postprocess_cli.py::master", "gw_eccentricity/postprocess/postprocess_cli.py::save_checkpoint"]}
{"id": "C101", "title": "Options that do not apply have no effect", "statement": "Options that do not concern a call do not change it: filter_kwargs for a system that does not precess, and kwargs_for_fits_methods and refine_extrema for the four methods without fits, may have any value at all (including unknown keys and values of the wrong kind, which are then not reported). The waveform data, the warnings, the exception if any, and every entry of the returned dictionary but the object itself are the same.", "quantifier": "every waveform, method, frame, option values, reference times or frequencies, and behaviour of outside code", "why_tests_cant": "a relation between pairs of runs over all inputs and all values of the options", "anchors": ["gw_eccentricity/eccDefinition.py::eccDefinition.__init__", "gw_eccentricity/eccDefinitionUsingFrequencyFits.py::eccDefinitionUsingFrequencyFits", "gw_eccentricity/gw_eccentricity.py::measure_eccentricity"]}
{"id": "C102", "title": "Only the recognized keys of the waveform dictionary matter", "statement": "Below debug level 2, measure_eccentricity depends on the waveform dictionary only through the values under the recognized keys: further entries, and the order of the entries, change neither the result, the exception, the options nor the caller's other objects, and no warning but the ones about unknown keys.", "quantifier": "every waveform, further entries and order of entries, method, frame, option, reference times or frequencies, debug level -1, 0 or 1, and behaviour of outside code", "why_tests_cant": "a relation between pairs of runs over all dictionaries", "anchors": ["gw_eccentricity/eccDefinition.py::process_data_dict", "gw_eccentricity/eccDefinition.py::get_recognized_dataDict_keys", "gw_eccentricity/load_data.py::get_coprecessing_data_dict", "gw_eccentricity/gw_eccentricity.py::measure_eccentricity"]}
{"id": "C103", "title": "Complex modes and amplitudes with phases are interchangeable", "statement": "A waveform given as hlm, and the same waveform given as amplm and phaselm, are measured with the same result, exception and warnings; the same for the zeroecc data. With precessing data in the inertial frame this holds for data without zeroecc; with zeroecc data it fails: zeroecc amplitudes and phases are left in the inertial frame, so residual methods return other eccentricities than for the same data given as hlm_zeroecc.", "quantifier": "every waveform and circular counterpart, method, option, reference times or frequencies, and behaviour of outside code; debug levels -1, 0 and 1 (-1 and 0 with the change of frame)", "why_tests_cant": "a relation between pairs of runs over all waveforms", "anchors": ["gw_eccentricity/eccDefinition.py::get_amp_phase_omega_data", "gw_eccentricity/eccDefinition.py::transform_inertial_to_coprecessing", "gw_eccentricity/eccDefinition.py::get_hlm_from_amplm_phaselm", "gw_eccentricity/eccDefinition.py::process_data_dict"]}
{"id": "C104", "title": "Only the (2, 2) mode and the merger time matter without precession", "statement": "For a system that does not precess, two waveforms with the same (2, 2) mode, and with the peak of the total amplitude at the same time, are measured with the same result, exception and warnings, whatever other modes they have; likewise for the circular counterpart.", "quantifier": "every waveform and circular counterpart in either form without frequencies of its own, every method, option, truncation and reference times or frequencies, and behaviour of outside code; debug levels -1, 0 and 1", "why_tests_cant": "a relation between pairs of runs over all sets of further modes", "anchors": ["gw_eccentricity/eccDefinition.py::get_amp_phase_omega_gw", "gw_eccentricity/eccDefinition.py::process_data_dict", "gw_eccentricity/eccDefinition.py::compute_res_amp_gw_and_res_omega_gw", "gw_eccentricity/gw_eccentricity.py::measure_eccentricity"]}
{"id": "C105", "title": "A waveform whose phase has the wrong sign is never measured", "statement": "Whatever is measured has a phase at least two orbits further at the merger than at the first sample, and a frequency at the merger that is not negative. If a waveform can be measured, then the one with the same times and amplitudes and all phases of the opposite sign makes every call raise.", "quantifier": "every waveform in either form, with or without given frequencies, every method, option, truncation, debug level and reference, behaviour of outside code, and pair of calls; systems that do not precess, and precessing ones given in the coprecessing frame", "why_tests_cant": "that no input of the wrong sign gets through any method and option set is a universal negative", "anchors": ["gw_eccentricity/eccDefinition.py::process_data_dict", "gw_eccentricity/eccDefinition.py::get_width_for_peak_finder_from_phase_gw", "gw_eccentricity/eccDefinition.py::get_index_at_num_orbits_earlier_than_merger", "gw_eccentricity/gw_eccentricity.py::measure_eccentricity"]}
{"id": "C106", "title": "Origin of the phases", "statement": "Only differences of phase count: a constant added to the phase of each mode, another one for every mode, of the waveform and of its circular counterpart, changes neither what measure_eccentricity logs, nor whether and what it raises, nor the eccentricities, mean anomalies and reference points it returns.", "quantifier": "every waveform with or without given frequencies and circular counterpart, every constant for every mode, method, option, truncation and reference; systems that do not precess, and precessing ones given in the coprecessing frame; outside code (interpolation, peak search, fits, filter) that depends on phases through differences only", "why_tests_cant": "a relation between pairs of runs over all waveforms and all constants", "anchors": ["gw_eccentricity/eccDefinition.py::process_data_dict", "gw_eccentricity/eccDefinition.py::get_index_at_num_orbits_earlier_than_merger", "gw_eccentricity/eccDefinition.py::get_amp_phase_omega_gw_segments", "gw_eccentricity/eccDefinition.py::check_extrema_separation", "gw_eccentricity/gw_eccentricity.py::measure_eccentricity"]}
{"id": "C107", "title": "Unit of the amplitudes", "statement": "The unit of the amplitudes (the distance to the source) does not matter: multiplying all amplitudes of the waveform and of its circular counterpart by the same positive factor changes neither what measure_eccentricity logs, nor whether and what it raises, nor the eccentricities, mean anomalies and reference points it returns, unless a method that looks for extrema of the amplitude is given levels for find_peaks.", "quantifier": "every waveform given by amplitudes and phases, with or without given frequencies and circular counterpart, every factor k > 0, every method, option, truncation and reference; systems that do not precess, and precessing ones given in the coprecessing frame; outside code whose peaks do not depend on the unit of the data", "why_tests_cant": "a relation between pairs of runs over all waveforms and all factors", "anchors": ["gw_eccentricity/eccDefinition.py::process_data_dict", "gw_eccentricity/eccDefinition.py::get_default_extrema_finding_kwargs", "gw_eccentricity/eccDefinitionUsingAmplitude.py::get_data_for_finding_extrema", "gw_eccentricity/gw_eccentricity.py::measure_eccentricity"]}
