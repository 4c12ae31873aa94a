# Formal model of gw_eccentricity in Rocq

This directory holds a machine-checked model of the Python package
`gw_eccentricity` (source in /repo) and theorems about it.
`properties.jsonl` lists the properties in English.
`MANIFEST.json` maps each property to the theorems that settle it.
`seeded/LOG.jsonl` records the wrong programs the theorems were tested against.

## How the model is built

* Every Python function that is modelled becomes a total Gallina function, branch by branch.
  An exception is a value: `Err e`, with `e` the exception class. Messages are not modelled.
* `while` loops become recursion on explicit fuel. Running out of fuel is a separate
  error value `OutOfFuel`, which no Python exception maps to. Termination theorems prove
  that it never occurs for a stated fuel.
* A Python dictionary is an association list in insertion order.
* Mutable aliasing (dictionaries shared with the caller) is modelled with an explicit heap
  where a property depends on it.
* External numerical routines (`scipy.signal.find_peaks`, splines, `least_squares`,
  `curve_fit`, linear solvers, the quaternion frame rotation) are universally quantified
  functions (section variables closed by the end of the section, so each theorem quantifies over them).
  Where a theorem needs a contract of such a routine, the contract is a hypothesis of the theorem.

### Numbers

Every finite IEEE double is a rational number.
Array and index code is modelled over `Q`, with exact instead of rounded operations.
NaN and infinities are excluded, except that ratios with zero denominator follow the numpy
comparison result (see `ratio_gt`, `ratio_lt`).
`np.pi` is the exact dyadic rational stored in the double.
Square roots, arctangents, cosines and powers live in `R`; rational inputs are injected by `Q2R`.

## Files (rocq/theories)

Every group has the same shape. `*Model.v` holds definitions only, each citing file and lines in /repo.
`*Spec.v` holds the vocabulary of the statements. `*Lemmas.v` and the other files of the group hold proofs.
`Props_*.v` holds the theorems, each closed by `exact`, followed by `Print Assumptions` and an example that
meets the hypotheses. The data of the examples is in `Toy.v`, `InitToy.v` and at the end of the lemma files.

| Group | Models |
|---|---|
| `Base`, `BaseLemmas` | result type, dictionaries, Python list and numpy array primitives |
| `Utils*`, `DerivLemmas`, `PeakLemmas`, `Props_Utils` | utils.py |
| `Extrema*`, `Props_Extrema` | clean-up of detected extrema, eccDefinition.py 1261-1533 and 4439-4465 |
| `Rational*`, `Props_Rational` | rational_fit.py and the choice of degrees, eccDefinition.py 1535-1710 |
| `Ecc*`, `Props_Ecc` | eccentricity formulas over the reals, eccDefinition.py 2540-2585 |
| `Measure*`, `LevelLemmas`, `AverageLemmas`, `Toy`, `Props_Measure`, `Props_Diag` | the measurement, eccDefinition.py 1720-1912, 2320-2888, 2946-3417 |
| `Segment*`, `Props_Segment` | short segments, eccDefinition.py 508-520 and 1914-2135 |
| `Data*`, `Props_Data` | reading, transforming and truncating the waveform, eccDefinition.py 597-1174, load_data.py 1554-1676 |
| `Init*`, `Option*`, `Props_Init` | construction of objects and measure_eccentricity, eccDefinition.py 421-595, 1176-1245, 2890-2944, gw_eccentricity.py, constructors of the six methods |
| `Fits*`, `Env*`, `Props_Fits` | the extrema search of the fit methods, eccDefinitionUsingFrequencyFits.py 15-47 and 160-1009; utils.py 427-433 |
| `Filter*`, `Mask*`, `Props_Filter` | the filter for spin-induced oscillations, spin_filter.py; the low-pass mask also over the reals |
| `Helper*`, `CompareLemmas`, `Props_Helpers` | compare_methods.py; truncate_waveform_by_flow.py up to the constructor; modes as columns and removal of junk, load_data.py 1421-1615 |
| `Load*`, `Download*`, `Props_Load`, `Props_Download` | loading waveforms, load_data.py 20-1418 and 1697-1984 |
| `Plot*`, `Props_Plot` | the diagnostic plots, eccDefinition.py 3419-4385 |
| `IdleSpec`, `InitIdle`, `Props_Idle` | pairs of calls whose options differ where they do not apply, eccDefinition.py 421-595 (options 482-559) and eccDefinitionUsingFrequencyFits.py for what only the fits read |
| `ExtraSpec`, `InitExtra`, `Props_Extra` | pairs of calls whose waveform dictionaries agree on the recognized keys, eccDefinition.py 421-595, 597-1065 and load_data.py 1618-1676 |
| `FormSpec`, `InitForm`, `FormToy`, `Props_Form` | pairs of calls on the two forms of a waveform, eccDefinition.py 614-730, 824-1002 |
| `ModeSpec`, `InitModes`, `ModeToy`, `Props_Modes` | pairs of calls on waveforms with other modes than (2, 2), eccDefinition.py 614-730, 824-918, 1004-1142, 2890-2944 |
| `SignSpec`, `InitSign`, `SignToy`, `Props_Sign` | the sign of the phase of what is measured, eccDefinition.py 614-730, 866-898, 1004-1174 |
| `OriginSpec`, `OriginLemmas`, `OriginToy`, `Props_Origin` | two calls whose phases have different origins; builds on the `Scale*` files |
| `LoudSpec`, `LoudLemmas`, `LoudToy`, `Props_Loud` | two calls whose amplitudes differ by a factor; builds on the `Scale*` files |
| `Whole*`, `Props_Whole` | the search of the fit methods as the finder of a whole call, eccDefinitionUsingFrequencyFits.py 144-158 |
| `Scale*`, `Props_Scale` | no new code: the measurement of `Measure*` and the fitter of `Rational*` in other units of time |
| `Post*`, `ParseLemmas`, `Props_Post` | postprocess/core.py, postprocess.py 207-254 and 368-399, postprocess_cli.py 48-79 |
| `Mpi*`, `Props_Mpi` | postprocess_cli.py 122-227 and 262-446: serial run, master, workers, checkpoints |

## Plan per property

| Property | What is modelled and how it is proved |
|---|---|
| C01, C02 | entry point with an abstract constructor; case analysis |
| C03 | `process_data_dict` over key sets; decision rule |
| C04 | dictionary fill; induction over both dictionaries |
| C05 | message log monad; relational induction over the pipeline |
| C06, C07 | finite-difference and least-squares kernels over Q; ring identities for arbitrary polynomials |
| C08-C10 | `interpolate`, `get_interpolant` with a spline oracle; history as a fold |
| C11-C15 | extrema cleaning as list functions; sublist and bound lemmas by induction |
| C16-C20 | whole `measure_ecc` control flow with oracles for extrema and fits |
| C21-C23 | formula over R with sqrt, atan, cos; trigonometric triple-angle identity |
| C24, C25 | mean anomaly over Q; search by induction |
| C26-C29 | averaging and inversion over Q, with interpolation oracle; cache as state machine |
| C30-C34, C36 | data processing with explicit heap; slicing lemmas |
| C35 | segment selection over Q |
| C37-C41 | loops with oracles and fuel; measure arguments |
| C42 | R, real power function |
| C43-C46, C62, C74-C77 | mask over R and Q; recombination over Q; sweep with fuel; dictionary and failures by case analysis; composed with the model of the constructor |
| C47 | sequential map with per-sample errors |
| C48-C52, C55 | master/worker transition system with arbitrary schedules and crashes; invariants |
| C53, C54 | folds over results; string parser on character lists |
| C56-C60, C62, C63 | direct models of the helper functions |
| C78-C88, C90-C92 | all loaders of load_data.py, with the waveform libraries and file contents as oracles; two runs related by equal keywords; the retry loop by induction; list lemmas for windows |
| C89 | the directory as a state, one step per file, interruption after any step; induction over files and histories |
| C93-C97 | plot functions as functions from the object to what is drawn, figures and axes as a state; a relation "only caches were filled" kept by every plot |
| C98 | the whole call composed with the modelled search; inversion of a returning call down to the lists the finder returned |
| C99 | two runs on objects that hold the same waveform in different units, related step by step through every function of the measurement, and of the constructor for whole calls |
| C100 | the checkpoint after each step is the one before or the results so far, in which loaded results stay at their positions; invariant over every schedule |
| C101 | two calls related step by step through the constructor; the objects differ at most in the stored options of the fits, which methods without fits do not read |
| C102 | two calls related step by step; the dictionaries agree on the recognized keys through reading, frame change and truncation, after which the processed dictionaries are equal |
| C103 | two calls related step by step: both forms are read as the same amplitudes and phases, before or after the frame change; a witness for the failure with a circular counterpart |
| C104 | two calls related step by step: the dictionaries made have the same keys and the same (2, 2) modes, and nothing else of them is used after the merger is known |
| C105 | inversion of a call that returns: the check of the width asks for two orbits before the merger, and the peak of the amplitudes, so the sample of the merger, does not depend on the phases; calls without a change of frame only, as the frame change is an oracle |
| C106 | two runs related as for C99, with the units kept and a constant added to the phases of every mode; precessing systems in the coprecessing frame only, because a change of frame mixes the modes |
| C107 | two runs related as for C99, with the unit of time kept and all amplitudes multiplied by a factor; precessing systems in the coprecessing frame only; a level given to find_peaks is in the unit of the amplitudes, so the full statement is refuted by an example |
| C61 | composed constructor; the same run with and without the zeroecc entries, related step by step |

## Trusted base

* The Rocq (Coq 8.16.1) kernel, including `vm_compute`, which only examples use.
* No axiom is added by this development. `Print Assumptions` beneath each theorem says
  "Closed under the global context" for every theorem except these:

  | Theorems | Axioms, all from the standard library |
  |---|---|
  | `C60_total`, `C43_real`, `C43_continuous` | `ClassicalDedekindReals.sig_not_dec`, `ClassicalDedekindReals.sig_forall_dec`, `FunctionalExtensionality.functional_extensionality_dep` |
  | `C21_range_and_sign`, `C21_increasing_in_ratio`, `C22_newtonian_orbit`, `C22_frequencies_exist`, `C23_scale_free`, `C99_formula`, `C42_centre`, `C42_reaches`, `C42_increasing`, `C42_secular` | the same three and `Classical_Prop.classic` |

  The first three come with the real numbers of the standard library, `classic` with its analysis.
* The reading of the Python source: that each definition does what the cited lines do, under the simplifications
  stated in its comment and in this file.
* The assumptions below about what is outside the model.

## What is outside the model, and what is assumed of it

External numerical routines are quantified over. A theorem about a call holds for every behaviour of them, unless a
hypothesis of the theorem restricts it.

* `scipy.signal.find_peaks`, the splines, `curve_fit`, `least_squares`, `np.polyfit`, `np.linalg.solve` and `svd`: functions from
  their arguments to a result or an exception. They are deterministic and keep no state.
* The extrema finders of the methods: a function from the object's data to locations or an exception. It is taken not to
  depend on the debug level. The search of the fit methods itself is modelled in `Fits*`, and `C98_fits` and `C98_short` put it
  in its place (`num_orbits` a whole number that is not negative, the other options numbers); what it stores in `periastron_info` and `apastron_info` is read by no other part of the code.
* The rotation to the coprecessing frame (`scri`): a function of the packed modes.
* The spin-induced oscillation filter inside a call: a function of the data; `C61_filter`, `C76_measured` and `C77_measured` put the modelled
  filter in its place. Of the filter itself the fit of the trend, the peak finder, the cubic interpolation, the windows, the
  cosine and the Fourier transforms are functions; a theorem that needs more says so in its hypotheses (`window`, `hann_like`,
  `cosine_like`).
* `get_data_dict` and the measurement inside post-processing: functions of the sample's parameters.
* MPI: point-to-point messages between master and one worker arrive in order and are not lost. Messages of different
  workers interleave arbitrarily. `recv(ANY_SOURCE)` takes any message that is there.
* Checkpoint files: a write replaces the file at once. What a torn write does is `C50_torn_refuted`.
* Loading (record `sources`): the constants of lal, the waveform generators, the frequency estimate, splines, the phase of a
  mode, and what is in the files: strain, memory correction, metadata, horizons, EOB and EMRI data. All are arbitrary functions
  and constants; `C80_call` assumes that the constants are positive. A file does not change while it is being loaded.
* Downloading (record `server`): expansion of `~`, the catalogue and the links, all arbitrary. A transfer is one step, so an
  interruption falls between two files; one in the middle of a transfer is not modelled.
* Numbers: rounding, overflow, NaN and infinities are not modelled. Times and waveform samples are rationals.
  Where Python would produce NaN or infinity the model returns the error value `NonFinite`, which no theorem counts as success.
* Text of messages, progress bars and logging.
* Plots: matplotlib puts what it is given on the axis it is given. Colours, labels, legends, fonts and the texts in the panels are not modelled,
  except which options a curve gets. The slope of the eccentricity is modelled by its sign.
* Strings are ASCII.

Not modelled at all: plot_settings.py except the names of its styles, labels and save_debug_fig in eccDefinition.py 4387-4437, load_h22_from_EOBfile (which nothing
calls) and get_load_waveform_docs in load_data.py, and the tests.

## Findings

Statements one would expect from the documentation and that are false of the model (and of the code it cites):

* C08: the monotonic interpolator returns nan for points within 1e-10 outside the data (`C08_monotonic_spline_nan_refuted`).
* C09: a caller's `ext` in shared spline options is overwritten (`C09_user_ext_lost_refuted`).
* C13, C14: at the start of the data the wide gap, or the close pair, that triggers dropping is never removed
  (`C13_start_jump_survives`, `C14_start_pair_survives`).
* C26: the documented inclusive upper bound of `fref_in` is exclusive (`C26_upper_bound_refuted`).
* C31, C32: two kinds of dataDict are modified by a call so that a second identical call fails or differs
  (`C31_omegalm_shortened`, `C32_omegalm_second`, `C31_hlm_added`, `C32_second_call_rejected`).
* C29: with rational fits and reference frequencies a second measurement can change the bounds that `get_fref_bounds` reports
  (`C29_rational_refuted`).
* C32: with rational fits a second measurement of the same object can differ (`C32_rational_refuted`).
* C35: a reference time at the last sample lies outside its own segment (`C35_last_sample_refuted`).
* C39: a rational fit without any completed iterate raises (`C39_no_iterate`).
* C40: with `num_orbits` = 1 the search of the fit methods can index outside its arrays (`C40_single_orbit_refuted`).
* C41: an exception inside that search leaves the caller's time array shifted by the merger time (`C41_times`).
* C43: the mask is not symmetric in the sign of the frequency: it is 1 at every negative frequency (`C43_real`).
* C45: by default amplitude and frequency are filtered or not independently of each other (`C45_same_refuted`). The filtered
  phase does not keep the initial value of the phase: it starts at the first filtered frequency times dt (`C45_contract`).
* C46: with `alpha` = 0 the sweep never ends (`C46_alpha_zero`). The first and the last filtered sample copy their
  neighbours, because the window vanishes there (`C46_everywhere`).
* C62: a crossing that falls on a sample is counted twice (`C62_twice`). When filtering is called for, fewer than five
  crossings raise, while the message of the exception asks for two (`C45_contract`, the definition `subject`).
* C76: `precessing=True` fails for every waveform whose modes mirror each other exactly, even with `do_not_filter`, and for every
  waveform that reaches the merger, for example with `num_orbits_to_exclude_before_merger=None` (`C76_symmetric`,
  `C76_merged`, `C76_measured`). `padding_length` = 0 never works, and `taper_width` = 0 divides by zero whenever a frequency
  lies between f_ecc and f_spin (`C76_padding`, `C76_taper`).
* C99: the stopping tolerance of the rational fitter is an absolute number, so with rational fits the result can depend on the
  unit of time (`C99_fitter_refuted`).
* C99: evenly spaced times are recognised with an absolute tolerance of 1e-8 besides the relative one, so a waveform that is
  accepted in one unit of time is rejected in another (`C99_uniform_refuted`).
* C47: a repeated label in the posterior shifts parameters to other samples (`C47_repeated_label_refuted`).
* C49: batch size 0 runs forever (`C49_batch_zero`).
* C100: a run over another selection drops the checkpointed results of samples it does not select
  (`C100_other_selection_refuted`).
* C101: unknown keys and values of the wrong kind in `filter_kwargs` (no precession), `kwargs_for_fits_methods` and
  `refine_extrema` (methods without fits) are accepted in silence (`C101_idle`, `C101_idle_ex`).
* C103: for precessing data in the inertial frame, `amplm_zeroecc` and `phaselm_zeroecc` are kept in the inertial frame while
  the eccentric data is taken to the coprecessing frame, because the first frame change already adds `hlm_zeroecc`; the residual
  methods then return wrong eccentricities (`C103_counterpart_refuted`).
* C107: a height, threshold or prominence in `extrema_finding_kwargs` is in the unit of the amplitudes for the methods that look at
  amplitudes, so that the same options fail for a louder waveform (`C107_levels_refuted`).
* C50: a torn checkpoint makes every restart raise, and the workers hang (`C50_torn_refuted`).
* C52: a label selected n times gives n*n rows in a serial run (`C52_serial_repeats`).
* C55: an empty selection raises before the workers are stopped (`C55_empty`).
* C56: the comparison does not treat mean anomalies 0 and 2 pi as the same, although its comment says so: if the two start on
  different sides of it, every error is off by a turn (`C56_turns`, `C56_turns_refuted`). Measurements without a common time
  give empty results, not an exception (`C56_disjoint`).
* C57: every call of `truncate_waveform_by_flow` raises (`C57_raises`).
* C58: packing modes with `ell_min` below 2 raises IndexError, and with `ell_min` above 2 it leaves columns of zeros at the end
  (`C58_small`, `C58_columns`).
* C59: removing more orbits than there are leaves one sample (`C59_beyond`).
* C61: zeroecc amplitudes and frequencies without `t_zeroecc` make every method raise, also those that do not use them
  (`C61_incomplete`).
* C63: with `fref_in` and short segments the fit's bounds are infeasible for data that starts after t = 0
  (`C63_bounds_infeasible_after_zero`).
* C64: at level 0 or -1 some problems are not reported at all (`C64_silent_refuted`).
* C71: a call writes into the caller's `extra_kwargs["filter_kwargs"]` for precessing systems (`C71_filter_completed`).
* C79: `mean_ano` is required for generated waveforms but has no effect (`C79_mean_anomaly`).
* C83: if the generated waveform has fewer than ten samples before the start of the numerical data, a negative index drops nearly
  all of the quasi-circular data, which then starts later than the numerical data (`C83_refuted`, `C83_counterpart`).
* C86: `LVCNR_hack` data keeps the times of the file: its merger is not at t = 0 (`C86_hack_merger_refuted`).
* C87: without `end_time` an EMRI waveform only loses its last sample instead of ending at the merger (`C87_end_refuted`).
* C89: an unknown simulation leaves an empty directory behind (`C89_unknown`). A file that exists is never repaired, whatever it
  holds (`C89_kept`).
* C90: `metadata_path` has no effect, and the quasi-circular data of a numerical waveform ignores `deltaTOverM`
  (`C90_metadata_path`, `C90_step`).
* C92: since the times of LVCNR_hack data are not measured from the merger, data that starts at t0 >= 0 is always warned of as having a
  too long counterpart when that starts at or before t = 0 (instance: `run_long`).
* C93: an axis given without its figure, or a figure without an axis, is ignored by every plot function (`C93_axis_alone`,
  `C93_figure_alone`).
* C94: the documented residual panels are never shown, and the extrapolation check at eccDefinition.py 2440 is never reached, because both ask
  for the key "hlm_zeroecc" (`C94_keys`). With two columns the time label of the second is on the removed cell (`C94_labels`).
* C95: after a second measurement with rational fits the eccentricity plot shows the curve of the first (`C95_stale_refuted`).
* C96: some plots take options and raise for a colour or a label, others ignore all options (`C96_refused`, `C96_ignored`).
* C97: plotting the average changes what `get_fref_bounds` replies for another averaging method (`C97_bounds_refuted`).

Noted while reading, without a theorem: the documentation of the filter threshold speaks of the maximum of asymmetry and residual, the code takes the mean of
their peaks. The mean anomaly at a pericenter can round to about 2 pi in floating point. The tolerance of the uniform-step
check is absolute (1e-8), so it depends on the units of time. Loading: metadata.txt is
preferred to metadata.json also for the new catalog; in the old format every mode is interpolated with the times of the first;
`mode_array` without (2, 2) raises KeyError unless Horizons.h5 is there.
