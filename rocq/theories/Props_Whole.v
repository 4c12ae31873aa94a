(** Properties of the extrema of whole calls (C98). *)
From Verif Require Import Base UtilsModel ExtremaModel ExtremaSpec RationalModel MeasureModel SegmentModel DataModel FitsModel FitsSpec FitsClaims InitModel InitToy OptionSpec WholeModel WholeSpec WholeLemmas WholeToy.
Open Scope string_scope.
Open Scope nat_scope.

(** C98.  For the four peak methods the object's pericenters are a consecutive run of what the peak finder returns for the data of the method, its apocenters of what it
    returns for the negated data (or of the mid points), with the user's finder options completed by the documented ones. *)
Theorem C98_peaks : forall C V (L : library C V) m a p w w' l d o s,
  measure_eccentricity L m a p w = (w', (l, Ok d)) -> slookup d "gwecc_object" = Some (EObject o s) -> s_zero s = Some false ->
  In m ["Amplitude"; "Frequency"; "ResidualAmplitude"; "ResidualFrequency"] -> (forall y k i, lib_peaks L y k = Ok i -> sorted i) ->
  exists y kw peri apo P A, searched m o y /\ s_peri s = Some peri /\ s_apo s = Some apo /\
    lib_peaks L (map (fun x => 1 * x)%Q y) kw = Ok P /\
    (if c_midpoints (b_config (o_base o)) then A = get_apocenters_from_pericenters P else lib_peaks L (map (fun x => -1 * x)%Q y) kw = Ok A) /\
    block_of peri P /\ block_of apo A /\
    forall u, with_options match wd_extra w with None => [] | Some e => e end "extrema_finding_kwargs" u -> exists width, completed u (documented_finder width) kw.
Proof. exact @whole_peaks. Qed.
Print Assumptions C98_peaks.
Example C98_peaks_ex : (forall y k i, lib_peaks wh_lib y k = Ok i -> sorted i) /\
  wh_extrema (wh_call "Amplitude" None) = Ok (Some false, Some [4; 12; 20; 28; 36], Some [8; 16; 24; 32]).
Proof. split; [exact wh_peaks_sorted|vm_compute; reflexivity]. Qed.

(** C98.  For the two fit methods they are consecutive runs of the maxima and minima of the data with its fitted trend removed, found in the object's times counted from the
    merger, its phase and the data of the method, under the user's options completed by the documented ones. *)
Theorem C98_fits : forall C V (L : library C V) env curve_fit find_peaks parabola cubic m a p w w' l d o s,
  lib_fits L = fits_search env curve_fit find_peaks parabola cubic -> peaks_contract find_peaks ->
  measure_eccentricity L m a p w = (w', (l, Ok d)) -> slookup d "gwecc_object" = Some (EObject o s) -> s_zero s = Some false ->
  In m ["AmplitudeFits"; "FrequencyFits"] ->
  exists f peri apo P A info, sees m o f /\ configured match wd_extra w with None => [] | Some e => e end m f /\
    s_peri s = Some peri /\ s_apo s = Some apo /\ found_in env find_peaks parabola cubic f 1 P info /\
    (if c_midpoints (b_config (o_base o)) then A = get_apocenters_from_pericenters P else exists info', found_in env find_peaks parabola cubic f (-1) A info') /\
    block_of peri P /\ block_of apo A.
Proof. intros C V L env curve_fit find_peaks parabola cubic m a p w w' l d o s F. exact (whole_fits L env curve_fit find_peaks parabola cubic F m a p w w' l d o s). Qed.
Print Assumptions C98_fits.
Example C98_fits_ex : lib_fits wh_lib = fits_search toy_env wh_fit toy_find_peaks toy_parabola toy_cubic /\ peaks_contract toy_find_peaks /\
  wh_extrema (wh_call "FrequencyFits" None) = Ok (Some false, Some [4; 12; 20; 28; 36; 44; 52], Some [8; 16; 24; 32; 40; 48]).
Proof. split; [reflexivity|]. split; [exact toy_contract|vm_compute; reflexivity]. Qed.

(** C98.  With a fit method a call returns only if num_orbits is at least one and some phase of the waveform lies more than 1.1 (num_orbits - 1) orbits after the first. *)
Theorem C98_short : forall C V (L : library C V) env curve_fit find_peaks parabola cubic m a p w w' l d o s,
  lib_fits L = fits_search env curve_fit find_peaks parabola cubic ->
  measure_eccentricity L m a p w = (w', (l, Ok d)) -> slookup d "gwecc_object" = Some (EObject o s) -> In m ["AmplitudeFits"; "FrequencyFits"] ->
  forall u, with_options match wd_extra w with None => [] | Some e => e end "kwargs_for_fits_methods" u ->
  exists n ph0 y, or_default u "num_orbits" (LNum 3) = LNum n /\ (1 <= n)%Q /\ nth_error (w_phase (b_wave (o_base o))) 0 = Some ph0 /\
    In y (w_phase (b_wave (o_base o))) /\ (ph0 + (11 # 10) * (n - 1) * 4 * np_pi < y)%Q.
Proof. intros C V L env curve_fit find_peaks parabola cubic m a p w w' l d o s F. exact (whole_short L env curve_fit find_peaks parabola cubic F m a p w w' l d o s). Qed.
Print Assumptions C98_short.
Example C98_short_ex : wh_error (wh_call "FrequencyFits" (Some (wh_orbits 2))) = None /\ wh_error (wh_call "FrequencyFits" (Some (wh_orbits 11))) = Some GenericException /\
  wh_error (wh_call "FrequencyFits" (Some (wh_orbits 0))) = Some GenericException.
Proof. vm_compute. repeat split. Qed.
