(** Property theorems about the unit of the amplitudes (C107).  [loud_world k holds w w'] says that the caller's memory is the same
    but for the amplitudes, which are all multiplied by k; see LoudSpec.v, and OriginSpec.v for [equal_return].  ScaleCallSpec.v
    says what is asked of the code outside the model: with the unit of time kept it comes to depending on the values of numbers
    only, peaks found at the same samples of data that are k times as large, and square roots. *)
From Verif Require Import Base UtilsModel RationalModel MeasureModel DataModel InitModel ScaleSpec ScaleCallSpec OriginSpec LoudSpec LoudLemmas InitToy ScaleCallToy LoudToy.
Open Scope string_scope.
Open Scope nat_scope.

(** C107.  The unit of the amplitudes does not matter: a factor k > 0 on all amplitudes of the waveform and of its circular
    counterpart does not change what measure_eccentricity logs, whether and what it raises, and what it returns.  For every
    method, option and reference point, without precession or in the coprecessing frame, unless "Amplitude" or
    "ResidualAmplitude" is given levels for find_peaks.  ([calls_scale] asks for k > 0.) *)
Theorem C107_distance : forall C V k holds (L : library C V) m x p w w',
  library_scale 1 0 L -> calls_scale 1 0 (louder k) holds L m x ->
  (spline_chosen (wd_extra w) \/ fit_affine 1 0 (lib_rational L)) -> level_free m (wd_extra w) -> loud_world k holds w w' ->
  let r := measure_eccentricity L m x p w in
  let r' := measure_eccentricity L m x p w' in
  fst (snd r') = fst (snd r) /\ same_res equal_return (snd (snd r)) (snd (snd r')) /\ wd_extra (fst r') = wd_extra (fst r).
Proof. exact @loud_call. Qed.
Print Assumptions C107_distance.
(** The example waveform and its circular counterpart, 20 times as loud. *)
Example C107_distance_ex :
  let x := in_args (Some (RArr [6; 7]%Q)) None true in
  let w := in_world in_zero (Some in_spline) in
  let w' := loud_w 20 in_zero (Some in_spline) in
  (library_scale 1 0 in_lib /\ calls_scale 1 0 (louder 20) in_kinds in_lib "ResidualAmplitude" x /\ spline_chosen (wd_extra w) /\
   level_free "ResidualAmplitude" (wd_extra w) /\ loud_world 20 in_kinds w w') /\
  in_out (measure_eccentricity in_lib "ResidualAmplitude" x 0 w) =
    Ok [("eccentricity", [5 # 31; 5 # 32]); ("mean_anomaly", [0; np_pi]); ("tref_out", [6; 7])]%Q /\
  in_out (measure_eccentricity in_lib "ResidualAmplitude" x 0 w') =
    Ok [("eccentricity", [5 # 31; 5 # 32]); ("mean_anomaly", [0; np_pi]); ("tref_out", [6; 7])]%Q.
Proof.
  cbv zeta. split; [|split; vm_compute; reflexivity].
  split; [exact (in_library 1 0 eq_refl)|]. split; [apply in_calls; [reflexivity|reflexivity|left; discriminate]|].
  split; [exists in_spline; split; reflexivity|]. split; [|exact (loud_w_loud 20 _)].
  right. intros e u He Hu. injection He as <-. discriminate Hu.
Qed.
(** C107, finding.  Levels given to find_peaks are in the unit of the amplitudes: with the height -1000 the example is measured,
    and a waveform 20 times as loud has no apocenters any more. *)
Theorem C107_levels_refuted : exists k (L : library _ _) x w w', library_scale 1 0 L /\ calls_scale 1 0 (louder k) in_kinds L "Amplitude" x /\
  spline_chosen (wd_extra w) /\ loud_world k in_kinds w w' /\
  in_out (measure_eccentricity L "Amplitude" x 0 w) =
    Ok [("eccentricity", [5 # 31; 5 # 32]); ("mean_anomaly", [0; np_pi]); ("tref_out", [6; 7])]%Q /\
  in_out (measure_eccentricity L "Amplitude" x 0 w') = Err GenericException.
Proof. exact loud_refuted. Qed.
Print Assumptions C107_levels_refuted.
