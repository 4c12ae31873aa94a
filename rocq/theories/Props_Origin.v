(** Property theorems about the origin of the phases (C106).  [moved_world holds w w'] says that the caller's memory is the same
    but for the phases, where every mode has a constant of its own added; see OriginSpec.v for it and for [equal_return].
    ScaleCallSpec.v says what is asked of the code outside the model: with the units kept it comes to depending on the values of
    numbers only, and on phases only through differences. *)
From Verif Require Import Base UtilsModel RationalModel MeasureModel DataModel InitModel ScaleSpec ScaleCallSpec OriginSpec OriginLemmas InitToy ScaleCallToy OriginToy.
Open Scope string_scope.
Open Scope nat_scope.

(** C106.  The origin of the phases is free: a constant added to the phase of each mode, of the waveform and of its circular
    counterpart, another one for every mode, does not change what measure_eccentricity logs, whether and what it raises, and
    what it returns; the caller's extra_kwargs end up the same.  For every method, set of options and reference point, without
    precession or in the coprecessing frame. *)
Theorem C106_origin : forall C V holds (L : library C V) m x p w w',
  library_scale 1 0 L -> calls_scale 1 0 any_phase holds L m x ->
  (spline_chosen (wd_extra w) \/ fit_affine 1 0 (lib_rational L)) -> moved_world holds w w' ->
  let r := measure_eccentricity L m x p w in
  let r' := measure_eccentricity L m x p w' in
  fst (snd r') = fst (snd r) /\ same_res equal_return (snd (snd r)) (snd (snd r')) /\ wd_extra (fst r') = wd_extra (fst r).
Proof. exact @origin_call. Qed.
Print Assumptions C106_origin.
(** A precessing waveform with its circular counterpart in the coprecessing frame: 3/10 is added to the phase of the (2, 2) mode
    and 1 is taken from that of the (2, -2) mode. *)
Example C106_origin_ex :
  let x := in_args (Some (RArr [6; 7]%Q)) None true in
  let w := in_world in_zero (Some in_spline) in
  let w' := or_world in_zero (Some in_spline) in
  (library_scale 1 0 in_lib /\ calls_scale 1 0 any_phase in_kinds in_lib "ResidualAmplitude" x /\ spline_chosen (wd_extra w) /\
   moved_world in_kinds w w' /\ nth_error (wd_heap w) 2 <> nth_error (wd_heap w') 2) /\
  in_out (measure_eccentricity in_lib "ResidualAmplitude" x 0 w) =
    Ok [("eccentricity", [5 # 31; 5 # 32]); ("mean_anomaly", [0; np_pi]); ("tref_out", [6; 7])]%Q /\
  in_out (measure_eccentricity in_lib "ResidualAmplitude" x 0 w') =
    Ok [("eccentricity", [5 # 31; 5 # 32]); ("mean_anomaly", [0; np_pi]); ("tref_out", [6; 7])]%Q.
Proof.
  cbv zeta. split; [|split; vm_compute; reflexivity].
  split; [exact (in_library 1 0 eq_refl)|]. split; [apply in_calls; [reflexivity|reflexivity|left; discriminate]|].
  split; [exists in_spline; split; reflexivity|]. split; [exact (or_world_moved _)|]. intros H. vm_compute in H. discriminate H.
Qed.
