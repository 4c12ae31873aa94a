(** Property theorems about the two forms of a waveform (C103): complex modes, or amplitudes and phases. *)
From Verif Require Import Base UtilsModel UtilsSpec ExtremaModel MeasureModel SegmentModel DataModel DataSpec DataTotal Toy InitModel InitSpec InitToy ExtraSpec FormSpec InitForm FormToy.
Open Scope string_scope.
Open Scope nat_scope.

(** C103.  Below debug level 2 and without a change of frame, it does not matter whether the waveform, its circular counterpart,
    or both, are given as complex modes or as the amplitudes and phases of these modes: same result or exception, the returned
    object included, same options afterwards, and same warnings but for those about unknown keys. *)
Theorem C103_forms : forall C V (L : library C V) p m a h h2 x, In (a_level a) [-1; 0; 1]%Z ->
  a_precessing a && String.eqb (a_frame a) "inertial" = false -> other_forms L p h h2 ->
  let r := measure_eccentricity L m a p {| wd_heap := h; wd_extra := x |} in
  let r2 := measure_eccentricity L m a p {| wd_heap := h2; wd_extra := x |} in
  wd_extra (fst r) = wd_extra (fst r2) /\ but_unknown (fst (snd r)) = but_unknown (fst (snd r2)) /\ snd (snd r) = snd (snd r2).
Proof. exact @form_claim. Qed.
Print Assumptions C103_forms.
Example C103_forms_ex : other_forms fo_lib 0 [OTop ex_c fo_complex2] [OTop ex_c fo_polar2] /\
  in_error (fo_plain "ResidualAmplitude" fo_complex2) = None /\ in_out (fo_plain "ResidualAmplitude" fo_complex2) = in_out (fo_plain "ResidualAmplitude" fo_polar2).
Proof. split; [exact (both_other _ _ _ _ _ _ fo_counterpart)|]. vm_compute. auto. Qed.

(** C103.  With precessing data in the inertial frame the same holds at debug levels -1 and 0 for a waveform without a circular
    counterpart, if a complex number is given back by its modulus and phase. *)
Theorem C103_frame : forall C V (L : library C V) p m a h h2 x, polar_numbers L -> In (a_level a) [-1; 0]%Z ->
  a_precessing a = true -> a_frame a = "inertial" -> both_forms L p h h2 false ->
  let r := measure_eccentricity L m a p {| wd_heap := h; wd_extra := x |} in
  let r2 := measure_eccentricity L m a p {| wd_heap := h2; wd_extra := x |} in
  wd_extra (fst r) = wd_extra (fst r2) /\ but_unknown (fst (snd r)) = but_unknown (fst (snd r2)) /\ snd (snd r) = snd (snd r2).
Proof. exact @frame_claim. Qed.
Print Assumptions C103_frame.
Example C103_frame_ex : both_forms fo_lib 0 [OTop ex_c fo_complex] [OTop ex_c fo_polar] false /\ polar_numbers fo_lib /\
  in_error (fo_run "Amplitude" fo_polar) = None /\ in_out (fo_run "Amplitude" fo_complex) = in_out (fo_run "Amplitude" fo_polar).
Proof. split; [exact fo_alone|]. split; [exact fo_numbers|]. vm_compute. auto. Qed.

(** C103, finding.  With a circular counterpart it matters: given as amplitudes and phases, the counterpart is left in the
    inertial frame, and the residuals, the eccentricity and the mean anomaly come out different. *)
Theorem C103_counterpart_refuted : exists (L : library ex_c Q) m a h h2 x, polar_numbers L /\ a_level a = 0%Z /\ a_precessing a = true /\
  a_frame a = "inertial" /\ both_forms L 0 h h2 true /\
  let r := measure_eccentricity L m a 0 {| wd_heap := h; wd_extra := x |} in
  let r2 := measure_eccentricity L m a 0 {| wd_heap := h2; wd_extra := x |} in
  in_error r = None /\ in_error r2 = None /\ in_out r <> in_out r2 /\ in_data r <> in_data r2.
Proof. exact fo_refuted. Qed.
Print Assumptions C103_counterpart_refuted.
(** The residual amplitude subtracts the (2, 2) mode of the inertial frame instead of that of the coprecessing frame. *)
Example C103_counterpart_ex :
  in_data (fo_run "ResidualAmplitude" fo_polar2) = map2 (fun x y => Qred (x - y)) fo_amp fo_circ /\
  in_data (fo_run "ResidualAmplitude" fo_complex2) = map2 (fun x y => Qred (x - y)) fo_amp (map2 Qplus fo_circ fo_side).
Proof. vm_compute. auto. Qed.
