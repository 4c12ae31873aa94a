(** Property theorems about the sign of the phase (C105). *)
From Verif Require Import Base UtilsModel UtilsSpec ExtremaModel MeasureModel SegmentModel DataModel DataSpec DataTotal Toy InitModel InitSpec InitToy FormSpec FormToy ModeSpec ModeToy SignSpec InitSign SignToy.
Open Scope string_scope.
Open Scope nat_scope.

(** C105.  Whatever is measured, in a call without a change of frame, has a phase that is at least two orbits (8 pi) further at the
    merger than at the first sample, and a frequency at the merger that is not negative. *)
Theorem C105_upright : forall C V (L : library C V) p m a h x w' l r, a_precessing a = false \/ a_frame a <> "inertial" ->
  measure_eccentricity L m a p {| wd_heap := h; wd_extra := x |} = (w', (l, Ok r)) ->
  exists d dph w, is_dict h p d /\ at_merger L h d (a_precessing a) dph w /\ (8 * np_pi <= dph)%Q /\ (0 <= w)%Q.
Proof. exact @upright. Qed.
Print Assumptions C105_upright.
Example C105_upright_ex : in_error (fo_plain "Amplitude" fo_polar) = None /\ in_error (si_run "Amplitude" fo_polar) = None.
Proof. vm_compute. auto. Qed.

(** C105.  If a waveform can be measured, by any method and with any options, then the waveform with the same times and amplitudes
    and all phases of the opposite sign cannot: every call raises. *)
Theorem C105_one_sign : forall C V (L : library C V) p m m2 a a2 h h2 x x2 d d2 w' l r, opposite_sign L p h h2 d d2 ->
  a_precessing a = a_precessing a2 -> a_precessing a = false \/ (a_frame a <> "inertial" /\ a_frame a2 <> "inertial") ->
  measure_eccentricity L m a p {| wd_heap := h; wd_extra := x |} = (w', (l, Ok r)) ->
  exists e, snd (snd (measure_eccentricity L m2 a2 p {| wd_heap := h2; wd_extra := x2 |})) = Err e.
Proof. exact @sign_claim. Qed.
Print Assumptions C105_one_sign.
Example C105_one_sign_ex : opposite_sign fo_lib 0 [OTop ex_c fo_polar] [OTop ex_c si_wrong] fo_polar si_wrong /\
  in_error (si_run "Amplitude" fo_polar) = None /\ in_error (si_run "Amplitude" si_wrong) = Some GenericException.
Proof. split; [exact si_opposite|]. vm_compute. auto. Qed.
