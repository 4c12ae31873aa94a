(** Property theorem about the modes that matter for a system that does not precess (C104). *)
From Verif Require Import Base UtilsModel UtilsSpec ExtremaModel MeasureModel SegmentModel DataModel DataSpec DataTotal Toy InitModel InitSpec InitToy ExtraSpec FormSpec FormToy ModeSpec InitModes ModeToy.
Open Scope string_scope.
Open Scope nat_scope.

(** C104.  Below debug level 2 and for a system that does not precess, two waveforms with the same (2, 2) mode and the same time of
    the merger, whatever other modes they have, and whichever form they are given in, give the same result or exception, the
    returned object included, the same options afterwards, and the same warnings but for those about unknown keys; the same holds
    for the modes of the circular counterpart.  The caller's data is left as it was. *)
Theorem C104_only_22 : forall C V (L : library C V) m a p h h2 x, In (a_level a) [-1; 0; 1]%Z -> a_precessing a = false -> agree_in_22 L p h h2 ->
  let r := measure_eccentricity L m a p {| wd_heap := h; wd_extra := x |} in
  let r2 := measure_eccentricity L m a p {| wd_heap := h2; wd_extra := x |} in
  wd_heap (fst r) = h /\ wd_heap (fst r2) = h2 /\ wd_extra (fst r) = wd_extra (fst r2) /\
  but_unknown (fst (snd r)) = but_unknown (fst (snd r2)) /\ snd (snd r) = snd (snd r2).
Proof. exact modes_claim. Qed.
Print Assumptions C104_only_22.
Example C104_only_22_ex : agree_in_22 fo_lib 0 [OTop ex_c mo_alone] [OTop ex_c mo_many] /\
  let out := Ok [("eccentricity", [-1125899906842624 # 2652839157010665]); ("mean_anomaly", [2652839157010665 # 562949953421312]); ("tref_out", [6])]%Q in
  in_out (fo_plain "ResidualAmplitude" mo_alone) = out /\ in_out (fo_plain "ResidualAmplitude" mo_many) = out.
Proof. split; [exact mo_agree|]. cbv zeta. split; vm_compute; reflexivity. Qed.
