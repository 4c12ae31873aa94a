(** Property theorem about what else is in the waveform dictionary (C102). *)
From Verif Require Import Base UtilsModel UtilsSpec ExtremaModel MeasureModel SegmentModel DataModel DataSpec DataTotal Toy InitModel InitSpec InitToy ExtraSpec InitExtra.
Open Scope string_scope.
Open Scope nat_scope.

(** C102.  Below debug level 2, two calls on waveform dictionaries that say the same under the recognized keys, in whatever order
    and with whatever further entries, have the same result or exception, the returned object included, and the same warnings but
    for those about unknown keys; the caller's dictionaries still say the same afterwards, and all other objects are the same. *)
Theorem C102_only_known_keys : forall C V (L : library C V) m a p h h2 x, In (a_level a) [-1; 0; 1]%Z -> same_but p h h2 ->
  let r := measure_eccentricity L m a p {| wd_heap := h; wd_extra := x |} in
  let r2 := measure_eccentricity L m a p {| wd_heap := h2; wd_extra := x |} in
  same_but p (wd_heap (fst r)) (wd_heap (fst r2)) /\ wd_extra (fst r) = wd_extra (fst r2) /\
  but_unknown (fst (snd r)) = but_unknown (fst (snd r2)) /\ snd (snd r) = snd (snd r2).
Proof. exact unknown_claim. Qed.
Print Assumptions C102_only_known_keys.
Example C102_only_known_keys_ex : let d := (("mass", VOther ex_c) :: rev in_zero ++ [("time", VArr ex_c [5%Q])])%list in
  let a := with_level (in_args (Some (RScalar 6)) None false) 1 in
  same_but 0 (in_heap in_zero) (in_heap d) /\
  in_error (measure_eccentricity in_lib "ResidualAmplitude" a 0 (in_world in_zero (Some in_spline))) = None /\
  length (fst (snd (measure_eccentricity in_lib "ResidualAmplitude" a 0 (in_world d (Some in_spline))))) =
    length (fst (snd (measure_eccentricity in_lib "ResidualAmplitude" a 0 (in_world in_zero (Some in_spline))))) + 2.
Proof.
  cbv zeta. split.
  - split; [intros [|q] H; [congruence|reflexivity]|]. eexists _, _. split; [reflexivity|]. split; [reflexivity|].
    split; [exact in_zero_keys|]. split; [cbn; repeat (constructor; [cbn; intuition discriminate|]); constructor|].
    intros k H. repeat (destruct H as [<-|H]; [vm_compute; reflexivity|]). destruct H.
  - vm_compute. auto.
Qed.
