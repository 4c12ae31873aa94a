(** Property theorem about options that do not apply to a call (C101). *)
From Verif Require Import Base UtilsModel UtilsSpec ExtremaModel MeasureModel SegmentModel DataModel DataTotal Toy InitModel InitSpec InitToy IdleSpec InitIdle.
Open Scope string_scope.
Open Scope nat_scope.

(** C101.  Two calls whose extra_kwargs agree except on options that do not apply (the filter's options for a system that does
    not precess, the options of the fits for a method without fits) leave the same waveform data, say the same warnings, raise
    the same exception, and return the same entries but for the object itself, which remembers the options it was given. *)
Theorem C101_idle : forall C V (L : library C V) m a p h x y, alike_but (idle m a) x y ->
  let r := measure_eccentricity L m a p {| wd_heap := h; wd_extra := x |} in
  let r2 := measure_eccentricity L m a p {| wd_heap := h; wd_extra := y |} in
  wd_heap (fst r) = wd_heap (fst r2) /\ fst (snd r) = fst (snd r2) /\
  match snd (snd r), snd (snd r2) with
  | Ok d, Ok d2 => forall k, k <> "gwecc_object" -> slookup d k = slookup d2 k
  | Err e, Err e2 => e = e2
  | _, _ => False
  end.
Proof. exact idle_claim. Qed.
Print Assumptions C101_idle.
(** Wrong values and unknown keys in such options pass unnoticed; for a precessing system, or a method with fits, the same
    options are refused. *)
Example C101_idle_ex : let a := in_args (Some (RScalar 6)) None false in
  let x := Some [("filter_kwargs", Dict [("alhpa", LNum 3)]); ("kwargs_for_fits_methods", Dict [("num_orbit", LNum 3)]); ("refine_extrema", Leaf (LStr "yes"))] in
  alike_but (idle "Amplitude" a) x None /\ in_run "Amplitude" in_plain x a = in_run "Amplitude" in_plain None a /\
  in_error (measure_eccentricity in_lib "Amplitude" a 0 (in_world in_plain x)) = None /\
  in_error (measure_eccentricity in_lib "Amplitude" (in_args (Some (RScalar 6)) None true) 0 (in_world in_plain x)) <> None /\
  in_error (measure_eccentricity in_lib "AmplitudeFits" a 0 (in_world in_plain x)) <> None.
Proof.
  cbv zeta. split.
  - intros k N. cbn [given slookup dlookup].
    destruct (string_dec k "filter_kwargs") as [->|A]; [exfalso; apply N; left; auto|].
    destruct (string_dec k "kwargs_for_fits_methods") as [->|B]; [exfalso; apply N; right; split; [cbn; auto|cbn; intuition discriminate]|].
    destruct (string_dec k "refine_extrema") as [->|D]; [exfalso; apply N; right; split; [cbn; auto|cbn; intuition discriminate]|].
    apply String.eqb_neq in A, B, D. unfold slookup. cbn [dlookup]. now rewrite A, B, D.
  - vm_compute. repeat split; discriminate.
Qed.
