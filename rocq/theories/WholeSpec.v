(** Vocabulary for whole calls: which data each method searches, and what the options of the fit methods are. *)
From Verif Require Import Base UtilsModel ExtremaModel RationalModel MeasureModel SegmentModel DataModel FitsModel InitModel OptionSpec.
Open Scope string_scope.
Open Scope nat_scope.

(** The data a method searches for extrema. *)
Definition searched (m : string) (o : object) (y : list Q) : Prop :=
  let wave := b_wave (o_base o) in
  (m = "Amplitude" /\ y = w_amp wave) \/ ((m = "Frequency" \/ m = "FrequencyFits") /\ y = w_omega wave) \/
  (m = "AmplitudeFits" /\ ~ (b_amp_merger (o_base o) == 0)%Q /\ Forall2 (fun a v => v = a / b_amp_merger (o_base o))%Q (w_amp wave) y) \/
  (exists r, b_residual (o_base o) = Some r /\ ((m = "ResidualAmplitude" /\ y = rs_amp r) \/ (m = "ResidualFrequency" /\ y = rs_omega r))).
(** The search is configured by the user's options, completed by the documented ones. *)
Definition configured (e : kwargs) (m : string) (d : fits) : Prop :=
  (forall v, set_to e "refine_extrema" v -> f_refine d = counts v) /\
  forall u, with_options e "kwargs_for_fits_methods" u ->
    let amplitude := String.eqb m "AmplitudeFits" in
    or_default u "nPN" (LNum (if amplitude then - (1 # 4) else - (3 # 8))) = LNum (f_nPN d) /\
    or_default u "fit_bounds_max_amp_factor" (LNum 10) = LNum (f_amp_factor d) /\
    or_default u "fit_bounds_max_nPN_factor" (LNum 10) = LNum (f_nPN_factor d) /\
    or_default u "prominence_factor" (LNum (if amplitude then 25 # 1000 else 3 # 100)) = LNum (f_prominence d) /\
    or_default u "distance_factor" (LNum (if amplitude then 5 # 10 else 75 # 100)) = LNum (f_distance d) /\
    (exists q, or_default u "num_orbits" (LNum 3) = LNum q /\ (q == inject_Z (Z.of_nat (f_orbits d)))%Q) /\
    or_default u "num_orbits_for_global_fit" (LNum 10) = LNum (f_global d).
(** The search sees the object's times, counted from the merger, its phase and the data of the method. *)
Definition sees (m : string) (o : object) (d : fits) : Prop :=
  Forall2 (fun t s => s = t - b_t_merger (o_base o))%Q (w_t (b_wave (o_base o))) (f_t d) /\
  f_phase d = w_phase (b_wave (o_base o)) /\ searched m o (f_data d).
