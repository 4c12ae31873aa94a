(** Properties of measure_eccentricity as a whole (C01, C02, C05, C32, C36, C61, C67-C73). *)
From Verif Require Import Base UtilsModel UtilsSpec ExtremaModel ExtremaSpec RationalModel MeasureModel MeasureSpec SegmentModel SegmentSpec DataModel DataSpec
  DataTotal Toy InitModel InitSpec InitLemmas InitOptions InitSame InitLevel InitShape InitZero InitResidual InitKeys InitToy OptionSpec OptionLemmas InitZeroecc.
Open Scope string_scope.
Open Scope nat_scope.

(** C01.  Both or neither reference input: KeyError, nothing changed, nothing said, whatever the data and the options are. *)
Theorem C01_both_or_neither : forall C V (L : library C V) m a p w, In m method_names -> ~ exactly_one (a_tref a) (a_fref a) ->
  measure_eccentricity L m a p w = (w, ([], Err KeyError)).
Proof. exact @reference_rejected. Qed.
Print Assumptions C01_both_or_neither.
Example C01_both_or_neither_ex : In "Frequency" method_names /\ ~ exactly_one (Some (RScalar 6)) (Some (RScalar 1)) /\
  in_run "Frequency" in_plain None (in_args (Some (RScalar 6)) (Some (RScalar 1)) false) = Err KeyError.
Proof. split; [cbn; auto|]. split; [intros [[_ H]|[H _]]; discriminate|]. vm_compute. auto. Qed.
(** C01.  A measurement succeeds only with exactly one of them. *)
Theorem C01_exactly_one : forall C V (L : library C V) m a p w w' l d,
  measure_eccentricity L m a p w = (w', (l, Ok d)) -> exactly_one (a_tref a) (a_fref a).
Proof. exact @measure_one. Qed.
Print Assumptions C01_exactly_one.
Example C01_exactly_one_ex : in_run "Amplitude" in_plain None (in_args (Some (RScalar 6)) None false) =
  Ok [("eccentricity", [5 # 31]); ("mean_anomaly", [0%Q]); ("tref_out", [6%Q])].
Proof. vm_compute. auto. Qed.
(** C01.  A number x and the array holding just x are treated alike: same effects, same warnings, same exception, and the
    results are numbers in the one case and the arrays holding just these numbers in the other. *)
Theorem C01_scalar : forall C V (L : library C V) m a p w, number a ->
  let x := measure_eccentricity L m a p w in let y := measure_eccentricity L m (arrayed a) p w in
  fst x = fst y /\ fst (snd x) = fst (snd y) /\
  match snd (snd x), snd (snd y) with Ok d, Ok d' => paired d d' | Err e, Err e' => e = e' | _, _ => False end.
Proof. exact @measure_scalar. Qed.
Print Assumptions C01_scalar.
Example C01_scalar_ex : number (in_args None (Some (RScalar (26 # 25))) false) /\
  in_run "Amplitude" in_plain None (in_args None (Some (RScalar (26 # 25))) false) =
  in_run "Amplitude" in_plain None (in_args None (Some (RArr [26 # 25])) false) /\
  succeeds (A := nat) ([], ([], do _ <- in_run "Amplitude" in_plain None (in_args None (Some (RScalar (26 # 25))) false); Ok 0)) = true.
Proof. split; [right; exists (26 # 25)%Q; auto|]. vm_compute. auto. Qed.

(** C02.  Any other method name raises Exception, whatever the other arguments are. *)
Theorem C02_rejected : forall C V (L : library C V) m a p w, ~ In m method_names ->
  measure_eccentricity L m a p w = (w, ([], Err GenericException)).
Proof. exact @method_rejected. Qed.
Print Assumptions C02_rejected.
Example C02_rejected_ex : ~ In "amplitude" method_names /\ in_run "amplitude" in_plain None (in_args (Some (RScalar 6)) None false) = Err GenericException.
Proof. split; [cbn; intuition discriminate|]. vm_compute. auto. Qed.
(** C02.  For an accepted name the dictionary holds the results of measuring with the object of that method and that
    object, and nothing else. *)
Theorem C02_result : forall C V (L : library C V) m a p w w' l d, measure_eccentricity L m a p w = (w', (l, Ok d)) ->
  In m method_names /\ exists o s r l1 l2,
    build L m a p w = (w', (l1, Ok o)) /\ o_method o = m /\ measure_object L (a_level a) o = (l2, (s, Ok r)) /\ l = (l1 ++ l2)%list /\
    slookup d "gwecc_object" = Some (EObject o s) /\
    slookup d "eccentricity" = Some (EEcc (r_eccentricity r)) /\ slookup d "mean_anomaly" = Some (ERef (r_mean_anomaly r)) /\
    slookup d "tref_out" = option_map ERef (r_tref_out r) /\ slookup d "fref_out" = option_map ERef (r_fref_out r) /\
    (forall k, has d k -> In k ["eccentricity"; "mean_anomaly"; "tref_out"; "fref_out"; "gwecc_object"]) /\ NoDup (map fst d).
Proof. exact @measure_result. Qed.
Print Assumptions C02_result.
Example C02_result_ex : map (fun m => in_error (measure_eccentricity in_lib m (in_args (Some (RArr [6%Q; 7%Q])) None false) 0 (in_world in_zero None))) method_names =
  [None; None; None; None; None; None].
Proof. vm_compute. auto. Qed.

(** C05.  At the levels -1, 0 and 1 a whole call does the same and gives the same, warnings aside. *)
Theorem C05_call_levels : forall C V (L : library C V) m a p w l, quiet l ->
  fst (measure_eccentricity L m (with_level a l) p w) = fst (measure_eccentricity L m (with_level a 0) p w) /\
  snd (snd (measure_eccentricity L m (with_level a l) p w)) = snd (snd (measure_eccentricity L m (with_level a 0) p w)).
Proof. exact @measure_levels. Qed.
Print Assumptions C05_call_levels.
Example C05_call_levels_ex : quiet 1%Z /\
  in_out (measure_eccentricity in_lib "Amplitude" (with_level (in_args (Some (RScalar 6)) None false) 1) 0 (in_world in_plain None)) =
  Ok [("eccentricity", [5 # 31]); ("mean_anomaly", [0%Q]); ("tref_out", [6%Q])] /\
  fst (snd (measure_eccentricity in_lib "Amplitude" (with_level (in_args (Some (RScalar 6)) None false) 1) 0 (in_world in_plain None))) <> [].
Proof. split; [vm_compute; auto|]. split; [vm_compute; auto|]. vm_compute. discriminate. Qed.
(** C05.  At any level, success means the result of level 0. *)
Theorem C05_call_success : forall C V (L : library C V) m a p w w' l msgs d,
  measure_eccentricity L m (with_level a l) p w = (w', (msgs, Ok d)) ->
  exists msgs0, measure_eccentricity L m (with_level a 0) p w = (w', (msgs0, Ok d)).
Proof. exact @measure_levels_ok. Qed.
Print Assumptions C05_call_success.

(** C32.  A call that leaves the waveform dictionary alone gives, repeated with the objects as it leaves them, the same
    warnings and the same result.  (The methods with fits are left out: they shift the time array in place while they
    search, which the model does not follow.) *)
Theorem C32_call_repeated : forall C V (L : library C V) m a p w d, In m ["Amplitude"; "Frequency"; "ResidualAmplitude"; "ResidualFrequency"] ->
  is_dict (wd_heap w) p d -> (a_precessing a = true -> a_frame a = "inertial" -> has d "hlm") ->
  a_num a = None \/ ~ has d "omegalm" \/ (a_precessing a = true /\ a_frame a = "inertial") ->
  snd (measure_eccentricity L m a p (fst (measure_eccentricity L m a p w))) = snd (measure_eccentricity L m a p w) /\
  wd_heap (fst (measure_eccentricity L m a p w)) = wd_heap w.
Proof. intros C V L m a p w d _. exact (repeated L m a p w d). Qed.
Print Assumptions C32_call_repeated.
Example C32_call_repeated_ex : in_out (measure_eccentricity in_lib "Amplitude" (in_args (Some (RScalar 6)) None true) 0
    (fst (measure_eccentricity in_lib "Amplitude" (in_args (Some (RScalar 6)) None true) 0 (in_world in_plain (Some in_filter))))) =
  Ok [("eccentricity", [5 # 31]); ("mean_anomaly", [0%Q]); ("tref_out", [6%Q])].
Proof. vm_compute. auto. Qed.

(** C36.  What the residual methods search for extrema: the zeroecc data, moved in time so that the peaks of the total
    amplitudes coincide, must not start later than the waveform nor end before its merger, and what is searched is the
    waveform's own amplitude or frequency, at its own times, minus the interpolated zeroecc data. *)
Theorem C36_residual : forall C V (L : library C V) m a p w w' l o, In m ["ResidualAmplitude"; "ResidualFrequency"] ->
  build L m a p w = (w', (l, Ok o)) ->
  let wv := b_wave (o_base o) in
  exists pd l1, process_data_dict C (lib_abs L) (lib_phase L) (lib_polar L) (lib_rotate L) (lib_sqrt L)
      (a_level a) (a_precessing a) (a_frame a) (a_num a) p (wd_heap w) = (wd_heap w', (l1, Ok pd)) /\
  exists tz az oz ms amp peak v shifted,
    slookup (p_dict C pd) "t_zeroecc" = Some (VArr C tz) /\ uniform_steps tz /\
    zero_wave (wd_heap w') (p_dict C pd) (a_precessing a) az oz /\
    modes_at C (wd_heap w') (p_dict C pd) "amplm_zeroecc" = Ok ms /\
    amplitude_using_all_modes C (lib_abs L) (lib_sqrt L) "amplm" (real_modes C ms) = Ok amp /\
    peak_time_via_quadratic_fit tz amp = Ok (peak, v) /\
    shifted = map (fun x => x - peak + p_t_merger C pd)%Q tz /\ increasing shifted /\
    (forall x t, nth_error shifted 0 = Some x -> nth_error (w_t wv) 0 = Some t -> (x <= t)%Q) /\
    (exists x, last_of shifted = Ok x /\ (p_t_merger C pd <= x)%Q) /\
    if String.eqb m "ResidualAmplitude" then minus_spline (lib_spline L) shifted az (w_t wv) (w_amp wv) (o_data o)
    else minus_spline (lib_spline L) shifted oz (w_t wv) (w_omega wv) (o_data o).
Proof. exact @residual_shape. Qed.
Print Assumptions C36_residual.
Example C36_residual_ex : in_data (measure_eccentricity in_lib "ResidualAmplitude" (in_args (Some (RScalar 6)) None false) 0 (in_world in_zero None)) =
  (flat_map (fun _ => [5%Q; (-5)%Q]) (seq 0 7) ++ map (fun _ => 0%Q) (seq 0 10))%list.
Proof. vm_compute. auto. Qed.
(** C36.  When the zeroecc entries are the same as the others, the residuals are zero at every sample used. *)
Theorem C36_vanishing : forall C V (L : library C V) m a p w w' l o d0, In m ["ResidualAmplitude"; "ResidualFrequency"] ->
  build L m a p w = (w', (l, Ok o)) -> a_precessing a = false -> a_num a = None ->
  is_dict (wd_heap w) p d0 -> same_zeroecc d0 -> interpolating (lib_spline L) ->
  length (o_data o) = length (w_t (b_wave (o_base o))) /\ forall x, In x (o_data o) -> (x == 0)%Q.
Proof. exact @residual_zero. Qed.
Print Assumptions C36_vanishing.
Example C36_vanishing_ex : same_zeroecc in_twice /\ interpolating lin /\
  (do o <- snd (snd (build in_lib "ResidualFrequency" (in_args (Some (RScalar 6)) None false) 0 (in_world in_twice None))); Ok (map Qred (o_data o))) =
  Ok (map (fun _ => 0%Q) in_t).
Proof. split; [exact in_twice_same|]. split; [exact lin_interpolating|]. vm_compute. auto. Qed.

(** C61.  A residual method only succeeds with zeroecc times, amplitudes and frequencies in the dictionary. *)
Theorem C61_needs_zeroecc : forall C V (L : library C V) m a p w w' l d, In m ["ResidualAmplitude"; "ResidualFrequency"] ->
  measure_eccentricity L m a p w = (w', (l, Ok d)) -> exists d0, is_dict (wd_heap w) p d0 /\ has_zeroecc d0.
Proof. exact @residual_needs. Qed.
Print Assumptions C61_needs_zeroecc.
(** C61.  Without them it raises Exception, at the latest after a construction that is good for the Amplitude method. *)
Theorem C61_exception : forall C V (L : library C V) m a p w w' l o d0, In m ["ResidualAmplitude"; "ResidualFrequency"] ->
  build L "Amplitude" a p w = (w', (l, Ok o)) -> is_dict (wd_heap w) p d0 -> ~ has_zeroecc d0 ->
  measure_eccentricity L m a p w = (w', (l, Err GenericException)).
Proof. exact @residual_exception. Qed.
Print Assumptions C61_exception.
Example C61_ex : ~ has_zeroecc in_plain /\ in_run "ResidualAmplitude" in_plain None (in_args (Some (RScalar 6)) None false) = Err GenericException /\
  in_run "Amplitude" in_plain None (in_args (Some (RScalar 6)) None false) = in_run "ResidualAmplitude" in_zero None (in_args (Some (RScalar 6)) None false).
Proof. split; [intros [H _]; cbn in H; unfold has in H; cbn in H; intuition discriminate|]. vm_compute. auto. Qed.
(** C61.  The other methods do not use them: taking them out of the dictionary changes none of the returned numbers.  (Measuring
    at a reference frequency with omega_gw_zeroecc as the frequency average uses them, of course.  For precessing data in the
    inertial frame that come with amplm_zeroecc, complex modes of the waveform are computed anew from amplitude and phase.) *)
Theorem C61_ignored : forall C V (L : library C V) m a p w w' l d0 d, In m ["Amplitude"; "Frequency"; "AmplitudeFits"; "FrequencyFits"] ->
  is_dict (wd_heap w) p d0 -> NoDup (dkeys d0) ->
  (a_precessing a = true -> blind_filter L) ->
  (a_precessing a = true -> a_frame a = "inertial" -> has d0 "amplm_zeroecc" -> polar_numbers L) ->
  (a_fref a = None \/ forall e, wd_extra w = Some e -> slookup e "omega_gw_averaging_method" <> Some (Leaf (LStr "omega_gw_zeroecc"))) ->
  measure_eccentricity L m a p w = (w', (l, Ok d)) ->
  exists w2 l2 d2, measure_eccentricity L m a p {| wd_heap := set_nth (wd_heap w) p (OTop C (without_zeroecc d0)); wd_extra := wd_extra w |} = (w2, (l2, Ok d2)) /\
    forall k, In k ["eccentricity"; "mean_anomaly"; "tref_out"; "fref_out"] -> slookup d2 k = slookup d k.
Proof. exact @zeroecc_unused. Qed.
Print Assumptions C61_ignored.
Example C61_ignored_ex : without_zeroecc in_zero = in_plain /\ NoDup (dkeys in_zero) /\ polar_numbers in_lib /\
  in_run "Frequency" in_zero None (in_args (Some (RScalar 6)) None true) = Ok [("eccentricity", [5 # 31]); ("mean_anomaly", [0%Q]); ("tref_out", [6%Q])] /\
  in_run "Frequency" in_plain None (in_args (Some (RScalar 6)) None true) = Ok [("eccentricity", [5 # 31]); ("mean_anomaly", [0%Q]); ("tref_out", [6%Q])] /\
  in_run "Amplitude" in_zero None (in_args None (Some (RScalar 19)) false) = in_run "Amplitude" in_plain None (in_args None (Some (RScalar 19)) false).
Proof. split; [reflexivity|]. split; [exact in_zero_keys|]. split; [exact in_polar|]. vm_compute. repeat split. Qed.
(** C61.  The converse of the last theorem does not hold: amplitudes and frequencies of a circular waveform without its times
    are refused by every method. *)
Theorem C61_incomplete : forall C V (L : library C V) m a p w w' l d d0 m0 x, a_precessing a = false \/ a_frame a = "coprecessing" ->
  is_dict (wd_heap w) p d0 -> has d0 "omegalm_zeroecc" -> array_of (wd_heap w) d0 "amplm_zeroecc" m0 x -> ~ has d0 "t_zeroecc" ->
  measure_eccentricity L m a p w <> (w', (l, Ok d)).
Proof. exact @incomplete_rejected. Qed.
Print Assumptions C61_incomplete.
Example C61_incomplete_ex : let d0 := in_d [("amplm", 1); ("phaselm", 2); ("omegalm", 3); ("amplm_zeroecc", 4); ("omegalm_zeroecc", 5)] [] in
  array_of (in_heap d0) d0 "amplm_zeroecc" (2, 2)%Z in_ampz /\
  in_run "Amplitude" d0 None (in_args (Some (RScalar 6)) None false) = Err KeyError /\
  in_run "Amplitude" (without_zeroecc d0) None (in_args (Some (RScalar 6)) None false) = Ok [("eccentricity", [5 # 31]); ("mean_anomaly", [0%Q]); ("tref_out", [6%Q])].
Proof. split; [eexists; split; [reflexivity|]; right; do 2 eexists; repeat split|]. vm_compute. repeat split. Qed.

(** C67.  Unknown frame: ValueError. *)
Theorem C67_frame : forall C V (L : library C V) m a p w, In m method_names -> exactly_one (a_tref a) (a_fref a) ->
  a_frame a <> "inertial" -> a_frame a <> "coprecessing" -> measure_eccentricity L m a p w = (w, ([], Err ValueError)).
Proof. exact @frame_rejected. Qed.
Print Assumptions C67_frame.
Example C67_frame_ex : in_error (measure_eccentricity in_lib "Amplitude"
  {| a_tref := Some (RScalar 6); a_fref := None; a_num := None; a_precessing := false; a_frame := "corotating"; a_level := 0 |} 0 (in_world in_plain None)) = Some ValueError.
Proof. vm_compute. auto. Qed.

(** C68.  Times with unequal steps: Exception.  The tolerance is absolute as well as relative. *)
Theorem C68_rejected : forall C V (L : library C V) m a p w h' l pd t, In m method_names -> exactly_one (a_tref a) (a_fref a) ->
  In (a_frame a) ["inertial"; "coprecessing"] ->
  process_data_dict C (lib_abs L) (lib_phase L) (lib_polar L) (lib_rotate L) (lib_sqrt L)
      (a_level a) (a_precessing a) (a_frame a) (a_num a) p (wd_heap w) = (h', (l, Ok pd)) ->
  times_of (p_dict C pd) t -> 2 <= length t -> ~ uniform_steps t ->
  measure_eccentricity L m a p w = ({| wd_heap := h'; wd_extra := wd_extra w |}, (l, Err GenericException)).
Proof. exact @steps_rejected. Qed.
Print Assumptions C68_rejected.
Example C68_rejected_ex : in_run "Amplitude" in_bent None (in_args (Some (RScalar 6)) None false) = Err GenericException.
Proof. vm_compute. auto. Qed.
Theorem C68_accepted : forall C V (L : library C V) m a p w w' l d o s, measure_eccentricity L m a p w = (w', (l, Ok d)) ->
  slookup d "gwecc_object" = Some (EObject o s) -> uniform_steps (c_data_t (b_config (o_base o))).
Proof. exact @steps_uniform. Qed.
Print Assumptions C68_accepted.

(** C69.  No call succeeds with an unknown key in extra_kwargs ... *)
Theorem C69_options_known : forall C V (L : library C V) m a p w w' l d e k,
  measure_eccentricity L m a p w = (w', (l, Ok d)) -> wd_extra w = Some e -> has e k -> In k option_keys.
Proof. exact @options_known. Qed.
Print Assumptions C69_options_known.
Example C69_options_known_ex : in_run "Amplitude" in_plain (Some [("interp", Leaf LNone)]) (in_args (Some (RScalar 6)) None false) = Err ValueError /\
  in_run "Amplitude" in_plain (Some in_spline) (in_args (Some (RScalar 6)) None false) =
  Ok [("eccentricity", [5 # 31]); ("mean_anomaly", [0%Q]); ("tref_out", [6%Q])].
Proof. vm_compute. auto. Qed.
(** C69.  ... nor with an unknown interpolation method. *)
Theorem C69_interpolation_known : forall C V (L : library C V) m a p w w' l d e v,
  measure_eccentricity L m a p w = (w', (l, Ok d)) -> wd_extra w = Some e ->
  slookup e "omega_gw_extrema_interpolation_method" = Some v -> v = Leaf (LStr "spline") \/ v = Leaf (LStr "rational_fit").
Proof. exact @interpolation_known. Qed.
Print Assumptions C69_interpolation_known.
Example C69_interpolation_known_ex :
  in_run "Amplitude" in_plain (Some [("omega_gw_extrema_interpolation_method", Leaf (LStr "pchip"))]) (in_args (Some (RScalar 6)) None false) = Err GenericException.
Proof. vm_compute. auto. Qed.

(** C70.  An option that is left out counts as the default: same effects on the waveform data, same warnings, same result. *)
Theorem C70_omitted : forall C V (L : library C V) m a p h x k v, slookup documented_options k = Some v ->
  slookup match x with None => [] | Some e => e end k = None ->
  let with_default := {| wd_heap := h; wd_extra := Some (match x with None => [] | Some e => e end ++ [(k, v)])%list |} in
  let without := {| wd_heap := h; wd_extra := x |} in
  wd_heap (fst (measure_eccentricity L m a p with_default)) = wd_heap (fst (measure_eccentricity L m a p without)) /\
  snd (measure_eccentricity L m a p with_default) = snd (measure_eccentricity L m a p without).
Proof. exact @omitted_documented. Qed.
Print Assumptions C70_omitted.
Example C70_omitted_ex : slookup documented_options "refine_extrema" = Some (Leaf (LBool false)) /\
  in_run "Amplitude" in_plain (Some (in_spline ++ [("refine_extrema", Leaf (LBool false))])%list) (in_args (Some (RScalar 6)) None false) =
  in_run "Amplitude" in_plain (Some in_spline) (in_args (Some (RScalar 6)) None false).
Proof. vm_compute. auto. Qed.

(** C71.  The caller's extra_kwargs are left alone for non-precessing systems; ... *)
Theorem C71_unchanged : forall C V (L : library C V) m a p w, a_precessing a = false ->
  wd_extra (fst (measure_eccentricity L m a p w)) = wd_extra w.
Proof. exact @extra_unchanged. Qed.
Print Assumptions C71_unchanged.
(** C71.  ... for precessing systems a successful call completes "filter_kwargs" in the caller's own dictionary, adding the
    entry if it is not there, and changes nothing else. *)
Theorem C71_filter_completed : forall C V (L : library C V) m a p w w' l d e,
  measure_eccentricity L m a p w = (w', (l, Ok d)) -> a_precessing a = true -> wd_extra w = Some e ->
  exists e' fk, wd_extra w' = Some e' /\ slookup e' "filter_kwargs" = Some (Dict fk) /\
    (forall k, k <> "filter_kwargs" -> slookup e' k = slookup e k) /\
    (forall k v, slookup fk k = Some v <->
       match slookup e "filter_kwargs" with
       | Some (Dict u) => slookup u k = Some v \/ (slookup u k = None /\ slookup documented_filter k = Some v)
       | _ => slookup documented_filter k = Some v
       end).
Proof. exact @filter_documented. Qed.
Print Assumptions C71_filter_completed.
Example C71_ex : wd_extra (fst (measure_eccentricity in_lib "Amplitude" (in_args (Some (RScalar 6)) None true) 0 (in_world in_plain (Some in_filter)))) =
  Some [("filter_kwargs", Dict (("alpha", LNum 3) :: spop default_filter "alpha"))] /\
  wd_extra (fst (measure_eccentricity in_lib "Amplitude" (in_args (Some (RScalar 6)) None false) 0 (in_world in_plain (Some in_filter)))) = Some in_filter.
Proof. vm_compute. auto. Qed.

(** C72.  Unknown keys of the waveform dictionary: warned of at level 1, refused at level 2. *)
Theorem C72_warned : forall C V (L : library C V) m a p w w' l d user k, measure_eccentricity L m a p w = (w', (l, Ok d)) ->
  a_level a = 1%Z -> is_dict (wd_heap w') p user -> has user k -> ~ In k known_keys ->
  In "not a recognized key word in dataDict" l.
Proof. exact @keys_warned. Qed.
Print Assumptions C72_warned.
Theorem C72_refused : forall C V (L : library C V) m a p w w' l d user k, measure_eccentricity L m a p w = (w', (l, Ok d)) ->
  a_level a = 2%Z -> is_dict (wd_heap w') p user -> has user k -> In k known_keys.
Proof. exact @keys_strict. Qed.
Print Assumptions C72_refused.
Example C72_ex : in_error (measure_eccentricity in_lib "Amplitude" (with_level (in_args (Some (RScalar 6)) None false) 1) 0
    (in_world (sset in_plain "time" (VOther ex_c)) None)) = None /\
  existsb (String.eqb "not a recognized key word in dataDict") (fst (snd (measure_eccentricity in_lib "Amplitude" (with_level (in_args (Some (RScalar 6)) None false) 1) 0
    (in_world (sset in_plain "time" (VOther ex_c)) None)))) = true.
Proof. vm_compute. auto. Qed.

(** C73.  Every option does what the documentation says: the object that measures has exactly the configuration that the
    caller's extra_kwargs, completed by the documented defaults, describe. *)
Theorem C73_options : forall C V (L : library C V) m a p w w' l d o s, measure_eccentricity L m a p w = (w', (l, Ok d)) ->
  slookup d "gwecc_object" = Some (EObject o s) -> obeys match wd_extra w with None => [] | Some e => e end m o.
Proof. exact @options_obeyed. Qed.
Print Assumptions C73_options.
Example C73_options_ex : in_config (measure_eccentricity in_lib "AmplitudeFits" (in_args (Some (RScalar 6)) None false) 0
    (in_world in_plain (Some in_options))) =
    Some (true, SplineMethod, "orbit_averaged_omega_gw", 4, 3, [Some (LNum 2); Some (LNum (5 # 10)); None]) /\
  set_to in_options "treat_mid_points_between_pericenters_as_apocenters" (Leaf (LBool true)) /\
  set_to in_options "omega_gw_averaging_method" (Leaf (LStr "orbit_averaged_omega_gw")) /\
  with_options in_options "general_interp_kwargs" [("k", LNum 4)] /\ with_options in_options "kwargs_for_fits_methods" [("num_orbits", LNum 2)].
Proof. split; [vm_compute; reflexivity|]. unfold set_to, with_options, set_to. cbn. auto 20. Qed.
