(** Vocabulary for the properties of measure_eccentricity, written without the functions of the model. *)
From Verif Require Import Base UtilsSpec DataModel DataSpec SegmentModel MeasureModel MeasureSpec InitModel.
Open Scope string_scope.
Open Scope nat_scope.

(** exactly one of the two reference inputs is given *)
Definition exactly_one {A} (x y : option A) : Prop := (x <> None /\ y = None) \/ (x = None /\ y <> None).
(** the six names *)
Definition method_names : list string :=
  ["Amplitude"; "Frequency"; "ResidualAmplitude"; "ResidualFrequency"; "AmplitudeFits"; "FrequencyFits"].
(** the same arguments with other reference inputs, or at another level *)
Definition with_refs (a : args) (t f : option refin) : args :=
  {| a_tref := t; a_fref := f; a_num := a_num a; a_precessing := a_precessing a; a_frame := a_frame a; a_level := a_level a |}.
Definition with_level (a : args) (l : Z) : args :=
  {| a_tref := a_tref a; a_fref := a_fref a; a_num := a_num a; a_precessing := a_precessing a; a_frame := a_frame a;
     a_level := l |}.
(** a number as an array of one entry; an output as an array *)
Definition as_array (r : refin) : refin := match r with RScalar x => RArr [x] | RArr l => RArr l end.
(** the keys of the data of a circular waveform *)
Definition zeroecc_key (k : string) : bool :=
  existsb (String.eqb k) ["t_zeroecc"; "hlm_zeroecc"; "amplm_zeroecc"; "phaselm_zeroecc"; "omegalm_zeroecc"].
(** the dictionary without them *)
Definition without_zeroecc {V} (d : sdict V) : sdict V := filter (fun kv => negb (zeroecc_key (fst kv))) d.
(** zeroecc times, amplitudes and frequencies are in the data, the last two possibly as complex modes, the last possibly as
    phases *)
Definition has_zeroecc {V} (d : sdict V) : Prop :=
  has d "t_zeroecc" /\ (has d "hlm_zeroecc" \/ has d "amplm_zeroecc") /\
  (has d "hlm_zeroecc" \/ has d "phaselm_zeroecc" \/ has d "omegalm_zeroecc").
(** consecutive steps differ from the first one by at most 1e-8 plus 1e-5 of it *)
Definition uniform_steps (t : list Q) : Prop :=
  exists t0 t1, nth_error t 0 = Some t0 /\ nth_error t 1 = Some t1 /\
    forall i x y, nth_error t i = Some x -> nth_error t (S i) = Some y ->
      (Qabs (y - x - (t1 - t0)) <= (1 # 100000000) + (1 # 100000) * Qabs (t1 - t0))%Q.
(** the keys of the waveform dictionary that mean something *)
Definition known_keys : list string :=
  ["t"; "hlm"; "amplm"; "phaselm"; "omegalm"; "t_zeroecc"; "hlm_zeroecc"; "amplm_zeroecc"; "phaselm_zeroecc";
   "omegalm_zeroecc"].
(** the keys of extra_kwargs that mean something *)
Definition option_keys : list string :=
  ["general_interp_kwargs"; "special_interp_kwargs_for_omega_gw_extrema"; "extrema_finding_kwargs"; "debug_plots";
   "omega_gw_averaging_method"; "treat_mid_points_between_pericenters_as_apocenters"; "refine_extrema";
   "kwargs_for_fits_methods"; "return_zero_if_small_ecc_failure"; "omega_gw_extrema_interpolation_method";
   "use_only_these_many_orbits"; "filter_kwargs"].
(** amplitude and frequency of the zeroecc waveform: the (2, 2) mode, or the means over (2, 2) and (2, -2) for precessing
    systems *)
Definition zero_wave {C} (h : heap C) (d : sdict (dval C)) (precessing : bool) (az oz : list Q) : Prop :=
  if precessing then combined h d "amplm_zeroecc" (fun x y => (1 # 2) * (x + y))%Q az /\
                     combined h d "omegalm_zeroecc" (fun x y => (1 # 2) * (x - y))%Q oz
  else array_of h d "amplm_zeroecc" (2, 2)%Z az /\ array_of h d "omegalm_zeroecc" (2, 2)%Z oz.
(** [out] is [data], given at the times [t], minus the spline of some degree through the points (x, y); what is
    subtracted outside the range of x is left open *)
Definition minus_spline (sv : list Q -> list Q -> nat -> Q -> Q) (x y t data out : list Q) : Prop :=
  length x = length y /\ length out = length t /\ length data = length t /\
  exists k, forall i ti di, nth_error t i = Some ti -> nth_error data i = Some di ->
    exists s, nth_error out i = Some (di - s)%Q /\
      forall lo hi, nth_error x 0 = Some lo -> nth_error x (length x - 1) = Some hi -> (lo <= ti <= hi)%Q -> s = sv x y k ti.
(** the spline goes through its points *)
Definition interpolating (sv : list Q -> list Q -> nat -> Q -> Q) : Prop :=
  forall x y k i xi yi t, increasing x -> length x = length y -> nth_error x i = Some xi -> nth_error y i = Some yi ->
    (t == xi)%Q -> (sv x y k t == yi)%Q.
(** the zeroecc entries are the same as the others *)
Definition same_zeroecc {C} (d : sdict (dval C)) : Prop :=
  forall k, In k ["t"; "hlm"; "amplm"; "phaselm"; "omegalm"] -> slookup d (k ++ "_zeroecc") = slookup d k.
(** the reference input is a single number *)
Definition number (a : args) : Prop :=
  (exists x, a_tref a = Some (RScalar x) /\ a_fref a = None) \/ (exists x, a_tref a = None /\ a_fref a = Some (RScalar x)).
(** the same call with the number put into an array *)
Definition arrayed (a : args) : args := with_refs a (option_map as_array (a_tref a)) (option_map as_array (a_fref a)).
(** every entry of [d] is a number and the entry of [d'] is the array holding just that number *)
Definition paired {V} (d d' : sdict (entry V)) : Prop :=
  (exists e, slookup d "eccentricity" = Some (EEcc (Scalar e)) /\ slookup d' "eccentricity" = Some (EEcc (Arr [e]))) /\
  (exists x, slookup d "mean_anomaly" = Some (ERef (Scalar x)) /\ slookup d' "mean_anomaly" = Some (ERef (Arr [x]))) /\
  (forall k, In k ["tref_out"; "fref_out"] -> (slookup d k = None /\ slookup d' k = None) \/
     exists x, slookup d k = Some (ERef (Scalar x)) /\ slookup d' k = Some (ERef (Arr [x]))).
(** the filter for spin-induced oscillations does not look at the zeroecc entries *)
Definition blind_filter {C V} (L : library C V) : Prop := forall d tm kw, lib_filter L (without_zeroecc d) tm kw = lib_filter L d tm kw.
(** a complex number is given back by its modulus and its phase *)
Definition polar_numbers {C V} (L : library C V) : Prop := forall c, lib_polar L (lib_abs L c) (lib_phase L c) = Ok c.
