(** Model of building a measuring object and of measure_eccentricity:
    /repo/gw_eccentricity/eccDefinition.py 421-595, 1176-1245 and 2890-2944, gw_eccentricity.py 41-59 and 580-591, and the
    constructors of the six methods in eccDefinitionUsing*.py.  Definitions only; plots and labels are left out. *)
From Verif Require Import Base UtilsModel ExtremaModel RationalModel MeasureModel SegmentModel DataModel.
Open Scope string_scope.
Open Scope nat_scope.

(** Option dictionaries: values are plain or, one level down, dictionaries of plain values. *)
Inductive leaf := LNone | LBool (b : bool) | LNum (q : Q) | LStr (s : string) | LPair (a b : Z) | LOther.
Inductive pyval := Leaf (l : leaf) | Dict (d : sdict leaf).
Definition kwargs := sdict pyval.

(** bool(v) *)
Definition leaf_truthy (l : leaf) : bool :=
  match l with
  | LNone => false | LBool b => b | LNum q => negb (Qeq_bool q 0) | LStr s => negb (String.eqb s "")
  | LPair _ _ => true | LOther => true
  end.
Definition truthy (v : pyval) : bool :=
  match v with Leaf l => leaf_truthy l | Dict d => match d with [] => false | _ => true end end.
(** An option that is handed to check_kwargs_and_set_defaults: None or a dictionary. *)
Definition subdict (v : pyval) : res (option (sdict leaf)) :=
  match v with Leaf LNone => Ok None | Dict d => Ok (Some d) | _ => Err AttributeError end.

(** utils.py 171-179, get_default_spline_kwargs, as a dictionary. *)
Definition default_spline : sdict leaf :=
  [("w", LNone); ("bbox", LOther); ("k", LNum 3); ("ext", LNum 2); ("check_finite", LBool false)].
(** utils.py 322-330, get_default_rational_fit_kwargs. *)
Definition default_rational : sdict leaf :=
  [("degrees", LNone); ("max_iterations", LNum 20); ("verbose", LBool false); ("tol", LNum (1 # 10000000))].
(** eccDefinition.py 1176-1187, get_default_extrema_finding_kwargs. *)
Definition default_extrema_finding (width : Z) : sdict leaf :=
  [("height", LNone); ("threshold", LNone); ("distance", LNone); ("prominence", LNone); ("width", LNum (inject_Z width));
   ("wlen", LNone); ("rel_height", LNum (1 # 2)); ("plateau_size", LNone)].
(** eccDefinition.py 1228-1245, get_default_extra_kwargs. *)
Definition default_extra : kwargs :=
  [("general_interp_kwargs", Dict []); ("special_interp_kwargs_for_omega_gw_extrema", Dict []);
   ("extrema_finding_kwargs", Dict []); ("debug_plots", Leaf (LBool false));
   ("omega_gw_averaging_method", Leaf (LStr "orbit_averaged_omega_gw"));
   ("treat_mid_points_between_pericenters_as_apocenters", Leaf (LBool false)); ("refine_extrema", Leaf (LBool false));
   ("kwargs_for_fits_methods", Dict []); ("return_zero_if_small_ecc_failure", Leaf (LBool false));
   ("omega_gw_extrema_interpolation_method", Leaf (LStr "rational_fit")); ("use_only_these_many_orbits", Leaf LNone);
   ("filter_kwargs", Dict [])].
(** spin_filter.py 823-838, get_default_kwargs_for_filtering. *)
Definition default_filter : sdict leaf :=
  [("filter_threshold", LNum (2 # 10)); ("alpha", LNum 2); ("segment_size", LNum 15);
   ("data_type_for_filter_requirement_check", LNone); ("data_type_for_fspin_estimate", LNone); ("debug_level", LNum 0);
   ("debug_plots", LBool false); ("do_not_filter", LBool false); ("padding_length", LNum 20000); ("taper_width", LNum (2 # 10));
   ("f_spin_lo_frac", LNum (75 # 100)); ("f_spin_hi_frac", LNum (125 # 100)); ("fecc_lo_frac", LNum (25 # 100));
   ("fecc_hi_frac", LNum (5 # 10))].
(** eccDefinitionUsingFrequencyFits.py 130-139 and eccDefinitionUsingAmplitudeFits.py 50-61,
    get_default_kwargs_for_fits_methods. *)
Definition default_fits (amplitude : bool) : sdict leaf :=
  [("nPN", LNum (if amplitude then - (1 # 4) else - (3 # 8))); ("fit_bounds_max_amp_factor", LNum 10);
   ("fit_bounds_max_nPN_factor", LNum 10);
   ("prominence_factor", LNum (if amplitude then 25 # 1000 else 3 # 100));
   ("distance_factor", LNum (if amplitude then 5 # 10 else 75 # 100)); ("num_orbits", LNum 3);
   ("num_orbits_for_global_fit", LNum 10); ("return_diagnostic_data", LBool false)].

(** The entries of spline options that the code itself reads.  (A value of another type would be refused by scipy when it
    is first used; here it is refused when the object is built.) *)
Definition leaf_num (l : leaf) : res Q := match l with LNum q => Ok q | _ => Err TypeError end.
Definition spline_of (d : sdict leaf) : res spline_kwargs :=
  do kv <- sget d "k"; do k <- leaf_num kv; do ev <- sget d "ext"; do e <- leaf_num ev;
  Ok {| sp_k := Z.to_nat (Qfloor k); sp_ext := Qfloor e |}.
Definition degrees_of (d : sdict leaf) : res (option (Z * Z)) :=
  do v <- sget d "degrees"; match v with LNone => Ok None | LPair a b => Ok (Some (a, b)) | _ => Err TypeError end.

(** A reference input: a number or a one-dimensional array.  (Arrays of higher dimension are not modelled.) *)
Inductive refin := RScalar (x : Q) | RArr (l : list Q).
(** np.atleast_1d *)
Definition atleast_1d (r : refin) : list Q := match r with RScalar x => [x] | RArr l => l end.
Definition is_scalar (r : refin) : bool := match r with RScalar _ => true | RArr _ => false end.
(** eccDefinition.py 421-433 *)
Definition reference_of (tref fref : option refin) : res (reference * bool) :=
  match tref, fref with
  | Some r, None => Ok (TimeRef (atleast_1d r), is_scalar r)
  | None, Some r => Ok (FreqRef (atleast_1d r), is_scalar r)
  | _, _ => Err KeyError
  end.

(** np.allclose(d, d[0]) for d = np.diff(t), with numpy's default tolerances; d[0] needs two samples. *)
Definition close (b a : Q) : bool := Qle_bool (Qabs (a - b)) ((1 # 100000000) + (1 # 100000) * Qabs b).
Definition check_uniform (t : list Q) : res unit :=
  do d0 <- get (qdiff t) 0; if forallb (close d0) (qdiff t) then Ok tt else Err GenericException.

(** eccDefinition.py 597-612 *)
Definition recognized_keys : list string :=
  ["t"; "hlm"; "amplm"; "phaselm"; "omegalm"; "t_zeroecc"; "hlm_zeroecc"; "amplm_zeroecc"; "phaselm_zeroecc";
   "omegalm_zeroecc"].

(** gw_eccentricity.py 41-59, get_available_methods *)
Definition available_methods : list string :=
  ["Amplitude"; "Frequency"; "ResidualAmplitude"; "ResidualFrequency"; "AmplitudeFits"; "FrequencyFits"].

(** The arguments of measure_eccentricity apart from method, dataDict and extra_kwargs. *)
Record args := {
  a_tref : option refin; a_fref : option refin; a_num : option Q; a_precessing : bool; a_frame : string; a_level : Z
}.

(** use_only_these_many_orbits: None, zero and the like switch the option off. *)
Definition orbits_of (v : pyval) : res (option Q) :=
  if negb (truthy v) then Ok None
  else match v with Leaf (LNum q) => Ok (Some q) | Leaf (LBool _) => Ok (Some 1%Q) | _ => Err TypeError end.

(** The name of the averaging method; anything that is not a string is no key of the table of methods. *)
Definition name_of (v : pyval) : string := match v with Leaf (LStr s) => s | _ => "" end.
Definition interp_of (v : pyval) : res interp_method :=
  match v with
  | Leaf (LStr s) => if String.eqb s "spline" then Ok SplineMethod
                     else if String.eqb s "rational_fit" then Ok RationalMethod else Err GenericException
  | Leaf _ => Err GenericException
  | Dict _ => Err TypeError           (* unhashable *)
  end.

(** eccDefinition.py 521-553: the options read from the completed extra_kwargs, in this order; [width] is the minimum width
    found by process_data_dict. *)
Record options := {
  op_extrema : sdict leaf; op_interp : interp_method; op_special : spline_kwargs; op_degrees : option (Z * Z);
  op_general : spline_kwargs; op_average : string; op_midpoints : bool; op_return_zero : bool; op_fits : pyval; op_refine : bool
}.
Definition read_options (ek : kwargs) (width : Z) : res options :=
  do xk <- (do v <- sget ek "extrema_finding_kwargs"; do u <- subdict v;
            check_kwargs_and_set_defaults u (default_extrema_finding width));
  do im <- (do v <- sget ek "omega_gw_extrema_interpolation_method"; interp_of v);
  do sk <- (do v <- sget ek "special_interp_kwargs_for_omega_gw_extrema"; do u <- subdict v;
            check_kwargs_and_set_defaults u match im with SplineMethod => default_spline | RationalMethod => default_rational end);
  do sp <- match im with SplineMethod => spline_of sk | RationalMethod => Ok get_default_spline_kwargs end;
  do dg <- match im with SplineMethod => Ok None | RationalMethod => degrees_of sk end;
  do gk <- (do v <- sget ek "general_interp_kwargs"; do u <- subdict v; check_kwargs_and_set_defaults u default_spline);
  do g <- spline_of gk;
  do avg <- sget ek "omega_gw_averaging_method";
  do mid <- sget ek "treat_mid_points_between_pericenters_as_apocenters";
  do rz <- sget ek "return_zero_if_small_ecc_failure";
  do fk <- sget ek "kwargs_for_fits_methods";
  do rf <- sget ek "refine_extrema";
  Ok {| op_extrema := xk; op_interp := im; op_special := sp; op_degrees := dg; op_general := g; op_average := name_of avg;
        op_midpoints := truthy mid; op_return_zero := truthy rz; op_fits := fk; op_refine := truthy rf |}.

(** What check_and_filter_spin_induced_oscillations returns, as far as it is used: amp_gw, phase_gw, omega_gw and whether
    omega_gw_filtered is not None. *)
Record filtered := { fl_amp : list Q; fl_phase : list Q; fl_omega : list Q; fl_omega_filtered : bool }.

(** Residual data: t_zeroecc_shifted, omega_gw_zeroecc, res_amp_gw, res_omega_gw. *)
Record residual := { rs_t : list Q; rs_omega_zeroecc : list Q; rs_amp : list Q; rs_omega : list Q }.

(** The object as the base constructor leaves it. *)
Record base := {
  b_dict_keys : list string;        (* keys of self.dataDict *)
  b_wave : wave;                    (* self.t, amp_gw, phase_gw, omega_gw *)
  b_t_merger : Q; b_amp_merger : Q;
  b_extrema_kwargs : sdict leaf;    (* extrema_finding_kwargs *)
  b_fits_kwargs : pyval;            (* extra_kwargs["kwargs_for_fits_methods"] *)
  b_config : config;
  b_degrees : option (Z * Z);
  b_residual : option residual;
  b_refine : bool                   (* bool(extra_kwargs["refine_extrema"]) *)
}.
(** The object of one of the six methods. *)
Record object := {
  o_method : string; o_base : base;
  o_data : list Q;                  (* data_for_finding_extrema *)
  o_fits : sdict leaf               (* kwargs_for_fits_methods *)
}.

(** External code, for complex arrays C and eccentricities V: numpy, scipy, scri, and the parts of the package that are
    modelled in other files. *)
Record library (C V : Type) := {
  lib_abs : C -> list Q;                              (* np.abs *)
  lib_phase : C -> list Q;                            (* -np.unwrap(np.angle(.)) *)
  lib_polar : list Q -> list Q -> res C;              (* amp * np.exp(-1j * phase) *)
  lib_rotate : list Q -> list C -> res (list C);      (* scri: coprecessing frame *)
  lib_sqrt : Q -> Q;                                  (* np.sqrt *)
  lib_secular : list Q -> list Q -> res (list Q);     (* least-squares fit of the secular frequency (SegmentModel.v) *)
  lib_spline : list Q -> list Q -> nat -> Q -> Q;     (* InterpolatedUnivariateSpline *)
  lib_pchip : list Q -> list Q -> Q -> Q;             (* PchipInterpolator *)
  lib_rational : list Q -> list Q -> Z * Z -> res curve; (* RationalFit (RationalModel.v) *)
  lib_slope : list Q -> list V -> list bool;          (* signs of the derivative of the eccentricity spline *)
  lib_ecc : Q -> Q -> V;                              (* the eccentricity formula (EccModel.v) *)
  lib_zero : V; lib_negative : V -> bool;
  lib_peaks : list Q -> sdict leaf -> res (list nat); (* scipy.signal.find_peaks(data, **kwargs)[0] *)
  lib_fits : list Q -> Q -> list Q -> list Q -> sdict leaf -> bool -> bool -> res (list nat);
    (* find_extrema of the fit methods (FitsModel.v), given the times, the time of merger, the phases, the data, the
       options, refine_extrema, and whether pericenters are sought. *)
  lib_filter : sdict (dval C) -> Q -> sdict leaf -> lg filtered
    (* check_and_filter_spin_induced_oscillations of the modes in the dictionary, the time of merger and the filter
       options (FilterModel.v) *)
}.
Arguments lib_abs {C V}. Arguments lib_phase {C V}. Arguments lib_polar {C V}. Arguments lib_rotate {C V}.
Arguments lib_sqrt {C V}. Arguments lib_secular {C V}. Arguments lib_spline {C V}. Arguments lib_pchip {C V}.
Arguments lib_rational {C V}. Arguments lib_slope {C V}. Arguments lib_ecc {C V}. Arguments lib_zero {C V}.
Arguments lib_negative {C V}. Arguments lib_peaks {C V}. Arguments lib_fits {C V}. Arguments lib_filter {C V}.

Section Init.
  Context {C V : Type} (L : library C V).

  (** The caller's objects: the waveform dictionaries and extra_kwargs (None or a dictionary). *)
  Record world := { wd_heap : heap C; wd_extra : option kwargs }.
  Definition W (A : Type) := world -> world * lg A.
  Definition wret {A} (a : A) : W A := fun w => (w, lret a).
  Definition wbind {A B} (m : W A) (k : A -> W B) : W B := fun w =>
    let x := m w in
    match snd (snd x) with
    | Ok a => let y := k a (fst x) in (fst y, ((fst (snd x) ++ fst (snd y))%list, snd (snd y)))
    | Err e => (fst x, (fst (snd x), Err e))
    end.
  Notation "x <~ m ;; k" := (wbind m (fun x => k)) (at level 61, m at next level, right associativity).
  Definition wlift {A} (r : res A) : W A := fun w => (w, lift r).
  Definition wlog {A} (r : lg A) : W A := fun w => (w, r).
  Definition on_heap {A} (m : M C A) : W A := fun w =>
    let x := m (wd_heap w) in ({| wd_heap := fst x; wd_extra := wd_extra w |}, snd x).
  Definition wread {A} (f : heap C -> res A) : W A := fun w => (w, lift (f (wd_heap w))).
  Definition set_extra (e : option kwargs) : W unit := fun w => ({| wd_heap := wd_heap w; wd_extra := e |}, lret tt).

  (** eccDefinition.py 478-503, precessing systems: the filter options are completed in the caller's own dictionary, the
      data is filtered, and the completed options are stored in extra_kwargs.  The second result is extra_kwargs as used
      from here on. *)
  Definition filter_step (t_merger : Q) (d : sdict (dval C)) : W (filtered * option kwargs) := fun w =>
    let extra := match wd_extra w with None => [] | Some e => e end in
    let given := slookup extra "filter_kwargs" in
    (user <~ wlift (match given with None => Ok (Some []) | Some v => subdict v end) ;;
     fk <~ wlift (check_kwargs_and_set_defaults user default_filter) ;;
     _ <~ match wd_extra w, given with
          | Some e, Some (Dict _) => set_extra (Some (sset e "filter_kwargs" (Dict fk)))
          | _, _ => wret tt
          end ;;
     copy <~ wread (fun h => Ok (deepcopy C h d)) ;;
     fl <~ wlog (lib_filter L copy t_merger fk) ;;
     let e' := sset extra "filter_kwargs" (Dict fk) in
     _ <~ match wd_extra w with Some _ => set_extra (Some e') | None => wret tt end ;;
     wret (fl, Some e')) w.

  (** eccDefinition.py 2890-2944, compute_res_amp_gw_and_res_omega_gw.  The second result is general_interp_kwargs, which
      the interpolation changes in place. *)
  Definition compute_residual (h : heap C) (precessing : bool) (d : sdict (dval C)) (w : wave) (t_merger : Q)
             (g : spline_kwargs) : res (residual * spline_kwargs) :=
    do tz <- (do v <- sget d "t_zeroecc"; arr_of C v);
    do _ <- check_uniform tz;
    do gw <- get_amp_phase_omega_gw C h precessing d "_zeroecc";
    let '(az, _, oz) := gw in
    do am <- modes_at C h d "amplm_zeroecc";
    do amp <- amplitude_using_all_modes C (lib_abs L) (lib_sqrt L) "amplm" (real_modes C am);
    do pk <- peak_time_via_quadratic_fit tz amp;
    let shifted := map (fun x => x - fst pk + t_merger)%Q tz in
    do s0 <- get shifted 0; do t0 <- get (w_t w) 0;
    if Qlt_bool t0 s0 then Err GenericException
    else
      do sn <- last_of shifted;
      if Qlt_bool sn t_merger then Err GenericException
      else
        do ai <- interpolate (lib_spline L) (lib_pchip L) (w_t w) shifted az true "spline" (Some g);
        let g1 := match snd (get_interpolant shifted az true "spline" (Some g)) with Some k => k | None => g end in
        do ra <- zip_with Qminus (w_amp w) ai;
        do oi <- interpolate (lib_spline L) (lib_pchip L) (w_t w) shifted oz true "spline" (Some g1);
        let g2 := match snd (get_interpolant shifted oz true "spline" (Some g1)) with Some k => k | None => g1 end in
        do ro <- zip_with Qminus (w_omega w) oi;
        Ok ({| rs_t := shifted; rs_omega_zeroecc := oz; rs_amp := ra; rs_omega := ro |}, g2).

  (** eccDefinition.py 554-559: one message for every unknown key of the caller's dictionary. *)
  Fixpoint warn_unknown (level : Z) (keys : list string) : lg unit :=
    match keys with
    | [] => lret tt
    | k :: r => let! _ := (if existsb (String.eqb k) recognized_keys then lret tt
                           else dbg "not a recognized key word in dataDict" level false) in warn_unknown level r
    end.

  (** eccDefinition.py 421-595, __init__. *)
  Definition init (a : args) (p : nat) : W base :=
    rf <~ wlift (reference_of (a_tref a) (a_fref a)) ;;
    _ <~ wlift (if existsb (String.eqb (a_frame a)) ["inertial"; "coprecessing"] then Ok tt else Err ValueError) ;;
    pd <~ on_heap (process_data_dict C (lib_abs L) (lib_phase L) (lib_polar L) (lib_rotate L) (lib_sqrt L)
                     (a_level a) (a_precessing a) (a_frame a) (a_num a) p) ;;
    let d := p_dict C pd in
    t <~ wlift (do v <- sget d "t"; arr_of C v) ;;
    _ <~ wlift (check_uniform t) ;;
    gw <~ wread (fun h => get_amp_phase_omega_gw C h (a_precessing a) d "") ;;
    fe <~ (if a_precessing a then filter_step (p_t_merger C pd) d
           else fun w => (w, lret ({| fl_amp := fst (fst gw); fl_phase := snd (fst gw); fl_omega := snd gw;
                                      fl_omega_filtered := false |}, wd_extra w))) ;;
    let fl := fst fe in
    ek <~ wlift (check_kwargs_and_set_defaults (snd fe) default_extra) ;;
    n <~ wlift (do v <- sget ek "use_only_these_many_orbits"; orbits_of v) ;;
    wv <~ wlog (use_segment (lib_secular L) (a_level a) n
                  {| w_t := t; w_amp := fl_amp fl; w_phase := fl_phase fl; w_omega := fl_omega fl |}
                  match fst rf with TimeRef _ => true | FreqRef _ => false end
                  match fst rf with TimeRef l => l | FreqRef l => l end) ;;
    op <~ wlift (read_options ek (p_width C pd)) ;;
    user <~ wread (fun h => top_of C h (Caller C p)) ;;
    _ <~ wlog (warn_unknown (a_level a) (dkeys user)) ;;
    rs <~ wread (fun h => if smem d "amplm_zeroecc" && smem d "omegalm_zeroecc"
                          then do x <- compute_residual h (a_precessing a) d wv (p_t_merger C pd) (op_general op);
                               Ok (Some (fst x), snd x)
                          else Ok (None, op_general op)) ;;
    wret {| b_dict_keys := dkeys d; b_wave := wv; b_t_merger := p_t_merger C pd; b_amp_merger := p_amp_merger C pd;
            b_extrema_kwargs := op_extrema op; b_fits_kwargs := op_fits op;
            b_config := {| c_t := w_t wv; c_data_t := t; c_phase := w_phase wv; c_omega := w_omega wv; c_ref := fst rf;
                           c_scalar := snd rf; c_precessing := a_precessing a; c_filtered := fl_omega_filtered fl;
                           c_midpoints := op_midpoints op; c_return_zero := op_return_zero op; c_interp := op_interp op;
                           c_average := op_average op;
                           c_use_only := match n with None => false | Some q => negb (Qeq_bool q 0) end;
                           c_special := op_special op; c_general := snd rs;
                           c_zeroecc := match fst rs with None => None | Some r => Some (rs_t r, rs_omega_zeroecc r) end |};
            b_degrees := op_degrees op; b_residual := fst rs; b_refine := op_refine op |}.

  (** eccDefinitionUsingResidualAmplitude.py 30-54, check_and_raise_zeroecc_data_not_found. *)
  Definition residual_of (b : base) : res residual :=
    if forallb (fun k => existsb (String.eqb k) (b_dict_keys b)) ["t_zeroecc"; "amplm_zeroecc"; "omegalm_zeroecc"]
    then attr (b_residual b) else Err GenericException.

  (** The constructors of the six methods: what they add to the base object. *)
  Definition build (method : string) (a : args) (p : nat) : W object :=
    b <~ init a p ;;
    let plain data := wret {| o_method := method; o_base := b; o_data := data; o_fits := [] |} in
    let fits amplitude data :=
      fk <~ wlift (do u <- subdict (b_fits_kwargs b); check_kwargs_and_set_defaults u (default_fits amplitude)) ;;
      data <~ wlift data ;;
      wret {| o_method := method; o_base := b; o_data := data; o_fits := fk |} in
    if String.eqb method "Amplitude" then plain (w_amp (b_wave b))
    else if String.eqb method "Frequency" then plain (w_omega (b_wave b))
    else if String.eqb method "ResidualAmplitude" then r <~ wlift (residual_of b) ;; plain (rs_amp r)
    else if String.eqb method "ResidualFrequency" then r <~ wlift (residual_of b) ;; plain (rs_omega r)
    else if String.eqb method "AmplitudeFits" then
      fits true (if Qeq_bool (b_amp_merger b) 0 then Err NonFinite
                 else Ok (map (fun x => x / b_amp_merger b)%Q (w_amp (b_wave b))))
    else fits false (Ok (w_omega (b_wave b))).

  (** find_extrema: eccDefinitionUsingAmplitude.py 37-59 for the first four methods. *)
  Definition find_extrema (o : object) (pericenters : bool) : res (list nat) :=
    if existsb (String.eqb (o_method o)) ["AmplitudeFits"; "FrequencyFits"] 
    then lib_fits L (w_t (b_wave (o_base o))) (b_t_merger (o_base o)) (w_phase (b_wave (o_base o))) (o_data o) (o_fits o) (b_refine (o_base o)) pericenters
    else lib_peaks L (map (fun x => (if pericenters then 1 else -1) * x)%Q (o_data o)) (b_extrema_kwargs (o_base o)).

  (** measure_ecc of the object. *)
  Definition measure_object (level : Z) (o : object) : list string * (state * res (result V)) :=
    measure_ecc (lib_ecc L) (lib_zero L) (lib_negative L) (find_extrema o) (lib_spline L) (lib_pchip L) (lib_rational L)
                (lib_slope L) level (b_config (o_base o))
                (fresh (b_degrees (o_base o))).

  (** The returned dictionary.  eccDefinition.py 2518-2538, then gw_eccentricity.py 586. *)
  Inductive entry := EEcc (e : out V) | ERef (r : out Q) | EObject (o : object) (s : state).
  Definition return_dict (r : result V) : sdict entry :=
    ([("eccentricity", EEcc (r_eccentricity r)); ("mean_anomaly", ERef (r_mean_anomaly r))] ++
     match r_tref_out r with Some x => [("tref_out", ERef x)] | None => [] end ++
     match r_fref_out r with Some x => [("fref_out", ERef x)] | None => [] end)%list.

  (** gw_eccentricity.py 580-591, measure_eccentricity. *)
  Definition measure_eccentricity (method : string) (a : args) (p : nat) : W (sdict entry) :=
    if existsb (String.eqb method) available_methods then
      o <~ build method a p ;;
      let x := measure_object (a_level a) o in
      r <~ wlog (fst x, snd (snd x)) ;;
      wret (dupdate String.eqb (return_dict r) [("gwecc_object", EObject o (fst (snd x)))])
    else wlift (Err GenericException).
End Init.
Arguments world : clear implicits.
Arguments entry : clear implicits.
