(** Specification of what each option of extra_kwargs means, with the documented defaults written out. *)
From Verif Require Import Base UtilsModel ExtremaModel RationalModel MeasureModel DataModel InitModel.
Open Scope string_scope.
Open Scope nat_scope.

(** The defaults as documented in gw_eccentricity.py 353-523, scipy.signal.find_peaks and the docstrings of the fit methods. *)
Definition documented : list (string * pyval) :=
  [("general_interp_kwargs", Dict []); ("special_interp_kwargs_for_omega_gw_extrema", Dict []); ("extrema_finding_kwargs", Dict []);
   ("omega_gw_averaging_method", Leaf (LStr "orbit_averaged_omega_gw"));
   ("treat_mid_points_between_pericenters_as_apocenters", Leaf (LBool false)); ("kwargs_for_fits_methods", Dict []);
   ("return_zero_if_small_ecc_failure", Leaf (LBool false)); ("omega_gw_extrema_interpolation_method", Leaf (LStr "rational_fit"));
   ("use_only_these_many_orbits", Leaf LNone); ("refine_extrema", Leaf (LBool false))].
(** All of them: with the plots, which are off, and the filter's options, of which none are given.  Then the filter's own
    defaults (spin_filter.py 768-838). *)
Definition documented_options : list (string * pyval) :=
  (documented ++ [("debug_plots", Leaf (LBool false)); ("filter_kwargs", Dict [])])%list.
Definition documented_filter : list (string * leaf) :=
  [("do_not_filter", LBool false); ("filter_threshold", LNum (2 # 10)); ("alpha", LNum 2); ("segment_size", LNum 15);
   ("data_type_for_filter_requirement_check", LNone); ("data_type_for_fspin_estimate", LNone);
   ("f_spin_lo_frac", LNum (75 # 100)); ("f_spin_hi_frac", LNum (125 # 100)); ("fecc_lo_frac", LNum (25 # 100));
   ("fecc_hi_frac", LNum (5 # 10)); ("padding_length", LNum 20000); ("taper_width", LNum (2 # 10)); ("debug_level", LNum 0);
   ("debug_plots", LBool false)].
Definition documented_finder (width : Q) : list (string * leaf) :=
  [("height", LNone); ("threshold", LNone); ("distance", LNone); ("prominence", LNone); ("width", LNum width); ("wlen", LNone);
   ("rel_height", LNum (1 # 2)); ("plateau_size", LNone)].
Definition documented_fits (amplitude : bool) : list (string * leaf) :=
  [("nPN", LNum (if amplitude then - (1 # 4) else - (3 # 8))); ("fit_bounds_max_amp_factor", LNum 10);
   ("fit_bounds_max_nPN_factor", LNum 10); ("prominence_factor", LNum (if amplitude then 25 # 1000 else 3 # 100));
   ("distance_factor", LNum (if amplitude then 5 # 10 else 75 # 100)); ("num_orbits", LNum 3);
   ("num_orbits_for_global_fit", LNum 10); ("return_diagnostic_data", LBool false)].
(** Option k has value v, because it was given or by default. *)
Definition set_to (e : kwargs) (k : string) (v : pyval) : Prop :=
  slookup e k = Some v \/ (slookup e k = None /\ In (k, v) documented).
(** The options in dictionary option k; None counts as no options. *)
Definition with_options (e : kwargs) (k : string) (u : sdict leaf) : Prop :=
  set_to e k (Dict u) \/ (set_to e k (Leaf LNone) /\ u = []).
Definition or_default (u : sdict leaf) (k : string) (v : leaf) : leaf := match slookup u k with Some x => x | None => v end.
Definition completed (u : sdict leaf) (defaults : list (string * leaf)) (d : sdict leaf) : Prop :=
  forall k, slookup d k = match slookup u k with Some v => Some v | None => slookup defaults k end.
(** What Python counts as true: everything but None, False, 0, the empty text and the empty dictionary. *)
Definition counts (v : pyval) : bool :=
  match v with
  | Leaf l => match l with
              | LNone => false | LBool b => b | LNum q => negb (Qeq_bool q 0) | LStr s => negb (String.eqb s "")
              | LPair _ _ => true | LOther => true
              end
  | Dict d => match d with [] => false | _ => true end
  end.
(** The number q as a spline degree n. *)
Definition is_degree (v : leaf) (n : nat) : Prop := exists q, v = LNum q /\ n = Z.to_nat (Qfloor q).

Definition obeys (e : kwargs) (method : string) (o : object) : Prop :=
  let c := b_config (o_base o) in
  (forall v, set_to e "treat_mid_points_between_pericenters_as_apocenters" v -> c_midpoints c = counts v) /\
  (forall v, set_to e "return_zero_if_small_ecc_failure" v -> c_return_zero c = counts v) /\
  (forall v, set_to e "use_only_these_many_orbits" v -> c_use_only c = counts v) /\
  (forall v, set_to e "refine_extrema" v -> b_refine (o_base o) = counts v) /\
  (forall s, set_to e "omega_gw_averaging_method" (Leaf (LStr s)) -> c_average c = s) /\
  (set_to e "omega_gw_extrema_interpolation_method" (Leaf (LStr "spline")) -> c_interp c = SplineMethod) /\
  (set_to e "omega_gw_extrema_interpolation_method" (Leaf (LStr "rational_fit")) -> c_interp c = RationalMethod) /\
  (forall u, with_options e "general_interp_kwargs" u -> is_degree (or_default u "k" (LNum 3)) (sp_k (c_general c))) /\
  (forall u, with_options e "special_interp_kwargs_for_omega_gw_extrema" u ->
     match c_interp c with
     | SplineMethod => is_degree (or_default u "k" (LNum 3)) (sp_k (c_special c)) /\
                       exists q, or_default u "ext" (LNum 2) = LNum q /\ sp_ext (c_special c) = Qfloor q
     | RationalMethod => or_default u "degrees" LNone = match b_degrees (o_base o) with None => LNone | Some (a, b) => LPair a b end
     end) /\
  (forall u, with_options e "extrema_finding_kwargs" u ->
     exists width, completed u (documented_finder width) (b_extrema_kwargs (o_base o))) /\
  (forall u, In method ["AmplitudeFits"; "FrequencyFits"] -> with_options e "kwargs_for_fits_methods" u ->
     completed u (documented_fits (String.eqb method "AmplitudeFits")) (o_fits o)).
