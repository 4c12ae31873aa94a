(** The extrema search of the fit methods inside a whole call: FitsModel.v as the finder of InitModel.v.  Definitions only. *)
From Verif Require Import Base UtilsModel ExtremaModel RationalModel MeasureModel SegmentModel DataModel FitsModel InitModel.
Open Scope string_scope.
Open Scope nat_scope.

(** eccDefinitionUsingFrequencyFits.py 148-158: the entries of kwargs_for_fits_methods.  Numbers only; num_orbits is a whole
    number that is not negative (anything else is an error here). *)
Definition fit_number (kw : sdict leaf) (k : string) : res Q := do v <- sget kw k; leaf_num v.
Definition fit_count (kw : sdict leaf) (k : string) : res nat :=
  do q <- fit_number kw k;
  if Qeq_bool q (inject_Z (Qfloor q)) && Qle_bool 0 q then Ok (Z.to_nat (Qfloor q)) else Err TypeError.
Definition fits_of (t phase data : list Q) (kw : sdict leaf) (refine : bool) : res fits :=
  do am <- fit_number kw "fit_bounds_max_amp_factor"; do nm <- fit_number kw "fit_bounds_max_nPN_factor";
  do n <- fit_number kw "nPN"; do pf <- fit_number kw "prominence_factor"; do df <- fit_number kw "distance_factor";
  do no <- fit_count kw "num_orbits"; do ng <- fit_number kw "num_orbits_for_global_fit";
  Ok {| f_t := t; f_phase := phase; f_data := data; f_nPN := n; f_amp_factor := am; f_nPN_factor := nm; f_prominence := pf;
        f_distance := df; f_orbits := no; f_global := ng; f_refine := refine |}.

(** eccDefinitionUsingFrequencyFits.py 160-454: the locations.  The shift of the times by the merger is undone at the end
    (C41), so both searches see the same times. *)
Definition fits_search (env : Q -> params -> Q -> res Q) (curve_fit : Q -> list Q -> list Q -> params -> params * params -> res params)
    (find_peaks : list Q -> Z -> Q -> res (list nat)) (parabola : list Q -> list Q -> res (Q * Q)) (cubic : list Q -> list Q -> Q -> res Q)
    (t : list Q) (t_merger : Q) (phase data : list Q) (kw : sdict leaf) (refine pericenters : bool) : res (list nat) :=
  do d <- fits_of t phase data kw refine;
  do r <- snd (FitsModel.find_extrema env curve_fit find_peaks parabola cubic d t_merger (if pericenters then "pericenters" else "apocenters"));
  Ok (fst r).
