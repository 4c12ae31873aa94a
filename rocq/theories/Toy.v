(** A small waveform with seven pericenters and six apocenters, used by the examples beside the property
    theorems.  Interpolation is linear, eccentricities are rational numbers. *)
From Verif Require Import Base UtilsModel ExtremaModel RationalModel MeasureModel MeasureSpec.
Open Scope nat_scope.
Definition ints (n : nat) : list Q := map (fun i => inject_Z (Z.of_nat i)) (seq 0 n).
Definition toy_t := ints 13.
Definition toy_phase := map (fun x => (2 * np_pi * x + x * x / 50)%Q) toy_t.
Definition toy_omega := map (fun i => let x := inject_Z (Z.of_nat i) in
  if Nat.even i then (3 + x / 10)%Q else (2 + x / 10)%Q) (seq 0 13).
Definition toy (ref : reference) (scalar : bool) (avg : string) (retz : bool) : config :=
  {| c_t := toy_t; c_data_t := toy_t; c_phase := toy_phase; c_omega := toy_omega; c_ref := ref; c_scalar := scalar;
     c_precessing := false; c_filtered := false; c_midpoints := false; c_return_zero := retz;
     c_interp := SplineMethod; c_average := avg; c_use_only := false;
     c_special := get_default_spline_kwargs; c_general := get_default_spline_kwargs; c_zeroecc := None |}.
Definition toy_find (b : bool) : res (list nat) := Ok (if b then [0; 2; 4; 6; 8; 10; 12] else [1; 3; 5; 7; 9; 11]).
Definition lin (x y : list Q) (k : nat) (t : Q) : Q := np_interp t x y.
Definition lin3 (x y : list Q) (t : Q) : Q := np_interp t x y.
Definition toy_measure level c := measure_ecc (fun wp wa => Qred ((wp - wa) / (wp + wa))) 0%Q (fun e => Qlt_bool e 0) toy_find lin lin3
  (fun _ _ _ => Err LinAlgError) (fun _ e => map (fun d => Qlt_bool 0 d) (qdiff e)) level c.


(** Values of a result, in lowest terms. *)
Definition redo (o : out Q) := map Qred (entries o).
Definition view (r : res (result Q)) :=
  match r with
  | Ok r => Ok (redo (r_eccentricity r), redo (r_mean_anomaly r), option_map redo (r_tref_out r), option_map redo (r_fref_out r))
  | Err e => Err e
  end.
Definition toy_view (level : Z) (c : config) := let x := toy_measure level c (fresh None) in (view (snd (snd x)), s_zero (fst (snd x))).
(** A rational fitter for which the apocenters always fit and the pericenters fit badly at degrees (4, 4) and (5, 5). *)
Definition toy_rfit (x y : list Q) (d : Z * Z) : res curve :=
  match x with
  | 0%Q :: _ => if ((fst d =? 4) || (fst d =? 5))%Z
                then Ok (fun t => Ok ((t - 12) * (t - 12))%Q) else Ok (fun t => Ok (3 + t * inject_Z (fst d) / 10)%Q)
  | _ => Ok (fun t => Ok (1 + t / 10)%Q)
  end.
Definition toy2 : config :=
  let t := ints 30 in
  {| c_t := t; c_data_t := t; c_phase := map (fun x => (2 * np_pi * x)%Q) t;
     c_omega := map (fun x => (3 + x / 10)%Q) t; c_ref := TimeRef [5%Q]; c_scalar := true;
     c_precessing := false; c_filtered := false; c_midpoints := false; c_return_zero := false;
     c_interp := RationalMethod; c_average := "orbit_averaged_omega_gw"; c_use_only := false;
     c_special := get_default_spline_kwargs; c_general := get_default_spline_kwargs; c_zeroecc := None |}.
Definition toy2_find (b : bool) : res (list nat) :=
  Ok (map (fun i => if b then 2 * i else 2 * i + 1) (seq 0 15)).
Definition toy2_measure := measure_ecc (fun wp wa => Qred ((wp - wa) / (wp + wa))) 0%Q (fun e => Qlt_bool e 0) toy2_find lin lin3
  toy_rfit (fun _ e => map (fun d => Qlt_bool 0 d) (qdiff e)) 0 toy2.
Definition toy_rising := measure_ecc (fun wp wa => (wp - wa)%Q) 0%Q (fun e => Qlt_bool e 0) toy_find lin lin3
  (fun _ _ _ => Err LinAlgError) (fun _ e => [true]) .
Definition toy_few := measure_ecc (fun wp wa => Qred ((wp - wa) / (wp + wa))) 0%Q (fun e => Qlt_bool e 0)
  (fun b => Ok (if b then [0; 2; 4] else [3])) lin lin3 (fun _ _ _ => Err LinAlgError) (fun _ _ => []) 0%Z.
Definition toy_ops := run_ops (fun wp wa => Qred ((wp - wa) / (wp + wa))) 0%Q (fun e => Qlt_bool e 0) toy_find lin lin3
  (fun _ _ _ => Err LinAlgError) (fun _ e => map (fun d => Qlt_bool 0 d) (qdiff e)).
(** The pairs returned by get_fref_bounds, times 2 pi. *)
Definition bounds_in (ys : list (reply Q)) : list (res (Q * Q)) :=
  flat_map (fun y => match y with RBounds (Ok b) => [Ok (Qred (2 * np_pi * fst b), Qred (2 * np_pi * snd b))] | RBounds (Err e) => [Err e] | _ => [] end) ys.
(** The same object with a reference frequency, averaged between the two curves. *)
Definition toy3 : config :=
  {| c_t := c_t toy2; c_data_t := c_t toy2; c_phase := c_phase toy2; c_omega := c_omega toy2; c_ref := FreqRef [(1 # 2)%Q]; c_scalar := true;
     c_precessing := false; c_filtered := false; c_midpoints := false; c_return_zero := false;
     c_interp := RationalMethod; c_average := "mean_of_extrema_interpolants"; c_use_only := false;
     c_special := get_default_spline_kwargs; c_general := get_default_spline_kwargs; c_zeroecc := None |}.
Definition toy3_ops := run_ops (fun wp wa => Qred ((wp - wa) / (wp + wa))) 0%Q (fun e => Qlt_bool e 0) toy2_find lin lin3
  toy_rfit (fun _ e => map (fun d => Qlt_bool 0 d) (qdiff e)) 0 toy3.
