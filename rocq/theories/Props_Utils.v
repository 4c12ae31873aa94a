(** Property theorems about utils.py.  Statements only; proofs are in the *Lemmas files. *)
From Verif Require Import Base BaseLemmas UtilsModel UtilsSpec DerivLemmas PeakLemmas UtilsLemmas.
Open Scope string_scope. Open Scope list_scope. Open Scope nat_scope.

(** C04.  For dictionaries with distinct keys (Python dictionaries): ValueError exactly when the
    user gave a key that is not a default key, no other exception; on success the keys are exactly
    the default keys, the user's values are kept, and all other values are the defaults. *)
Theorem C04_kwargs : forall (V : Type) (user : option (sdict V)) (default : sdict V),
  let u := match user with None => [] | Some u => u end in
  NoDup (dkeys default) -> NoDup (dkeys u) ->
  (check_kwargs_and_set_defaults user default = Err ValueError <->
     exists k, In k (dkeys u) /\ ~ In k (dkeys default)) /\
  (forall e, check_kwargs_and_set_defaults user default = Err e -> e = ValueError) /\
  (forall r, check_kwargs_and_set_defaults user default = Ok r ->
     NoDup (dkeys r) /\ (forall k, In k (dkeys r) <-> In k (dkeys default)) /\
     (forall k v, In (k, v) r <-> In (k, v) u \/ (In (k, v) default /\ ~ In k (dkeys u)))).
Proof. exact @check_kwargs_spec. Qed.
Print Assumptions C04_kwargs.
Example C04_kwargs_ex :
  check_kwargs_and_set_defaults (Some [("k", 5)]) [("w", 0); ("k", 3)]%string
  = Ok [("k", 5); ("w", 0)]%string /\
  check_kwargs_and_set_defaults (Some [("z", 5)]) [("w", 0); ("k", 3)]%string = Err ValueError.
Proof. split; reflexivity. Qed.

(** C04.  raise_exception_if_none passes exactly when every named key is present and not None. *)
Theorem C04_none_rejected : forall (V : Type) (kw : sdict (option V)) keys,
  raise_exception_if_none kw keys = Ok tt <->
  forall k, In k keys -> exists v, slookup kw k = Some (Some v).
Proof. exact @raise_if_none_spec. Qed.
Print Assumptions C04_none_rejected.
Example C04_none_rejected_ex :
  raise_exception_if_none [("a", Some 1); ("b", None)]%string ["a"; "b"]%string = Err GenericException.
Proof. reflexivity. Qed.

(** C05 (message part).  The four debug levels. *)
Theorem C05_debug_levels : forall msg level imp ptv,
  (debug_message msg level imp ptv = Err ValueError <-> ~ In level [-1; 0; 1; 2]%Z) /\
  (debug_message msg (-1) imp ptv = Ok []) /\
  (debug_message msg 0 false ptv = Ok []) /\
  (debug_message msg 0 true false = Ok [msg]) /\
  (exists s, debug_message msg 0 true true = Ok [(msg ++ s)%string]) /\
  (debug_message msg 1 imp ptv = Ok [msg]) /\
  (debug_message msg 2 imp ptv = Err GenericException).
Proof. exact debug_message_levels. Qed.
Print Assumptions C05_debug_levels.
Example C05_debug_levels_ex : debug_message "m" 7 true false = Err ValueError.
Proof. reflexivity. Qed.

(** C06.  Exact on every polynomial of degree at most 4 (at most 5 coefficients), at every sample. *)
Theorem C06_exact_on_quartics : forall (c : list Q) (t0 dt : Q) (n : nat),
  length c <= 5 -> ~ (dt == 0)%Q -> 5 <= n ->
  exists r, time_deriv_4thOrder (samples (poly c) t0 dt n) dt = Ok r /\ length r = n /\
    forall i d, nth_error r i = Some d -> (d == dpoly c (t0 + inject_Z (Z.of_nat i) * dt))%Q.
Proof. exact time_deriv_quartic. Qed.
Print Assumptions C06_exact_on_quartics.

(** C06.  Same length as the input; ValueError exactly below five samples. *)
Theorem C06_shape_and_errors : forall y dt,
  (forall r, time_deriv_4thOrder y dt = Ok r -> length r = length y) /\
  (time_deriv_4thOrder y dt = Err ValueError <-> length y < 5) /\
  (5 <= length y -> ~ (dt == 0)%Q -> exists r, time_deriv_4thOrder y dt = Ok r).
Proof. exact (fun y dt => conj (time_deriv_shape y dt) (time_deriv_errors y dt)). Qed.
Print Assumptions C06_shape_and_errors.

(** C06.  Linear in the data. *)
Theorem C06_linear : forall u v dt a b ru rv, length u = length v ->
  time_deriv_4thOrder u dt = Ok ru -> time_deriv_4thOrder v dt = Ok rv ->
  exists r, time_deriv_4thOrder (map2 (fun x y => a * x + b * y)%Q u v) dt = Ok r /\
    forall i d du dv, nth_error r i = Some d -> nth_error ru i = Some du ->
      nth_error rv i = Some dv -> (d == a * du + b * dv)%Q.
Proof. exact time_deriv_linear. Qed.
Print Assumptions C06_linear.
Example C06_ex : (* y = t^4 on 0,1,...,5: derivative 4 t^3 *)
  exists r, time_deriv_4thOrder (samples (poly [0; 0; 0; 0; 1]%Q) 0 1 6) 1 = Ok r /\
    map Qred r = [0; 4; 32; 108; 256; 500]%Q.
Proof. eexists. split; vm_compute; reflexivity. Qed.

(** C07.  If the five samples in the window (the maximum and two on each side, moved inside the
    array) lie on a parabola A + B t + C t^2 with C <> 0, the vertex is returned exactly. *)
Theorem C07_parabola_exact : forall t f i0 A B C,
  length t = length f -> 5 <= length t -> increasing t -> argmax f = Ok i0 -> ~ (C == 0)%Q ->
  (forall j x y, Nat.max 2 (Nat.min (length t - 3) i0) - 2 <= j <= Nat.max 2 (Nat.min (length t - 3) i0) + 2 ->
     nth_error t j = Some x -> nth_error f j = Some y -> (y == A + B * x + C * (x * x))%Q) ->
  exists tp fp, peak_time_via_quadratic_fit t f = Ok (tp, fp) /\
    (tp == - B / (2 * C))%Q /\ (fp == A - B * B / (4 * C))%Q.
Proof. exact peak_parabola. Qed.
Print Assumptions C07_parabola_exact.

(** C07.  Affine changes of time (factor a > 0, shift b) and rescaling of the function (k > 0) carry
    over to the result; failures are preserved. *)
Theorem C07_equivariant : forall t f a b k,
  length t = length f -> 5 <= length t -> increasing t -> (0 < a)%Q -> (0 < k)%Q ->
  match peak_time_via_quadratic_fit t f with
  | Ok (tp, fp) =>
      exists tp' fp',
        peak_time_via_quadratic_fit (map (fun x => a * x + b)%Q t) (map (fun y => k * y)%Q f)
        = Ok (tp', fp') /\ (tp' == a * tp + b)%Q /\ (fp' == k * fp)%Q
  | Err e =>
      peak_time_via_quadratic_fit (map (fun x => a * x + b)%Q t) (map (fun y => k * y)%Q f) = Err e
  end.
Proof. exact peak_equivariant. Qed.
Print Assumptions C07_equivariant.
(** The window is always inside the array. *)
Theorem C07_window_inside : forall n i, 5 <= n ->
  2 <= quad_window n i /\ quad_window n i + 2 < n.
Proof. exact quad_window_bounds. Qed.
Print Assumptions C07_window_inside.
Example C07_ex : exists tp fp,
  peak_time_via_quadratic_fit [0; 1; 2; 3; 4; 5]%Q [0; 5; 8; 9; 8; 5]%Q = Ok (tp, fp) /\
  (tp == 3)%Q /\ (fp == 9)%Q.
Proof. do 2 eexists. split; [vm_compute; reflexivity|]. split; reflexivity. Qed.

(** C08.  With extrapolation disallowed, the default interpolator returns only if the lengths match, the
    abscissae increase, there are at least two of them, and every new point lies between the first
    and the last; one value is returned per point.  Conversely such a call always returns. *)
Theorem C08_no_silent_extrapolation : forall spline_val pchip_val newX oldX oldY kw r,
  interpolate spline_val pchip_val newX oldX oldY false "spline" kw = Ok r ->
  length oldX = length oldY /\ increasing oldX /\ 2 <= length oldX /\ length r = length newX /\
  exists lo hi, nth_error oldX 0 = Some lo /\ nth_error oldX (length oldX - 1) = Some hi /\
    forall t, In t newX -> (lo <= t <= hi)%Q.
Proof. exact interpolate_spline_safe. Qed.
Print Assumptions C08_no_silent_extrapolation.
Theorem C08_in_range_returns : forall spline_val pchip_val newX oldX oldY kw lo hi,
  length oldX = length oldY -> increasing oldX -> 2 <= length oldX -> newX <> [] ->
  nth_error oldX 0 = Some lo -> nth_error oldX (length oldX - 1) = Some hi ->
  (forall t, In t newX -> (lo <= t <= hi)%Q) ->
  exists r, interpolate spline_val pchip_val newX oldX oldY false "spline" kw = Ok r.
Proof. exact interpolate_spline_total. Qed.
Print Assumptions C08_in_range_returns.
(** C08.  With either interpolator, one new point further than 1e-10 outside the data raises Exception, and data of
    different lengths or not strictly increasing abscissae raise. *)
Theorem C08_outside_raises : forall spline_val pchip_val newX oldX oldY kind kw t, oldX <> [] -> In t newX ->
  ((forall x, In x oldX -> t < x - (1 # 10000000000))%Q \/ (forall x, In x oldX -> x + (1 # 10000000000) < t)%Q) ->
  interpolate spline_val pchip_val newX oldX oldY false kind kw = Err GenericException.
Proof. exact interpolate_outside. Qed.
Print Assumptions C08_outside_raises.
Theorem C08_rejects : forall spline_val pchip_val newX oldX oldY allow kind kw,
  length oldX <> length oldY \/ ~ increasing oldX ->
  exists e, interpolate spline_val pchip_val newX oldX oldY allow kind kw = Err e.
Proof. exact interpolate_rejects. Qed.
Print Assumptions C08_rejects.
(** C08.  With either interpolator, a call with extrapolation disallowed comes back (with numbers, or with nan among them)
    only if the lengths match, the abscissae increase, there are at least two of them, and every new point lies within 1e-10
    of the range of the data; one value is returned per point. *)
Theorem C08_both_kinds : forall spline_val pchip_val newX oldX oldY kind kw,
  (exists r, interpolate spline_val pchip_val newX oldX oldY false kind kw = Ok r) \/
  interpolate spline_val pchip_val newX oldX oldY false kind kw = Err NonFinite ->
  length oldX = length oldY /\ increasing oldX /\ 2 <= length oldX /\ In kind ["spline"; "monotonic_spline"]%string /\ newX <> [] /\
  (forall r, interpolate spline_val pchip_val newX oldX oldY false kind kw = Ok r -> length r = length newX) /\
  exists lo hi, nth_error oldX 0 = Some lo /\ nth_error oldX (length oldX - 1) = Some hi /\
    forall t, In t newX -> (lo - (1 # 10000000000) <= t <= hi + (1 # 10000000000))%Q.
Proof. exact interpolate_returns. Qed.
Print Assumptions C08_both_kinds.
(** C08.  On good data the monotonic interpolator returns the values of the monotone cubic at points within the data, and nan
    is among them exactly when a point is outside by at most 1e-10. *)
Theorem C08_monotonic_values : forall spline_val pchip_val newX oldX oldY kw lo hi,
  length oldX = length oldY -> increasing oldX -> 2 <= length oldX -> newX <> [] ->
  nth_error oldX 0 = Some lo -> nth_error oldX (length oldX - 1) = Some hi ->
  (forall t, In t newX -> (lo - (1 # 10000000000) <= t <= hi + (1 # 10000000000))%Q) ->
  ((forall t, In t newX -> (lo <= t <= hi)%Q) ->
     interpolate spline_val pchip_val newX oldX oldY false "monotonic_spline" kw = Ok (map (pchip_val oldX oldY) newX)) /\
  ((exists t, In t newX /\ (t < lo \/ hi < t)%Q) ->
     interpolate spline_val pchip_val newX oldX oldY false "monotonic_spline" kw = Err NonFinite).
Proof. exact interpolate_monotonic. Qed.
Print Assumptions C08_monotonic_values.
Example C08_monotonic_ex :
  interpolate (fun _ _ _ t => t) (fun _ _ t => (t + 1)%Q) [1; 2]%Q [0; 1; 2; 3]%Q [5; 6; 7; 8]%Q false "monotonic_spline" None = Ok [1 + 1; 2 + 1]%Q /\
  interpolate (fun _ _ _ t => t) (fun _ _ t => t) [1; 3 + (1 # 20000000000)]%Q [0; 1; 2; 3]%Q [5; 6; 7; 8]%Q false "monotonic_spline" None = Err NonFinite.
Proof. split; vm_compute; reflexivity. Qed.
Example C08_ex2 :
  interpolate (fun _ _ _ t => t) (fun _ _ t => t) [1; 3 + (1 # 9999999999)]%Q [0; 1; 2; 3]%Q [5; 6; 7; 8]%Q false "monotonic_spline" None
  = Err GenericException /\
  interpolate (fun _ _ _ t => t) (fun _ _ t => t) [1]%Q [0; 2; 1]%Q [5; 6; 7]%Q true "spline" None = Err GenericException.
Proof. split; vm_compute; reflexivity. Qed.
Example C08_ex :
  interpolate (fun _ _ _ t => t) (fun _ _ t => t) [1; 2]%Q [0; 1; 2; 3]%Q [5; 6; 7; 8]%Q false "spline" None
  = Ok [1; 2]%Q /\
  interpolate (fun _ _ _ t => t) (fun _ _ t => t) [4]%Q [0; 1; 2; 3]%Q [5; 6; 7; 8]%Q false "spline" None
  = Err GenericException.
Proof. split; vm_compute; reflexivity. Qed.
(** C08, finding: with the monotonic interpolator a point above the data by less than 1e-10 passes the
    range check and nan is returned instead of an exception. *)
Theorem C08_monotonic_spline_nan_refuted : exists newX oldX oldY,
  length oldX = length oldY /\ increasing oldX /\ 2 <= length oldX /\
  interpolate (fun _ _ _ t => t) (fun _ _ t => t) newX oldX oldY false "monotonic_spline" None
  = Err NonFinite.
Proof.
  exact (ex_intro _ [1 + (1 # 20000000000)]%Q (ex_intro _ [0; 1]%Q (ex_intro _ [0; 1]%Q
    (conj eq_refl (conj (proj1 (all_increasing_iff [0; 1]%Q) eq_refl) (conj (le_n 2) eq_refl)))))).
Qed.
Print Assumptions C08_monotonic_spline_nan_refuted.

(** C09, C10.  Whatever calls [h] shared the kwargs dictionary [d] before: a spline built with
    extrapolation disallowed has ext = 2; one built with extrapolation allowed has ext = 0 when the
    user's ext was 0 or 2; its degree is the user's k, or one less than the number of points. *)
Theorem C09_C10_history_independent : forall d h x y allow f,
  fst (get_interpolant x y allow "spline" (Some (run_calls d h))) = Ok f ->
  (allow = false -> ext_of f = Some 2%Z) /\
  (allow = true -> In (sp_ext d) [0; 2]%Z -> ext_of f = Some 0%Z) /\
  deg_of f = Some (if length x <=? sp_k d then length x - 1 else sp_k d).
Proof. exact ext_after_history. Qed.
Print Assumptions C09_C10_history_independent.
(** C10.  The caller's k is never changed by any history of calls. *)
Theorem C10_k_never_changes : forall d h, sp_k (run_calls d h) = sp_k d.
Proof. exact run_calls_k. Qed.
Print Assumptions C10_k_never_changes.
(** C10.  Two or more increasing points are always accepted, fewer never. *)
Theorem C10_two_points_needed : forall x y allow kw,
  (exists f, fst (get_interpolant x y allow "spline" kw) = Ok f) <-> (increasing x /\ 2 <= length x).
Proof.
  exact (fun x y allow kw =>
    conj (fun H => match H with ex_intro _ f Hf =>
            conj (proj1 (get_interpolant_spline_ok x y allow kw f Hf))
                 (proj1 (proj2 (get_interpolant_spline_ok x y allow kw f Hf))) end)
         (fun H => get_interpolant_spline_total x y allow kw (proj1 H) (proj2 H))).
Qed.
Print Assumptions C10_two_points_needed.
(** C09, finding: a user's ext = 3 (boundary values) is honoured by the first extrapolating call and
    lost after one non-extrapolating call sharing the dictionary. *)
Theorem C09_user_ext_lost_refuted : exists d h x y f f',
  fst (get_interpolant x y true "spline" (Some d)) = Ok f /\ ext_of f = Some 3%Z /\
  fst (get_interpolant x y true "spline" (Some (run_calls d h))) = Ok f' /\ ext_of f' = Some 0%Z.
Proof.
  exact (ex_intro _ {| sp_k := 3; sp_ext := 3 |}
    (ex_intro _ [{| ic_x := [0; 1; 2; 3]%Q; ic_y := [0; 1; 2; 3]%Q; ic_allow := false; ic_kind := "spline" |}]
    (ex_intro _ [0; 1; 2; 3]%Q (ex_intro _ [0; 1; 2; 3]%Q
    (ex_intro _ _ (ex_intro _ _ (conj eq_refl (conj eq_refl (conj eq_refl eq_refl))))))))).
Qed.
Print Assumptions C09_user_ext_lost_refuted.

(** C63.  The fit that maps a reference frequency to a time for short segments: positive frequencies and
    a time range centred after t = 0 make the parameter bounds infeasible (scipy then raises);
    a range ending at or before t = 0 makes them feasible. *)
Theorem C63_bounds_infeasible_after_zero : forall times freqs b ta tb,
  nth_error times 0 = Some ta -> nth_error times (length times - 1) = Some tb ->
  quasicircular_box times freqs = Ok b -> (forall f, In f freqs -> (0 < f)%Q) ->
  (0 < ta + tb)%Q -> box_feasible b = false.
Proof. exact box_infeasible. Qed.
Print Assumptions C63_bounds_infeasible_after_zero.
Theorem C63_bounds_feasible_before_zero : forall times freqs b ta tb,
  nth_error times 0 = Some ta -> nth_error times (length times - 1) = Some tb ->
  quasicircular_box times freqs = Ok b -> (forall f, In f freqs -> (0 < f)%Q) ->
  (ta < tb)%Q -> (tb <= 0)%Q -> box_feasible b = true.
Proof. exact box_feasible_before_zero. Qed.
Print Assumptions C63_bounds_feasible_before_zero.
Example C63_ex : exists b b',
  quasicircular_box [-100; -50; -10]%Q [1; 2; 3]%Q = Ok b /\ box_feasible b = true /\
  quasicircular_box [0; 50; 90]%Q [1; 2; 3]%Q = Ok b' /\ box_feasible b' = false.
Proof. do 2 eexists. repeat split; vm_compute; reflexivity. Qed.
