(** Properties of the extrema search of FrequencyFits and AmplitudeFits. *)
From Coq Require Import Sorting.Sorted Reals.
From Verif Require Import Base FitsModel FitsSpec FitsLemmas FitsClaims FitsIndex EnvModel EnvLemmas.
Open Scope string_scope.
Open Scope list_scope.
Open Scope nat_scope.

(** C40.  However the peak finder and the fits behave, as long as each of their calls returns or raises: the search stops
    within 10001 local searches of at most 21 passes each.  (Allowing more passes never changes the outcome, and the outcome
    is never that the passes ran out.) *)
Theorem C40_terminates : forall env curve_fit find_peaks parabola cubic d sign fuel inner,
  library_returns env curve_fit find_peaks parabola cubic -> (10001 <= Z.of_nat fuel)%Z -> 21 <= inner ->
  search env curve_fit find_peaks parabola cubic fuel inner d sign <> Err OutOfFuel /\
  search env curve_fit find_peaks parabola cubic fuel inner d sign = search env curve_fit find_peaks parabola cubic (Z.to_nat 10001) 21 d sign.
Proof. exact terminates. Qed.
Print Assumptions C40_terminates.
(** C40.  What is returned: strictly increasing locations inside the data, each a peak of the (for apocenters: negated)
    data minus an envelope over a window around it, with the distance and prominence documented; and for each location its
    time, data and phase, refined if asked for. *)
Theorem C40_returned : forall env curve_fit find_peaks parabola cubic d t_merger kind times locations info,
  peaks_contract find_peaks ->
  find_extrema env curve_fit find_peaks parabola cubic d t_merger kind = (times, Ok (locations, info)) ->
  (kind = "pericenters" /\ found_in env find_peaks parabola cubic (from_merger d t_merger) 1 locations info) \/
  (kind = "apocenters" /\ found_in env find_peaks parabola cubic (from_merger d t_merger) (-1) locations info).
Proof. exact returned. Qed.
Print Assumptions C40_returned.
(** C40.  It raises for data whose phase covers no more than num_orbits - 1 orbits of 1.1 * 4 pi, and for num_orbits = 0. *)
Theorem C40_short : forall env curve_fit find_peaks parabola cubic d t_merger kind ph0,
  nth_error (f_phase d) 0 = Some ph0 ->
  Forall (fun y => y <= ph0 + (11 # 10) * inject_Z (Z.of_nat (f_orbits d) - 1) * 4 * np_pi)%Q (f_phase d) \/ f_orbits d = 0 ->
  exists times e, find_extrema env curve_fit find_peaks parabola cubic d t_merger kind = (times, Err e).
Proof. exact too_short. Qed.
Print Assumptions C40_short.
(** C40.  With num_orbits at least 2 no index is out of range, whatever the library calls do short of raising IndexError. *)
Theorem C40_no_index_error : forall env curve_fit find_peaks parabola cubic d t_merger kind times e,
  library_indexes env curve_fit find_peaks parabola cubic -> peaks_contract find_peaks ->
  f_t d <> [] -> length (f_phase d) = length (f_t d) -> length (f_data d) = length (f_t d) -> 2 <= f_orbits d ->
  find_extrema env curve_fit find_peaks parabola cubic d t_merger kind = (times, Err e) -> e <> IndexError.
Proof. exact no_index_error. Qed.
Print Assumptions C40_no_index_error.
(** With num_orbits = 1 this is false. *)
Theorem C40_single_orbit_refuted : exists env curve_fit find_peaks parabola cubic d t_merger times,
  peaks_contract find_peaks /\ library_indexes env curve_fit find_peaks parabola cubic /\
  length (f_phase d) = length (f_t d) /\ length (f_data d) = length (f_t d) /\ f_orbits d = 1 /\
  find_extrema env curve_fit find_peaks parabola cubic d t_merger "pericenters" = (times, Err IndexError).
Proof. exact single_orbit. Qed.
Print Assumptions C40_single_orbit_refuted.
Example C40_ex :
  peaks_contract toy_find_peaks /\ library_returns toy_env toy_curve_fit toy_find_peaks toy_parabola toy_cubic /\
  library_indexes toy_env toy_curve_fit toy_find_peaks toy_parabola toy_cubic /\
  toy_locations (toy_call 3 false 64 "pericenters") = Ok [4; 12; 20; 28; 36; 44; 52; 60] /\
  toy_locations (toy_call 3 true 64 "pericenters") = Ok [4; 12; 20; 28; 36; 44; 52; 60] /\
  toy_locations (toy_call 2 true 64 "apocenters") = Ok [8; 16; 24; 32; 40; 48; 56] /\
  toy_locations (toy_call 3 true 10 "apocenters") = Err GenericException.
Proof. split; [exact toy_contract|]. split; [exact toy_returns|]. split; [exact toy_indexes|]. vm_compute. repeat split. Qed.

(** C41.  After a normal return every time has its original value (as a number); after any exception inside the search
    every time is smaller by the merger time; after the refusal of an unknown kind nothing has changed. *)
Theorem C41_times : forall env curve_fit find_peaks parabola cubic d t_merger kind,
  match find_extrema env curve_fit find_peaks parabola cubic d t_merger kind with
  | (times, Ok _) => Forall2 Qeq times (f_t d)
  | (times, Err _) => if existsb (String.eqb kind) ["pericenters"; "apocenters"]
                      then Forall2 (fun after before => after = before - t_merger)%Q times (f_t d) else times = f_t d
  end.
Proof. exact times_after. Qed.
Print Assumptions C41_times.
Example C41_ex :
  nth_error (fst (toy_call 3 true 10 "apocenters")) 0 = Some (-60)%Q /\ nth_error (fst (toy_call 2 true 64 "apocenters")) 0 = Some 0%Q /\
  toy_call 3 true 10 "periapses" = (f_t (toy_fits 3 true 10), Err GenericException).
Proof. vm_compute. repeat split. Qed.

Open Scope R_scope.
(** C42.  At the centre time the envelope has value f0 and slope f1. *)
Theorem C42_centre : forall t0 f0 f1 T, t0 < T -> f0 <> 0 ->
  fit_value t0 f0 f1 T t0 = f0 /\ derivable_pt_lim (fit_value t0 f0 f1 T) t0 f1.
Proof. exact fit_centre. Qed.
Print Assumptions C42_centre.
(** C42.  Every A (T - t)^n is reached by some value and slope. *)
Theorem C42_reaches : forall t0 A n T t, t0 < T -> A <> 0 ->
  fit_value t0 (A * Rpower (T - t0) n) (- n * A * Rpower (T - t0) n / (T - t0)) T t = A * Rpower (T - t) n.
Proof. exact fit_reaches. Qed.
Print Assumptions C42_reaches.
(** C42.  With positive value and slope the envelope is positive and strictly increasing up to T. *)
Theorem C42_increasing : forall t0 f0 f1 T s t, 0 < f0 -> 0 < f1 -> t0 < T -> s < t -> t < T ->
  0 < fit_value t0 f0 f1 T s < fit_value t0 f0 f1 T t.
Proof. exact fit_rises. Qed.
Print Assumptions C42_increasing.
(** C42.  The secular trend of the segment cut is the same function. *)
Theorem C42_secular : forall t0 f0 f1 T t, secular_value t0 f0 f1 T t = fit_value t0 f0 f1 T t.
Proof. exact secular_same. Qed.
Print Assumptions C42_secular.
(** C42.  Evaluating the envelope with a time beyond T raises; otherwise it is evaluated at every time. *)
Theorem C42_beyond : forall env t0 p ts t, In t ts -> (q_T p < t)%Q -> envelope env t0 p ts = Err GenericException.
Proof. exact beyond. Qed.
Print Assumptions C42_beyond.
Theorem C42_inside : forall env t0 p ts, ts <> nil -> (forall t, In t ts -> t <= q_T p)%Q -> envelope env t0 p ts = eval_all (env t0 p) ts.
Proof. exact inside. Qed.
Print Assumptions C42_inside.
Example C42_ex : fit_value (-100) 2 (1 / 50) 0 (-100) = 2 /\ derivable_pt_lim (fit_value (-100) 2 (1 / 50) 0) (-100) (1 / 50) /\
  0 < fit_value (-100) 2 (1 / 50) 0 (-50) < fit_value (-100) 2 (1 / 50) 0 (-10) /\
  envelope toy_env 0 {| q_f0 := 1; q_f1 := 1; q_T := 5 |} [1; 6]%Q = Err GenericException /\
  envelope toy_env 0 {| q_f0 := 1; q_f1 := 1; q_T := 5 |} [1; 5]%Q = Ok [1; 1]%Q.
Proof.
  split; [apply C42_centre|split; [apply C42_centre|split; [apply C42_increasing|split; reflexivity]]]; Lra.lra.
Qed.
