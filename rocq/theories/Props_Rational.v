(** Property theorems about the rational fit: degree reduction (C37), adaptive search (C38), choice of
    the iterate (C39). *)
From Verif Require Import Base BaseLemmas UtilsModel RationalModel RationalSpec ExtremaSpec ExtremaLemmas
  RationalLemmas.
Open Scope string_scope. Open Scope list_scope. Open Scope Z_scope.

(** C37.  For all non-negative degrees and numbers of points: with fewer than two points ValueError;
    otherwise the reduced degrees exist, are between 0 and the given ones, leave more points than
    parameters, are unchanged if this was already so, and are otherwise the largest possible
    (one more parameter would be too many); the denominator is lowered first and the two are lowered in
    turn as long as both are positive. *)
Theorem C37_reduced_degrees : forall m n N, 0 <= m -> 0 <= n ->
  (N <= 1 /\ get_reduced_degrees (m, n) N = Err ValueError) \/
  (1 < N /\ exists m' n', get_reduced_degrees (m, n) N = Ok (m', n') /\ 0 <= m' <= m /\ 0 <= n' <= n /\
     m' + n' + 1 < N /\ (m + n + 1 < N -> m' = m /\ n' = n) /\ (N <= m + n + 1 -> m' + n' + 2 = N) /\
     (0 < m' -> 0 < n' -> n - n' = m - m' \/ n - n' = m - m' + 1)).
Proof. exact reduce_spec. Qed.
Print Assumptions C37_reduced_degrees.
(** C37.  The loop ends for all integers. *)
Theorem C37_terminates : forall d N, get_reduced_degrees d N <> Err OutOfFuel.
Proof. exact reduce_terminates. Qed.
Print Assumptions C37_terminates.
Example C37_ex : get_reduced_degrees (5, 4) 7 = Ok (3, 2) /\ get_reduced_degrees (0, 6) 4 = Ok (0, 2) /\
  get_reduced_degrees (2, 2) 1 = Err ValueError.
Proof. repeat split; reflexivity. Qed.

(** C38.  Whatever the fitter [rfit] and the monotonicity check [nonmono] do: if the search returns, its
    record is truthful, and either
    - it reports degrees d, returns exactly the fit for d, which passed the check and has more points
      than parameters; and either the next higher degrees failed the check, or they would be
      underdetermined, or every fit tried before d failed the check; or
    - it reports no degrees, returns the spline, and every fit it tried, down to degrees at most
      (1, 1), failed the check. *)
Theorem C38_search_result : forall F (rfit : list Q -> list Q -> Z * Z -> res F) nonmono spline_fit x y level user np na r,
  let fit_for := get_rational_fit rfit x y in
  let N := Z.of_nat (length x) in
  snd (adaptive_search fit_for nonmono spline_fit N level user np na) = Ok r ->
  truthful_record fit_for nonmono (sr_history r) /\
  match sr_degrees r with
  | Some d => fit_for d = Ok (sr_fit r) /\ nonmono (sr_fit r) = Ok false /\ well_determined N d /\
      (In ((fst d + 1, snd d + 1), true) (sr_history r) \/ ~ well_determined N (fst d + 1, snd d + 1) \/
       exists h', sr_history r = h' ++ [(d, false)] /\ h' <> [] /\ all_flagged h')
  | None => spline_fit = Ok (sr_fit r) /\ all_flagged (sr_history r) /\
            exists d, In (d, true) (sr_history r) /\ fst d <= 1 /\ snd d <= 1
  end.
Proof. exact @search_ok. Qed.
Print Assumptions C38_search_result.
(** C38.  Both loops end, for every fitter, check and starting degrees. *)
Theorem C38_terminates : forall F (rfit : list Q -> list Q -> Z * Z -> res F) nonmono spline_fit x y level user np na,
  spline_fit <> Err OutOfFuel -> (forall d, rfit x y d <> Err OutOfFuel) -> (forall f, nonmono f <> Err OutOfFuel) ->
  snd (adaptive_search (get_rational_fit rfit x y) nonmono spline_fit (Z.of_nat (length x)) level user np na)
    <> Err OutOfFuel.
Proof. exact @search_terminates. Qed.
Print Assumptions C38_terminates.
(** Fits are named by their degrees; one is called monotonic when its numerator degree is small. *)
Definition toy_search (limit : Z) (user : option (Z * Z)) (npts : nat) :=
  let x := map (fun i => inject_Z (Z.of_nat i)) (seq 0 npts) in
  adaptive_search (get_rational_fit (fun _ _ d => Ok (Some d)) x x)
    (fun f => match f with Some d => Ok (limit <? fst d) | None => Ok false end)
    (Ok None) (Z.of_nat npts) 0 user 10 10.
Example C38_ex_raise : snd (toy_search 5 None 30) =
  Ok {| sr_fit := Some (5, 5); sr_degrees := Some (5, 5);
        sr_history := [((3, 3), false); ((4, 4), false); ((5, 5), false); ((6, 6), true)] |}.
Proof. reflexivity. Qed.
Example C38_ex_lower : snd (toy_search 2 (Some (4, 2)) 30) =
  Ok {| sr_fit := Some (2, 1); sr_degrees := Some (2, 1);
        sr_history := [((4, 2), true); ((3, 1), true); ((2, 1), false)] |}.
Proof. reflexivity. Qed.
Example C38_ex_fallback : toy_search 0 (Some (2, 0)) 30 =
  (["both degrees 1 and still nonmonotonic, using spline"],
   Ok {| sr_fit := None; sr_degrees := None; sr_history := [((2, 0), true); ((1, 1), true)] |}).
Proof. reflexivity. Qed.

(** C39.  The stored coefficients are those of the first iterate with the smallest residual among all
    iterates; at most max_iterations are done, all but the last have not converged, and
    fewer are done only after convergence or a failed linear solve. *)
Theorem C39_best_iterate : forall W A (step : W -> res (A * list Q * W)) norm y q0 iters tol best h,
  fit step norm y q0 iters tol = Ok (best, h) ->
  In best h /\ (forall e, In e h -> (h_res best <= h_res e)%Q) /\
  (exists pre post, h = pre ++ best :: post /\ forall e, In e pre -> (h_res best < h_res e)%Q) /\
  (1 <= length h <= iters)%nat /\
  (forall e, In e (removelast h) -> (tol <= h_delta e)%Q) /\
  ((length h < iters)%nat ->
     (exists h' e, h = h' ++ [e] /\ (h_delta e < tol)%Q) \/ (exists q', step q' = Err LinAlgError)).
Proof. exact @fit_spec. Qed.
Print Assumptions C39_best_iterate.
(** C39.  ValueError exactly when no iterate exists: no iterations allowed, or the first solve fails. *)
Theorem C39_no_iterate : forall W A (step : W -> res (A * list Q * W)) norm y q0 iters tol,
  (forall q, step q <> Err ValueError) ->
  (fit step norm y q0 iters tol = Err ValueError <-> iters = 0%nat \/ step q0 = Err LinAlgError).
Proof. exact @fit_value_error. Qed.
Print Assumptions C39_no_iterate.
(** Toy iteration: state k, fitted values [k], residual |k - 3|; fails at k = 6. *)
Definition toy_step (k : Z) : res (Z * list Q * Z) :=
  if k =? 6 then Err LinAlgError else Ok (k, [inject_Z k], k + 1).
Definition toy_norm (l : list Q) : Q := match l with [a] => Qabs a | _ => 0 end.
Example C39_ex :
  match fit toy_step toy_norm [3%Q] 1 20 (1 # 2) with
  | Ok (best, h) => h_coef best = 3 /\ length h = 5%nat
  | Err _ => False end.
Proof. vm_compute. split; reflexivity. Qed.
