(** Model of /repo/gw_eccentricity/rational_fit.py (the control flow; linear algebra is an oracle) and of
    the adaptive choice of degrees in eccDefinition.py 1535-1710.  Definitions only. *)
From Verif Require Import Base UtilsModel.
Open Scope Z_scope.

(** rational_fit.py 173-175, is_underdetermined. *)
Definition is_underdetermined (d : Z * Z) (n_points : Z) : bool := n_points <=? fst d + snd d + 1.

(** rational_fit.py 178-211, get_reduced_degrees: the while loop with fuel. *)
Fixpoint reduce_loop (fuel : nat) (m n : Z) (reduce_denom : bool) (n_points : Z) : res (Z * Z) :=
  match fuel with
  | O => Err OutOfFuel
  | S k =>
      if is_underdetermined (m, n) n_points then
        if (m <=? 0) && (n <=? 0) then Err ValueError
        else if reduce_denom && (0 <? n) then reduce_loop k m (n - 1) (negb reduce_denom) n_points
        else if 0 <? m then reduce_loop k (m - 1) n (negb reduce_denom) n_points
        else reduce_loop k m n (negb reduce_denom) n_points
      else Ok (m, n)
  end.
Definition reduce_fuel (m n : Z) : nat := Z.to_nat (2 * (Z.max 0 m + Z.max 0 n) + 2).
Definition get_reduced_degrees (d : Z * Z) (n_points : Z) : res (Z * Z) :=
  reduce_loop (reduce_fuel (fst d) (snd d)) (fst d) (snd d) true n_points.

(** rational_fit.py 230-267, RationalFit.__init__: its checks (the isinstance and length checks on
    [degrees] hold by typing; the underdetermined case only issues a Python warning). *)
Definition rational_init (x y : list Q) (d : Z * Z) : res unit :=
  if negb (length x =? length y)%nat then Err ValueError
  else if (fst d <? 0) || (snd d <? 0) then Err ValueError else Ok tt.

(** rational_fit.py 269-373, RationalFit.fit.  One pass of the loop body builds the Arnoldi basis from
    the weights, solves for the coefficients and updates the denominator: [step].  It may raise
    LinAlgError (322), which stops the loop; other exceptions are not caught.  [norm] is
    np.linalg.norm. *)
Section Fit.
  Context {W A : Type}.
  Variable step : W -> res (A * list Q * W).  (* coefficients, values r at the nodes, new q *)
  Variable norm : list Q -> Q.
  Variable y : list Q.
  Record hist_entry := { h_coef : A; h_res : Q; h_delta : Q }.
  Definition qsub (a b : list Q) : list Q := map2 (fun u v => (u - v)%Q) a b.
  Fixpoint fit_loop (iters : nat) (q : W) (fit_old : list Q) (tol : Q) (history : list hist_entry)
    : res (list hist_entry) :=
    match iters with
    | O => Ok history
    | S k =>
        match step q with
        | Err LinAlgError => Ok history
        | Err e => Err e
        | Ok (a, r, q') =>
            let e := {| h_coef := a; h_res := norm (qsub r y); h_delta := norm (qsub r fit_old) |} in
            let h := (history ++ [e])%list in
            if Qlt_bool (h_delta e) tol then Ok h else fit_loop k q' r tol h
        end
    end.
  (** min(history, key=res_norm): the first entry with the smallest key; ValueError if empty. *)
  Fixpoint min_entry (best : hist_entry) (l : list hist_entry) : hist_entry :=
    match l with
    | [] => best
    | e :: r => if Qlt_bool (h_res e) (h_res best) then min_entry e r else min_entry best r
    end.
  Definition fit (q0 : W) (max_iterations : nat) (tol : Q) : res (hist_entry * list hist_entry) :=
    do h <- fit_loop max_iterations q0 (map (fun _ => 0%Q) y) tol [];
    match h with
    | [] => Err ValueError
    | e :: r => Ok (min_entry e r, h)
    end.
End Fit.
Arguments hist_entry : clear implicits.

(** np.gradient(y, dx) for a scalar step: central differences inside, one-sided at the ends;
    ValueError for fewer than two samples. *)
Fixpoint gradient_tail (prev cur : Q) (r : list Q) (dx : Q) : list Q :=
  match r with
  | [] => [((cur - prev) / dx)%Q]
  | nxt :: r' => ((nxt - prev) / (2 * dx))%Q :: gradient_tail cur nxt r' dx
  end.
Definition np_gradient (y : list Q) (dx : Q) : res (list Q) :=
  match y with
  | a :: b :: r => if Qeq_bool dx 0 then Err NonFinite
                   else Ok (((b - a) / dx)%Q :: gradient_tail a b r dx)
  | _ => Err ValueError
  end.

(** eccDefinition.py 1693-1710, check_if_first_derivative_is_not_strictly_monotonic.  A ratio a/b with
    b = 0 is -inf (a < 0, flagged), +inf or nan (not flagged). *)
Definition ratio_flagged (a b tol : Q) : bool :=
  if Qeq_bool b 0 then Qlt_bool a 0
  else let r := (a / b)%Q in if Qlt_bool (Qabs (1 - r)) tol then false else Qlt_bool r 1.
Definition first_derivative_not_monotonic (x y : list Q) (tol : Q) : res bool :=
  do x1 <- get x 1; do x0 <- get x 0;
  do g <- np_gradient y (x1 - x0);
  Ok (existsb (fun p => ratio_flagged (fst p) (snd p) tol) (combine (tl g) g)).

(** eccDefinition.py 1663-1691, get_approximate_degree_for_rational_fit. *)
Definition approximate_degree (n_peri n_apo : nat) : Z * Z :=
  let n := Nat.max n_peri n_apo in
  if (n <=? 20)%nat then (3, 3) else if (n <=? 40)%nat then (4, 4)
  else if (n <=? 60)%nat then (5, 5) else (6, 6).

(** eccDefinition.py 1535-1661, get_rational_fit_for_extrema.  [fit_for d] is
    get_rational_fit(x, y, degrees=d), [nonmono f] the check of the fit on x_test with tolerance 1,
    [spline_fit] is get_interpolant(x, y).  The result carries the degrees stored in
    self.special_interp_kwargs_for_omega_gw_extrema (None after the fallback) and the pairs
    recorded in self.rational_fit_nonmonotonicity_history, in the order they are tried (a dict in
    the code; the keys of one call are distinct). *)
Section Adaptive.
  Context {F : Type}.
  Variable fit_for : Z * Z -> res F.
  Variable nonmono : F -> res bool.
  Variable spline_fit : res F.
  Variable n_points : Z.
  Definition history := list ((Z * Z) * bool).
  Record search_result := { sr_fit : F; sr_degrees : option (Z * Z); sr_history : history }.
  (** lines 1588-1623 *)
  Fixpoint lower_loop (fuel : nat) (level : Z) (d : Z * Z) (h : history) : lg search_result :=
    match fuel with
    | O => lraise OutOfFuel
    | S k =>
        if (fst d <=? 1) && (snd d <=? 1) then
          let! _ := dbg "both degrees 1 and still nonmonotonic, using spline" level true in
          let! f := lift spline_fit in
          lret {| sr_fit := f; sr_degrees := None; sr_history := h |}
        else
          let d' := (Z.max (fst d - 1) 1, Z.max (snd d - 1) 1) in
          let! _ := dbg "lowering degrees" level false in
          let! f := lift (fit_for d') in
          let! b := lift (nonmono f) in
          let h' := (h ++ [(d', b)])%list in
          if (b : bool) then lower_loop k level d' h'
          else lret {| sr_fit := f; sr_degrees := Some d'; sr_history := h' |}
    end.
  (** lines 1626-1656; at the head of the loop kwargs["degrees"] = last_monotonic_degrees. *)
  Fixpoint raise_loop (fuel : nat) (level : Z) (d : Z * Z) (last : F) (h : history) : lg search_result :=
    match fuel with
    | O => lraise OutOfFuel
    | S k =>
        let d' := (fst d + 1, snd d + 1) in
        if is_underdetermined d' n_points then
          lret {| sr_fit := last; sr_degrees := Some d; sr_history := h |}
        else
          let! f := lift (fit_for d') in
          let! b := lift (nonmono f) in
          let h' := (h ++ [(d', b)])%list in
          if (b : bool) then
            let! _ := dbg "increasing degrees caused nonmonotonicity, reverting" level false in
            lret {| sr_fit := last; sr_degrees := Some d; sr_history := h' |}
          else raise_loop k level d' f h'
    end.
  Definition start_degrees (user : option (Z * Z)) (n_peri n_apo : nat) : res (Z * Z) :=
    let d := match user with Some d => d | None => approximate_degree n_peri n_apo end in
    if is_underdetermined d n_points then get_reduced_degrees d n_points else Ok d.
  Definition adaptive_search (level : Z) (user : option (Z * Z)) (n_peri n_apo : nat)
    : lg search_result :=
    let! d := lift (start_degrees user n_peri n_apo) in
    let! f := lift (fit_for d) in
    let! b := lift (nonmono f) in
    let h := [(d, b)] in
    if (b : bool) then lower_loop (Z.to_nat (Z.max 1 (Z.max (fst d) (snd d)))) level d h
    else raise_loop (Z.to_nat (n_points + 1)) level d f h.
End Adaptive.
Arguments search_result : clear implicits.

(** utils.py 333-356, get_rational_fit with check_kwargs=False: construct, then fit.  [rfit x y d] is
    the fitted object (or the exception of [fit]). *)
Definition get_rational_fit {F} (rfit : list Q -> list Q -> Z * Z -> res F) (x y : list Q) (d : Z * Z)
  : res F :=
  do _ <- rational_init x y d; rfit x y d.
