(** Model of /repo/gw_eccentricity/utils.py (all of it except argparse formatting and the
    internals of scipy).  Definitions only. *)
From Verif Require Import Base.
Open Scope nat_scope.

(** utils.py 78-114, check_kwargs_and_set_defaults.
    [user] is None or the caller's dictionary; the dictionary returned is the caller's
    own dictionary after the in-place fill (the code returns the same object).
    The [name] and [location] strings only enter the error message and are dropped. *)
Definition fill_defaults {V} (user default : sdict V) : sdict V :=
  fold_left (fun u kv => if smem u (fst kv) then u else sset u (fst kv) (snd kv)) default user.
Definition check_kwargs_and_set_defaults {V} (user : option (sdict V)) (default : sdict V)
  : res (sdict V) :=
  let u := match user with None => [] | Some u => u end in
  if forallb (fun kw => smem default kw) (dkeys u) then Ok (fill_defaults u default)
  else Err ValueError.

(** utils.py 117-123, raise_exception_if_none.  A value is None or [Some v]. *)
Fixpoint raise_exception_if_none {V} (kwargs : sdict (option V)) (keys : list string) : res unit :=
  match keys with
  | [] => Ok tt
  | kw :: r =>
      do v <- sget kwargs kw;
      match v with None => Err GenericException | Some _ => raise_exception_if_none kwargs r end
  end.

(** utils.py 139-168, time_deriv_4thOrder.
    Fewer than 5 samples: the dot products 163-166 have mismatched shapes (ValueError).
    dt = 0 gives inf/nan in numpy ([NonFinite]).  The array is taken to hold floats
    (for an integer array numpy would truncate the result). *)
Definition stencil1 : list Q := [-3; -10; 18; -6; 1]%Q.
Definition stencil0 : list Q := [-25; 48; -36; 16; -3]%Q.
Definition stencil_m2 : list Q := [-1; 6; -18; 10; 3]%Q.
Definition stencil_m1 : list Q := [3; -16; 36; -48; 25]%Q.
Definition deriv_interior (y : list Q) : list Q :=
  map2 (fun ab cd => ((fst ab - 8 * snd ab + 8 * fst cd - snd cd) / 12)%Q)
       (map2 pair (zslice y 0 (-4)) (zslice y 1 (-3)))
       (map2 pair (zslice y 3 (-1)) (skipn 4 y)).
Definition edge_dot (w : list Q) (c : list Q) : Q := qdot w (map (fun x => x / 12)%Q c).
Definition time_deriv_4thOrder (y : list Q) (dt : Q) : res (list Q) :=
  if length y <? 5 then Err ValueError
  else if Qeq_bool dt 0 then Err NonFinite
  else
    let head := firstn 5 y in
    let tail := skipn (length y - 5) y in
    Ok (map (fun r => r / dt)%Q
         ([edge_dot head stencil0; edge_dot head stencil1]
          ++ deriv_interior y
          ++ [edge_dot tail stencil_m2; edge_dot tail stencil_m1])).

(** utils.py 38-75, peak_time_via_quadratic_fit.
    np.linalg.inv of the 3x3 Gram matrix is the adjugate over the determinant
    (LinAlgError when singular).  A vanishing quadratic coefficient gives inf/nan in numpy
    ([NonFinite]).  [t] and [func] are taken to have equal length. *)
Definition mat3 := ((Q * Q * Q) * (Q * Q * Q) * (Q * Q * Q))%type.
Definition det3 (m : mat3) : Q :=
  let '((a, b, c), (d, e, f), (g, h, i)) := m in
  (a * (e * i - f * h) - b * (d * i - f * g) + c * (d * h - e * g))%Q.
Definition inv3 (m : mat3) : res mat3 :=
  let '((a, b, c), (d, e, f), (g, h, i)) := m in
  let dt := det3 m in
  if Qeq_bool dt 0 then Err LinAlgError
  else Ok (((e * i - f * h) / dt, (c * h - b * i) / dt, (b * f - c * e) / dt),
           ((f * g - d * i) / dt, (a * i - c * g) / dt, (c * d - a * f) / dt),
           ((d * h - e * g) / dt, (b * g - a * h) / dt, (a * e - b * d) / dt))%Q.
Definition dot3 (u v : Q * Q * Q) : Q :=
  let '(a, b, c) := u in let '(d, e, f) := v in (a * d + b * e + c * f)%Q.
Definition quad_window (n i : nat) : nat := Nat.max 2 (Nat.min (n - 3) i).
Definition peak_time_via_quadratic_fit (t func : list Q) : res (Q * Q) :=
  do i0 <- argmax func;
  let i := quad_window (length t) i0 in
  do ti <- get t i;
  let tt := map (fun x => x - ti)%Q (slice t (i - 2) (i + 3)) in
  let ff := slice func (i - 2) (i + 3) in
  if negb (length tt =? 5) then Err ValueError
  else
    let x0 := map (fun _ => 1%Q) tt in
    let x1 := tt in
    let x2 := map (fun x => x * x)%Q tt in
    do m <- inv3 ((qdot x0 x0, qdot x1 x0, qdot x2 x0),
                  (qdot x0 x1, qdot x1 x1, qdot x2 x1),
                  (qdot x0 x2, qdot x1 x2, qdot x2 x2));
    let yv := (qdot ff x0, qdot ff x1, qdot ff x2) in
    let '(r0, r1, r2) := m in
    let c0 := dot3 yv r0 in
    let c1 := dot3 yv r1 in
    let c2 := dot3 yv r2 in
    if Qeq_bool c2 0 then Err NonFinite
    else Ok (ti - c1 / (2 * c2), c0 - c1 * c1 / 4 / c2)%Q.

(** utils.py 359-404, debug_message.  Returns the warnings issued. *)
Definition verbose_suffix : string := "For more verbose output use `debug_level=1`."%string.
Definition debug_message (message : string) (level : Z) (important point_to_verbose : bool)
  : res (list string) :=
  if negb (existsb (Z.eqb level) [-1; 0; 1; 2]%Z) then Err ValueError
  else if (level =? -1)%Z then Ok []
  else
    let warns :=
      if ((level =? 0)%Z && important) || (level =? 1)%Z
      then [if (level =? 0)%Z && point_to_verbose then (message ++ verbose_suffix)%string else message]
      else [] in
    if (level =? 2)%Z then Err GenericException else Ok warns.

(** utils.py 171-179: the entries of the spline kwargs that the code itself reads.  [w], [bbox]
    and [check_finite] are passed through to scipy and are folded into the oracle.
    The dictionary is taken to hold all its keys (see check_kwargs_and_set_defaults). *)
Record spline_kwargs := { sp_k : nat; sp_ext : Z }.
Definition get_default_spline_kwargs : spline_kwargs := {| sp_k := 3; sp_ext := 2 |}.

(** What get_interpolant hands to scipy. *)
Inductive interpolant :=
| SplineI (x y : list Q) (k : nat) (ext : Z)
| PchipI (x y : list Q) (extrapolate : bool).

Definition all_increasing (x : list Q) : bool := forallb (fun d => Qlt_bool 0 d) (qdiff x).

(** utils.py 239-319, get_interpolant.  The second component is the caller's kwargs dictionary
    after the call: it is changed in place at 303/308 when it was not copied at 292.
    [None] for the dictionary is only possible with check_kwargs=True, where a fresh dictionary of
    defaults is used (the caller sees no change).  PchipInterpolator raises ValueError for fewer than two
    points. *)
Definition fix_ext (allow : bool) (e : Z) : Z :=
  let e1 := if allow && (e =? 2)%Z then 0%Z else e in
  if negb allow && negb (e1 =? 2)%Z then 2%Z else e1.
Definition get_interpolant (x y : list Q) (allow : bool) (kind : string) (kw : option spline_kwargs)
  : res interpolant * option spline_kwargs :=
  if negb (all_increasing x) then (Err GenericException, kw)
  else if String.eqb kind "spline" then
    let d := match kw with None => get_default_spline_kwargs | Some d => d end in
    if length x <? 2 then (Err GenericException, kw)
    else if length x <=? sp_k d
         then (Ok (SplineI x y (length x - 1) (fix_ext allow (sp_ext d))), kw)
         else let d' := {| sp_k := sp_k d; sp_ext := fix_ext allow (sp_ext d) |} in
              (Ok (SplineI x y (sp_k d) (sp_ext d')),
               match kw with None => None | Some _ => Some d' end)
  else if String.eqb kind "monotonic_spline" then
    if length x <? 2 then (Err ValueError, kw) else (Ok (PchipI x y allow), kw)
  else (Err ValueError, kw).

Section Interp.
  (** scipy oracles: the value of the spline of degree k (or of the monotone cubic) through
      the points, at any argument.  The evaluation contract around them is scipy's documented
      treatment of points outside [x[0], x[-1]]: ext = 0 extrapolates, 1 gives zero, 2 raises
      ValueError, 3 gives the boundary value; PchipInterpolator(extrapolate=False) gives nan. *)
  Variable spline_val : list Q -> list Q -> nat -> Q -> Q.
  Variable pchip_val : list Q -> list Q -> Q -> Q.

  Definition eval_interpolant (f : interpolant) (t : Q) : res Q :=
    match f with
    | SplineI x y k ext =>
        do lo <- get x 0; do hi <- last_of x;
        if Qlt_bool t lo || Qlt_bool hi t then
          if (ext =? 0)%Z then Ok (spline_val x y k t)
          else if (ext =? 1)%Z then Ok 0%Q
          else if (ext =? 3)%Z then Ok (spline_val x y k (if Qlt_bool t lo then lo else hi))
          else Err ValueError
        else Ok (spline_val x y k t)
    | PchipI x y extrapolate =>
        do lo <- get x 0; do hi <- last_of x;
        if Qlt_bool t lo || Qlt_bool hi t then
          if extrapolate then Ok (pchip_val x y t) else Err NonFinite
        else Ok (pchip_val x y t)
    end.
  Fixpoint eval_all (f : interpolant) (ts : list Q) : res (list Q) :=
    match ts with
    | [] => Ok []
    | t :: r => do a <- eval_interpolant f t; do b <- eval_all f r; Ok (a :: b)
    end.

  (** utils.py 182-236, interpolate (the printing at 224-231 is dropped). *)
  Definition tol_1e10 : Q := 1 # 10000000000.
  Definition interpolate (newX oldX oldY : list Q) (allow : bool) (kind : string)
             (kw : option spline_kwargs) : res (list Q) :=
    if negb (length oldY =? length oldX) then Err GenericException
    else
      do _ <- (if allow then Ok tt
               else do mn <- qmin newX; do mo <- qmin oldX;
                    if Qlt_bool mn (mo - tol_1e10) then Err GenericException
                    else do mx <- qmax newX; do mxo <- qmax oldX;
                         if Qlt_bool (mxo + tol_1e10) mx then Err GenericException else Ok tt);
      do f <- fst (get_interpolant oldX oldY allow kind kw);
      eval_all f newX.
End Interp.

(** utils.py 435-445: the box handed to least_squares by QusicircularFitForMappingFrequencyToTime,
    with t0 the middle of the time range (line 421). Division by zero at t0 = 0 is [NonFinite]. *)
Record fit_box := { lo_f0 : Q; lo_f1 : Q; lo_T : Q; hi_f0 : Q; hi_f1 : Q; hi_T : Q }.
Definition quasicircular_box (times freqs : list Q) : res fit_box :=
  do ta <- get times 0; do tb <- last_of times;
  let t0 := ((ta + tb) / 2)%Q in
  do fmax <- qmax freqs; do fmin <- qmin freqs;
  let f0 := ((fmax + fmin) / 2)%Q in
  if Qeq_bool t0 0 then Err NonFinite
  else Ok {| lo_f0 := 0; lo_f1 := 0; lo_T := ((8 # 10) * tb)%Q;
             hi_f0 := (10 * f0)%Q; hi_f1 := (10 * f0 / - t0)%Q; hi_T := (- t0)%Q |}.
(** scipy.optimize.least_squares rejects (ValueError) unless every lower bound is strictly
    below its upper bound. *)
Definition box_feasible (b : fit_box) : bool :=
  Qlt_bool (lo_f0 b) (hi_f0 b) && Qlt_bool (lo_f1 b) (hi_f1 b) && Qlt_bool (lo_T b) (hi_T b).

(** Computations that may issue warnings through debug_message: the warnings so far and the
    result or exception. *)
Definition lg (A : Type) := (list string * res A)%type.
Definition lret {A} (a : A) : lg A := ([], Ok a).
Definition lraise {A} (e : exn) : lg A := ([], Err e).
Definition lift {A} (m : res A) : lg A := ([], m).
Definition lbind {A B} (m : lg A) (f : A -> lg B) : lg B :=
  match snd m with
  | Ok a => let r := f a in (fst m ++ fst r, snd r)
  | Err e => (fst m, Err e)
  end.
Notation "'let!' x := m 'in' k" := (lbind m (fun x => k))
  (at level 200, x name, m at level 100, k at level 200).
Notation "'let!' ' p := m 'in' k" := (lbind m (fun p => k))
  (at level 200, p strict pattern, m at level 100, k at level 200).
(** debug_message(msg, level, important); the text of the messages is a fixed tag in the model. *)
Definition dbg (msg : string) (level : Z) (important : bool) : lg unit :=
  match debug_message msg level important false with
  | Ok w => (w, Ok tt)
  | Err e => ([], Err e)
  end.
