(** Model of the measurement itself: eccDefinition.measure_ecc and everything it calls after the
    object is built, /repo/gw_eccentricity/eccDefinition.py 1720-1912, 2320-2538, 2558-2888, 2946-3417.
    Definitions only.
    Not modelled: debug plots.  External code is a Section variable: the extrema finder of the chosen
    method, the scipy interpolants, the rational fitter and the slope of the eccentricity spline. *)
From Verif Require Import Base UtilsModel ExtremaModel RationalModel.
Open Scope nat_scope.

(** A built interpolant, as a function of time; evaluation may raise. *)
Definition curve := Q -> res Q.
Fixpoint eval_curve (f : curve) (ts : list Q) : res (list Q) :=
  match ts with
  | [] => Ok []
  | t :: r => do a <- f t; do b <- eval_curve f r; Ok (a :: b)
  end.

(** What the constructor leaves in the object and the measurement only reads. *)
Inductive reference := TimeRef (tref_in : list Q) | FreqRef (fref_in : list Q).
Inductive interp_method := SplineMethod | RationalMethod.
Record config := {
  c_t : list Q;                     (* self.t *)
  c_data_t : list Q;                (* self.dataDict["t"]; differs from self.t when short segments are used *)
  c_phase : list Q;                 (* self.phase_gw *)
  c_omega : list Q;                 (* self.omega_gw *)
  c_ref : reference;                (* self.domain with self.tref_in or self.fref_in *)
  c_scalar : bool;                  (* self.ref_ndim == 0 *)
  c_precessing : bool;
  c_filtered : bool;                (* self.omega_gw_filtered is not None *)
  c_midpoints : bool;               (* treat_mid_points_between_pericenters_as_apocenters *)
  c_return_zero : bool;             (* return_zero_if_small_ecc_failure *)
  c_interp : interp_method;         (* omega_gw_extrema_interpolation_method *)
  c_average : string;               (* omega_gw_averaging_method *)
  c_use_only : bool;                (* use_only_these_many_orbits is set *)
  c_special : spline_kwargs;        (* special_interp_kwargs_for_omega_gw_extrema, spline method *)
  c_general : spline_kwargs;        (* general_interp_kwargs *)
  c_zeroecc : option (list Q * list Q)  (* t_zeroecc_shifted and omega_gw_zeroecc, if they were set *)
}.

(** What a measurement changes in the object and a later call may read.  Attributes start absent
    (None) and persist, also when an exception stops the call half way. *)
Record state := {
  s_degrees : option (Z * Z);       (* special_interp_kwargs_for_omega_gw_extrema["degrees"] *)
  s_average : option (list Q * list Q); (* t_for_omega_gw_average, omega_gw_average *)
  s_decc : option (list bool);      (* decc_dt_for_checks: which entries are positive *)
  s_peri : option (list nat);       (* pericenters_location *)
  s_apo : option (list nat);        (* apocenters_location *)
  s_window : option (Q * Q);        (* tmin, tmax *)
  s_curves : option curve * option curve; (* omega_gw_pericenters_interp, omega_gw_apocenters_interp *)
  s_zero : option bool              (* setting_ecc_to_zero *)
}.
(** The object as the constructor leaves it; [d] is the degrees entry of the user's kwargs. *)
Definition fresh (d : option (Z * Z)) : state :=
  {| s_degrees := d; s_average := None; s_decc := None; s_peri := None; s_apo := None;
     s_window := None; s_curves := (None, None); s_zero := None |}.
Definition set_degrees d s := {| s_degrees := d; s_average := s_average s; s_decc := s_decc s; s_peri := s_peri s;
  s_apo := s_apo s; s_window := s_window s; s_curves := s_curves s; s_zero := s_zero s |}.
Definition set_average a s := {| s_degrees := s_degrees s; s_average := a; s_decc := s_decc s; s_peri := s_peri s;
  s_apo := s_apo s; s_window := s_window s; s_curves := s_curves s; s_zero := s_zero s |}.
Definition set_decc d s := {| s_degrees := s_degrees s; s_average := s_average s; s_decc := d; s_peri := s_peri s;
  s_apo := s_apo s; s_window := s_window s; s_curves := s_curves s; s_zero := s_zero s |}.
Definition set_locations p a s := {| s_degrees := s_degrees s; s_average := s_average s; s_decc := s_decc s;
  s_peri := Some p; s_apo := Some a; s_window := s_window s; s_curves := s_curves s; s_zero := s_zero s |}.
Definition set_window w s := {| s_degrees := s_degrees s; s_average := s_average s; s_decc := s_decc s; s_peri := s_peri s;
  s_apo := s_apo s; s_window := Some w; s_curves := s_curves s; s_zero := s_zero s |}.
Definition set_curves c s := {| s_degrees := s_degrees s; s_average := s_average s; s_decc := s_decc s; s_peri := s_peri s;
  s_apo := s_apo s; s_window := s_window s; s_curves := c; s_zero := s_zero s |}.
Definition set_zero b s := {| s_degrees := s_degrees s; s_average := s_average s; s_decc := s_decc s; s_peri := s_peri s;
  s_apo := s_apo s; s_window := s_window s; s_curves := s_curves s; s_zero := Some b |}.

(** Computations of a method of the object: the warnings, the object afterwards, the value or exception. *)
Definition act (A : Type) := state -> list string * (state * res A).
Definition aret {A} (a : A) : act A := fun s => ([], (s, Ok a)).
Definition alift {A} (r : res A) : act A := fun s => ([], (s, r)).
Definition alog {A} (x : lg A) : act A := fun s => (fst x, (s, snd x)).
Definition aread {A} (f : state -> A) : act A := fun s => ([], (s, Ok (f s))).
Definition amod (f : state -> state) : act unit := fun s => ([], (f s, Ok tt)).
Definition abind {A B} (m : act A) (k : A -> act B) : act B := fun s =>
  let '(w, (s1, r)) := m s in
  match r with
  | Ok a => let '(w2, y) := k a s1 in ((w ++ w2)%list, y)
  | Err e => (w, (s1, Err e))
  end.
Notation "x <~ m ;; k" := (abind m (fun x => k)) (at level 61, m at next level, right associativity).
Notation "' p <~ m ;; k" := (abind m (fun p => k)) (at level 61, p pattern, m at next level, right associativity).
(** An attribute that was never set. *)
Definition attr {A} (o : option A) : res A := match o with Some a => Ok a | None => Err AttributeError end.

(** np.arange(a, b, step) *)
Fixpoint arange_from (a step : Q) (n : nat) : list Q :=
  match n with O => [] | S k => a :: arange_from (a + step)%Q step k end.
Definition arange (a b step : Q) : res (list Q) :=
  if Qeq_bool step 0 then Err ZeroDivisionError
  else Ok (arange_from a step (Z.to_nat (q_ceil ((b - a) / step)))).

Definition qdivs (a b : list Q) : res (list Q) :=
  if existsb (fun y => Qeq_bool y 0) b then Err NonFinite else Ok (map2 Qdiv a b).
(** 0.5 * (l[:-1] + l[1:]) *)
Definition midpoints (l : list Q) : list Q := map2 (fun x y => ((1 # 2) * (x + y))%Q) (removelast l) (tl l).
(** Sorting pairs by their first component (np.argsort, then indexing both arrays with it); equal
    times keep their order here, which numpy does not promise. *)
Fixpoint insert_pair (p : Q * Q) (l : list (Q * Q)) : list (Q * Q) :=
  match l with
  | [] => [p]
  | a :: r => if Qlt_bool (fst p) (fst a) then p :: a :: r else a :: insert_pair p r
  end.
Definition sort_pairs (l : list (Q * Q)) : list (Q * Q) := fold_left (fun acc p => insert_pair p acc) l [].

(** np.interp for increasing xp: constant outside, linear between neighbouring points. *)
Fixpoint interp_scan (x : Q) (xp fp : list Q) : Q :=
  match xp, fp with
  | a :: ((b :: _) as xr), u :: ((v :: _) as fr) =>
      if Qlt_bool x b then (u + (v - u) / (b - a) * (x - a))%Q else interp_scan x xr fr
  | _, u :: _ => u
  | _, [] => 0%Q
  end.
Definition np_interp (x : Q) (xp fp : list Q) : Q :=
  match xp, fp with
  | a :: _, u :: _ => if Qlt_bool x a then u else interp_scan x xp fp
  | _, _ => 0%Q
  end.
(** x % m for m > 0 *)
Definition qmod (x m : Q) : Q := (x - m * inject_Z (Qfloor (x / m)))%Q.
Definition two_pi : Q := 2 * np_pi.

(** eccDefinition.py 2653-2703, check_input_limits (the texts are dropped). *)
Definition check_input_limits (vals : list Q) (lo hi : Q) : res unit :=
  if existsb (fun v => Qlt_bool hi v) vals then Err GenericException
  else if existsb (fun v => Qlt_bool v lo) vals then Err GenericException
  else Ok tt.

(** eccDefinition.py 3078-3165, check_monotonicity_of_omega_gw_average. *)
Definition check_monotonicity (avg : list Q) : res unit :=
  if existsb (fun d => Qle_bool d 0) (qdiff avg) then Err GenericException else Ok tt.

(** eccDefinition.py 2616-2651, compute_mean_anomaly at one time, without the limit check. *)
Definition pericenter_anomalies (n : nat) : list Q := map (fun i => (inject_Z (Z.of_nat i) * 2 * np_pi)%Q) (seq 0 n).
Definition mean_anomaly_at (t_peri : list Q) (t : Q) : Q :=
  qmod (np_interp t t_peri (pericenter_anomalies (length t_peri))) two_pi.

(** eccDefinition.py 1785-1872, check_num_extrema: Some true / Some false / None returned.
    The warning is issued at level 0 whatever the debug level of the object is. *)
Definition check_num_extrema (c : config) (n : nat) : lg bool :=
  if n <? 2 then
    let! b := lift (last_of (c_phase c)) in
    let! a := lift (get (c_phase c) 0) in
    let long := Qlt_bool 5 ((b - a) / (4 * np_pi)) in
    if long && c_return_zero c then
      let! _ := dbg "too few extrema, setting eccentricity to zero" 0 true in lret true
    else lraise GenericException
  else lret false.

(** eccDefinition.py 1874-1912, check_if_dropped_too_many_extrema with threshold 0.5. *)
Definition check_dropped (level : Z) (n_original n_new : nat) : lg unit :=
  if (level <? 1)%Z then lret tt
  else if Qlt_bool ((1 # 2) * inject_Z (Z.of_nat n_original))
                   (inject_Z (Z.of_nat n_original - Z.of_nat n_new))
       then dbg "dropped too many extrema" level false else lret tt.

(** eccDefinition.py 2818-2888, check_pericenters_and_apocenters_appear_alternately. *)
Fixpoint interleave {A} (a b : list A) : list A :=
  match a with [] => b | x :: r => x :: match b with [] => r | y :: s => y :: interleave r s end end.
Definition check_alternate (level : Z) (t : list Q) (p a : list nat) : lg unit :=
  if (level <? 1)%Z then lret tt
  else if (2 <=? Z.abs (Z.of_nat (length p) - Z.of_nat (length a)))%Z
       then dbg "number of pericenters and apocenters differ" level false
  else
    let! peri_first :=
      (if length p =? length a then
         let! tp := lift (gather t p) in let! tp0 := lift (get tp 0) in
         let! ta := lift (gather t a) in let! ta0 := lift (get ta 0) in
         lret (Qlt_bool tp0 ta0)
       else lret (length a <? length p)) in
    let arr := if (peri_first : bool) then interleave p a else interleave a p in
    let! tt_arr := lift (gather t arr) in
    if existsb (fun d => Qlt_bool d 0) (qdiff tt_arr)
    then dbg "extrema do not alternate" level false else lret tt.

(** eccDefinition.py 2705-2770, check_extrema_separation with always_return=False; the arrays it returns are
    only used by plots. *)
Definition check_separation (level : Z) (t phase : list Q) (loc : list nat) : lg unit :=
  if (level <? 1)%Z then lret tt
  else
    let! ph := lift (gather phase loc) in
    let d := qdiff (map (fun x => x / 2)%Q ph) in
    let! _ := lift (gather t loc) in
    let! _ := (if existsb (fun x => Qlt_bool x np_pi) d
               then dbg "extrema too close" level false else lret tt) in
    let! _ := (if existsb (fun x => Qlt_bool (Qabs (x - np_pi)) (Qabs (x - 2 * np_pi))) d
               then dbg "phase shift closer to pi" level false else lret tt) in
    if existsb (fun nd => ratio_gt (fst nd) (snd nd) max_ratio) (combine (tl d) d)
    then dbg "extrema too far" level false else lret tt.

(** Results: numpy scalars or arrays. *)
Inductive out (A : Type) := Scalar (a : A) | Arr (l : list A).
Arguments Scalar {A} a. Arguments Arr {A} l.

Section Measure.
  (** V is the type of eccentricities: [ecc_of wp wa] is the formula of compute_eccentricity
      (2578-2585, see EccModel.v), [vzero] is 0 and [vneg] the test < 0. *)
  Context {V : Type}.
  Variable ecc_of : Q -> Q -> V.
  Variable vzero : V.
  Variable vneg : V -> bool.
  (** The method's find_extrema("pericenters") (true) and find_extrema("apocenters") (false). *)
  Variable find_extrema : bool -> res (list nat).
  Variable spline_val : list Q -> list Q -> nat -> Q -> Q.
  Variable pchip_val : list Q -> list Q -> Q -> Q.
  (** RationalFit(x, y, d).fit() as a function of time. *)
  Variable rfit : list Q -> list Q -> Z * Z -> res curve.
  (** Signs of the derivative of the spline through (t_for_checks, ecc_for_checks), at those times. *)
  Variable slope_positive : list Q -> list V -> list bool.

  (** The result dictionary; an absent key is None. *)
  Record result := {
    r_eccentricity : out V; r_mean_anomaly : out Q;
    r_tref_out : option (out Q); r_fref_out : option (out Q) }.

  (** utils.get_interpolant(x, y, spline_kwargs=kw), then calls of the result. *)
  Definition spline_curve (x y : list Q) (kw : option spline_kwargs) : res curve :=
    do f <- fst (get_interpolant x y false "spline" kw);
    Ok (eval_interpolant spline_val pchip_val f).

  (** eccDefinition.py 1535-1661 for x, y the times and frequencies of one kind of extrema.  The fit
      degrees are stored in the object on success only. *)
  Definition rational_curve (level : Z) (c : config) (n_peri n_apo : nat) (x y : list Q) : act curve :=
    d <~ aread s_degrees ;;
    x0 <~ alift (get x 0) ;; xn <~ alift (last_of x) ;;
    t1 <~ alift (get (c_t c) 1) ;; t0 <~ alift (get (c_t c) 0) ;;
    x_test <~ alift (arange x0 xn (t1 - t0)) ;;
    r <~ alog (adaptive_search
                 (fun d => get_rational_fit rfit x y d)
                 (fun f => do v <- eval_curve f x_test; first_derivative_not_monotonic x_test v 1)
                 (spline_curve x y None)
                 (Z.of_nat (length x)) level d n_peri n_apo) ;;
    _ <~ amod (set_degrees (sr_degrees r)) ;;
    aret (sr_fit r).

  (** eccDefinition.py 1720-1783, get_omega_gw_extrema_interpolant. *)
  Definition default_tol : Q := 1 # 100000.
  Definition extrema_curve (level : Z) (c : config) (n_peri n_apo : nat) (t_checks : list Q) (loc : list nat)
    : act curve :=
    if length loc <? 2 then alift (Err GenericException)
    else
      x <~ alift (gather (c_t c) loc) ;; y <~ alift (gather (c_omega c) loc) ;;
      f <~ match c_interp c with
           | RationalMethod => rational_curve level c n_peri n_apo x y
           | SplineMethod => alift (spline_curve x y (Some (c_special c)))
           end ;;
      v <~ alift (eval_curve f t_checks) ;;
      b <~ alift (first_derivative_not_monotonic t_checks v default_tol) ;;
      _ <~ (if (b : bool) then alog (dbg "nonmonotonic derivative of the interpolant" level true) else aret tt) ;;
      aret f.

  (** eccDefinition.py 2946-2985, get_t_average_for_orbit_averaged_omega_gw, paired with the averages of
      2987-3014: apocenters first, then sorted by time. *)
  Definition orbit_averages (c : config) (loc : list nat) : res (list Q) :=
    do ph <- gather (c_phase c) loc; do t <- gather (c_t c) loc; qdivs (qdiff ph) (qdiff t).
  Definition average_times (c : config) (loc : list nat) : res (list Q) :=
    do t <- gather (c_t c) loc; Ok (midpoints t).

  (** eccDefinition.py 3016-3076, compute_orbit_averaged_omega_gw_between_extrema. *)
  Definition orbit_averaged (c : config) (p a : list nat) (ts : list Q) : res (list Q) :=
    do wp <- orbit_averages c p; do wa <- orbit_averages c a;
    do _ <- check_monotonicity wp; do _ <- check_monotonicity wa;
    do tp <- average_times c p; do ta <- average_times c a;
    let pairs := sort_pairs (combine (ta ++ tp) (wa ++ wp)) in
    do _ <- check_monotonicity (map snd pairs);
    interpolate spline_val pchip_val ts (map fst pairs) (map snd pairs) false "spline" (Some (c_general c)).

  (** eccDefinition.py 3183-3190 *)
  Definition averaging_methods : list string :=
    ["mean_of_extrema_interpolants"; "orbit_averaged_omega_gw"; "omega_gw_zeroecc"]%string.
  Definition run_averaging (c : config) (method : string) (ts : list Q) : act (list Q) :=
    if String.eqb method "mean_of_extrema_interpolants" then
      cs <~ aread s_curves ;; fp <~ alift (attr (fst cs)) ;; fa <~ alift (attr (snd cs)) ;;
      vp <~ alift (eval_curve fp ts) ;; va <~ alift (eval_curve fa ts) ;;
      aret (map2 (fun x y => ((1 # 2) * (x + y))%Q) vp va)
    else if String.eqb method "orbit_averaged_omega_gw" then
      p <~ aread s_peri ;; p <~ alift (attr p) ;; a <~ aread s_apo ;; a <~ alift (attr a) ;;
      alift (orbit_averaged c p a ts)
    else if String.eqb method "omega_gw_zeroecc" then
      z <~ alift (attr (c_zeroecc c)) ;;
      alift (interpolate spline_val pchip_val ts (fst z) (snd z) false "spline" (Some (c_general c)))
    else alift (Err KeyError).
  (** eccDefinition.py 3192-3267, get_omega_gw_average. *)
  Definition get_omega_gw_average (c : config) (method : option string) : act (list Q * list Q) :=
    let m := match method with None => c_average c | Some m => m end in
    w <~ (if negb (String.eqb m "orbit_averaged_omega_gw") then
            w <~ aread s_window ;; alift (attr w)
          else
            p <~ aread s_peri ;; p <~ alift (attr p) ;; a <~ aread s_apo ;; a <~ alift (attr a) ;;
            tp <~ alift (average_times c p) ;; ta <~ alift (average_times c a) ;;
            w <~ aread s_window ;; w <~ alift (attr w) ;;
            lo <~ alift (qmin (ta ++ tp)) ;; hi <~ alift (qmax (ta ++ tp)) ;;
            aret (Qmaxb (fst w) lo, Qminb (snd w) hi)) ;;
    let ts := filter (fun t => Qle_bool (fst w) t && Qle_bool t (snd w)) (c_t c) in
    v <~ run_averaging c m ts ;;
    aret (ts, v).

  (** eccDefinition.py 3349-3387, get_fref_bounds. *)
  Definition get_fref_bounds (level : Z) (c : config) (method : option string) : act (Q * Q) :=
    _ <~ (if c_use_only c then alog (dbg "fref bounds only for the short segment" level false) else aret tt) ;;
    a <~ aread s_average ;;
    v <~ (match a with
          | Some tv => aret (snd tv)
          | None => tv <~ get_omega_gw_average c method ;; _ <~ amod (set_average (Some tv)) ;; aret (snd tv)
          end) ;;
    lo <~ alift (qmin v) ;; hi <~ alift (qmax v) ;;
    aret (lo / 2 / np_pi, hi / 2 / np_pi)%Q.

  (** eccDefinition.py 3389-3417, get_fref_out. *)
  Definition get_fref_out (level : Z) (c : config) (fref_in : list Q) (method : string) : act (list Q) :=
    b <~ get_fref_bounds level c (Some method) ;;
    let fo := filter (fun f => Qle_bool (fst b) f && Qlt_bool f (snd b)) fref_in in
    match fo with
    | [] => _ <~ alift (check_input_limits fref_in (fst b) (snd b)) ;; alift (Err GenericException)
    | _ => aret fo
    end.

  (** eccDefinition.py 3269-3347, compute_tref_in_and_fref_out_from_fref_in. *)
  Definition tref_fref_from_fref (level : Z) (c : config) (fref_in : list Q) : act (list Q * list Q) :=
    let m := c_average c in
    if existsb (String.eqb m) averaging_methods then
      fo <~ get_fref_out level c fref_in m ;;
      tv <~ get_omega_gw_average c (Some m) ;;
      _ <~ amod (set_average (Some tv)) ;;
      _ <~ alift (check_monotonicity (snd tv)) ;;
      tr <~ alift (interpolate spline_val pchip_val fo (map (fun w => w / (2 * np_pi))%Q (snd tv)) (fst tv)
                     false "spline" (Some (c_general c))) ;;
      _ <~ (if existsb (fun d => Qle_bool d 0) (qdiff tr)
            then alog (dbg "tref_in is not increasing" level false) else aret tt) ;;
      aret (tr, fo)
    else alift (Err KeyError).

  (** eccDefinition.py 2558-2585, compute_eccentricity. *)
  Definition compute_eccentricity (fp fa : curve) (lo hi : Q) (ts : list Q) : res (list V) :=
    do _ <- check_input_limits ts lo hi;
    do vp <- eval_curve fp ts; do va <- eval_curve fa ts;
    Ok (map2 ecc_of vp va).
  (** eccDefinition.py 2616-2651, compute_mean_anomaly. *)
  Definition compute_mean_anomaly (t_peri : list Q) (lo hi : Q) (ts : list Q) : res (list Q) :=
    do _ <- check_input_limits ts lo hi; Ok (map (mean_anomaly_at t_peri) ts).

  (** eccDefinition.py 2772-2808 with 2587-2614: the eccentricity at t_for_checks, its spline and the
      sign of the slope, computed once per object. *)
  Definition check_ecc_monotone (level : Z) (c : config) (fp fa : curve) (lo hi : Q) (t_checks : list Q) : act unit :=
    d <~ aread s_decc ;;
    d <~ (match d with
          | Some d => aret d
          | None =>
              _ <~ alift (check_input_limits t_checks lo hi) ;;
              e <~ alift (compute_eccentricity fp fa lo hi t_checks) ;;
              _ <~ alift (fst (get_interpolant t_checks (map (fun _ => 0%Q) e) false "spline" (Some (c_general c)))) ;;
              let d := slope_positive t_checks e in
              _ <~ amod (set_decc (Some d)) ;; aret d
          end) ;;
    if existsb (fun b => b) d then alog (dbg "egw(t) is nonmonotonic" level true) else aret tt.

  (** eccDefinition.py 2495-2538, make_return_dict_for_eccentricity_and_mean_anomaly. *)
  Definition make_result (c : config) (ecc : list V) (mean ref : list Q) : res result :=
    let pack (e : out V) (m r : out Q) :=
      match c_ref c with
      | TimeRef _ => {| r_eccentricity := e; r_mean_anomaly := m; r_tref_out := Some r; r_fref_out := None |}
      | FreqRef _ => {| r_eccentricity := e; r_mean_anomaly := m; r_tref_out := None; r_fref_out := Some r |}
      end in
    if c_scalar c then
      if negb (length ecc =? 1) then Err GenericException
      else if negb (length mean =? 1) then Err GenericException
      else do e <- get ecc 0; do m <- get mean 0; do r <- get ref 0; Ok (pack (Scalar e) (Scalar m) (Scalar r))
    else Ok (pack (Arr ecc) (Arr mean) (Arr ref)).

  (** eccDefinition.py 2479-2493, set_eccentricity_and_mean_anomaly_to_zero. *)
  Definition zero_result (c : config) : res result :=
    let ref := match c_ref c with TimeRef l => l | FreqRef l => l end in
    make_result c (map (fun _ => vzero) ref) (map (fun _ => 0%Q) ref) ref.

  (** eccDefinition.py 2391-2477: the part of measure_ecc after the extrema were chosen. *)
  Definition measure_from_extrema (level : Z) (c : config) (p a : list nat) : act result :=
    t_peri <~ alift (gather (c_t c) p) ;; t_apo <~ alift (gather (c_t c) a) ;;
    pl <~ alift (last_of t_peri) ;; al <~ alift (last_of t_apo) ;;
    let tmax := Qminb pl al in
    pf <~ alift (get t_peri 0) ;; af <~ alift (get t_apo 0) ;;
    let tmin := Qmaxb pf af in
    _ <~ amod (set_window (tmin, tmax)) ;;
    let inside := fun t => Qle_bool tmin t && Qle_bool t tmax in
    let t_checks := filter inside (c_data_t c) in
    fp <~ extrema_curve level c (length p) (length a) t_checks p ;;
    cs <~ aread s_curves ;; _ <~ amod (set_curves (Some fp, snd cs)) ;;
    fa <~ extrema_curve level c (length p) (length a) t_checks a ;;
    _ <~ amod (set_curves (Some fp, Some fa)) ;;
    tf <~ match c_ref c with
          | TimeRef tr => aret (tr, [])
          | FreqRef fr => tref_fref_from_fref level c fr
          end ;;
    let tref_out := filter inside (fst tf) in
    _ <~ (match c_ref c with
          | TimeRef _ => aret tt
          | FreqRef _ => if negb (length (snd tf) =? length tref_out) then alift (Err GenericException) else aret tt
          end) ;;
    _ <~ (match tref_out with
          | [] => _ <~ alift (check_input_limits (fst tf) tmin tmax) ;; alift (Err GenericException)
          | _ => aret tt end) ;;
    r0 <~ alift (get tref_out 0) ;; rn <~ alift (last_of tref_out) ;;
    _ <~ (if Qlt_bool r0 pf || Qlt_bool pl rn then alift (Err GenericException) else aret tt) ;;
    ecc <~ alift (compute_eccentricity fp fa tmin tmax tref_out) ;;
    mean <~ alift (compute_mean_anomaly t_peri tmin tmax tref_out) ;;
    _ <~ check_ecc_monotone level c fp fa tmin tmax t_checks ;;
    _ <~ (if existsb vneg ecc then alog (dbg "negative eccentricity" level true) else aret tt) ;;
    alift (make_result c ecc mean (match c_ref c with TimeRef _ => tref_out | FreqRef _ => snd tf end)).

  (** eccDefinition.py 2321-2389 and the rest of measure_ecc.  The check at 2438-2448 needs the key
      "hlm_zeroecc", which process_data_dict never puts into self.dataDict: it is dead code. *)
  Definition measure_ecc (level : Z) (c : config) : act result :=
    peri <~ alift (find_extrema true) ;;
    few_p <~ alog (check_num_extrema c (length peri)) ;;
    apo <~ (if c_midpoints c then aret (get_apocenters_from_pericenters peri) else alift (find_extrema false)) ;;
    few_a <~ alog (check_num_extrema c (length apo)) ;;
    if (few_p || few_a) && c_return_zero c then
      _ <~ amod (set_zero true) ;; alift (zero_result c)
    else
      _ <~ amod (set_zero false) ;;
      'good <~ alog (get_good_extrema level (c_phase c) peri apo) ;;
      _ <~ amod (set_locations (fst good) (snd good)) ;;
      _ <~ alog (check_dropped level (length peri) (length (fst good))) ;;
      _ <~ alog (check_dropped level (length apo) (length (snd good))) ;;
      let pa := if c_precessing c && c_filtered c then (tl (fst good), tl (snd good)) else good in
      _ <~ amod (set_locations (fst pa) (snd pa)) ;;
      _ <~ alog (check_alternate level (c_t c) (fst pa) (snd pa)) ;;
      _ <~ alog (check_separation level (c_t c) (c_phase c) (fst pa)) ;;
      _ <~ alog (check_separation level (c_t c) (c_phase c) (snd pa)) ;;
      measure_from_extrema level c (fst pa) (snd pa).

  (** A history of calls on one object. *)
  Inductive op :=
  | Measure                          (* measure_ecc() *)
  | FrefBounds (method : option string)  (* get_fref_bounds(method) *)
  | Forget.                          (* obj.omega_gw_average = None *)
  Inductive reply := RMeasure (r : res result) | RBounds (r : res (Q * Q)) | RNone.
  Definition run_op (level : Z) (c : config) (o : op) (s : state) : reply * state :=
    match o with
    | Measure => let '(_, (s', r)) := measure_ecc level c s in (RMeasure r, s')
    | FrefBounds m => let '(_, (s', r)) := get_fref_bounds level c m s in (RBounds r, s')
    | Forget => (RNone, set_average None s)
    end.
  Fixpoint run_ops (level : Z) (c : config) (os : list op) (s : state) : list reply * state :=
    match os with
    | [] => ([], s)
    | o :: r => let '(y, s1) := run_op level c o s in
                let '(ys, s2) := run_ops level c r s1 in (y :: ys, s2)
    end.
End Measure.
Arguments result : clear implicits.
Arguments reply : clear implicits.
