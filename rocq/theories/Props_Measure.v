(** Property theorems about a whole measurement: debug levels (C05), reported times and frequencies
    (C16-C19, C26, C27), zero fallback (C20), mean anomaly (C24, C25), orbit averages (C28), stored bounds
    (C29) and repeated measurements (C32).

    In every theorem: [ecc_of] is the eccentricity formula, [find] the extrema finder of the method, [sv]
    and [pv] the two scipy interpolants, [rfit] the rational fitter, [slope] the sign of the slope of the
    eccentricity; all are arbitrary.  [snd (measure level c s) = (s', Ok r)] says that measure_ecc(), called on
    an object with options c and attributes s, returns r and leaves the attributes s'.  [s_zero s'] tells
    whether the small-eccentricity fallback was used. *)
From Coq Require Import Permutation.
From Verif Require Import Base BaseLemmas UtilsModel UtilsSpec ExtremaModel ExtremaSpec RationalModel MeasureModel
  MeasureSpec LevelLemmas AverageLemmas MeasureLemmas MeasureResults MeasureBounds Toy.
Open Scope nat_scope.


(** C05.  Any history of calls on one object gives the same results and the same object at the levels -1, 0
    and 1. *)
Theorem C05_levels_agree : forall V (ecc_of : Q -> Q -> V) vzero vneg find sv pv rfit slope level c,
  quiet level -> forall os s, run_ops ecc_of vzero vneg find sv pv rfit slope level c os s = run_ops ecc_of vzero vneg find sv pv rfit slope 0%Z c os s.
Proof. exact @levels_history. Qed.
Print Assumptions C05_levels_agree.
(** C05.  At any level, in particular 2: as long as nothing is raised the results are those of level 0. *)
Theorem C05_or_raises : forall V (ecc_of : Q -> Q -> V) vzero vneg find sv pv rfit slope level c os s,
  (forall y, In y (fst (run_ops ecc_of vzero vneg find sv pv rfit slope level c os s)) ->
     match y with RMeasure (Err _) => False | RBounds (Err _) => False | _ => True end) ->
  run_ops ecc_of vzero vneg find sv pv rfit slope 0%Z c os s = run_ops ecc_of vzero vneg find sv pv rfit slope level c os s.
Proof. exact @levels_history_ok. Qed.
Print Assumptions C05_or_raises.
(** At level 2 the nonmonotonic eccentricity of this case raises, at level 1 it only warns. *)
Example C05_ex :
  let c := toy (TimeRef [3%Q]) true "orbit_averaged_omega_gw" false in
  fst (toy_rising 1%Z c (fresh None)) = ["egw(t) is nonmonotonic"%string] /\
  view (snd (snd (toy_rising 1%Z c (fresh None)))) = view (snd (snd (toy_rising (-1)%Z c (fresh None)))) /\
  is_ok (snd (snd (toy_rising 0%Z c (fresh None)))) = true /\
  snd (snd (toy_rising 2%Z c (fresh None))) = Err GenericException.
Proof. repeat split; vm_compute; reflexivity. Qed.

(** C16.  tref_out holds exactly the entries of tref_in between the later first and the earlier last
    extremum, in order and with multiplicity, at least one, and there is one eccentricity and one mean
    anomaly for each. *)
Theorem C16_tref_out : forall V (ecc_of : Q -> Q -> V) vzero vneg find sv pv rfit slope level c tr s s' r,
  c_ref c = TimeRef tr -> snd (measure_ecc ecc_of vzero vneg find sv pv rfit slope level c s) = (s', Ok r) -> s_zero s' = Some false ->
  exists p a tp ta lo hi o,
    s_peri s' = Some p /\ s_apo s' = Some a /\ samples_at (c_t c) p tp /\ samples_at (c_t c) a ta /\
    common_window tp ta lo hi /\ s_window s' = Some (lo, hi) /\
    r_tref_out r = Some o /\ keeps_exactly (within lo hi) tr (entries o) /\ entries o <> [] /\
    length (entries (r_eccentricity r)) = length (entries o) /\
    length (entries (r_mean_anomaly r)) = length (entries o).
Proof. exact @time_result. Qed.
Print Assumptions C16_tref_out.
Example C16_ex : toy_view 0%Z (toy (TimeRef [1 # 2; 7 # 2; 3; 11; 23 # 2; 3]%Q) false "orbit_averaged_omega_gw" false) =
  (Ok ([10 # 57; 5 # 28; 5 # 36; 5 # 28]%Q,
       [2652839157010665 # 562949953421312; 884279719003555 # 281474976710656;
        884279719003555 # 281474976710656; 884279719003555 # 281474976710656]%Q,
       Some [7 # 2; 3; 11; 3]%Q, None), Some false).
Proof. vm_compute. reflexivity. Qed.

(** C17.  Scalars for a scalar reference input, arrays otherwise; tref_out for times and fref_out for
    frequencies, never both; all three of the same length.  The fallback is included. *)
Theorem C17_shape : forall V (ecc_of : Q -> Q -> V) vzero vneg find sv pv rfit slope level c s s' r,
  snd (measure_ecc ecc_of vzero vneg find sv pv rfit slope level c s) = (s', Ok r) ->
  is_scalar (r_eccentricity r) = c_scalar c /\ is_scalar (r_mean_anomaly r) = c_scalar c /\
  length (entries (r_eccentricity r)) = length (entries (r_mean_anomaly r)) /\
  match c_ref c with
  | TimeRef _ => exists o, r_tref_out r = Some o /\ r_fref_out r = None /\ is_scalar o = c_scalar c /\
                   length (entries o) = length (entries (r_eccentricity r))
  | FreqRef _ => exists o, r_fref_out r = Some o /\ r_tref_out r = None /\ is_scalar o = c_scalar c /\
                   length (entries o) = length (entries (r_eccentricity r))
  end.
Proof. exact @result_shape. Qed.
Print Assumptions C17_shape.
Example C17_ex : snd (snd (toy_measure 0%Z (toy (TimeRef [3%Q]) true "orbit_averaged_omega_gw" false) (fresh None))) =
    Ok {| r_eccentricity := Scalar (5 # 28)%Q; r_mean_anomaly := Scalar (mean_anomaly_at (filter (fun x => Z.even (Qnum x)) toy_t) 3);
          r_tref_out := Some (Scalar 3%Q); r_fref_out := None |} /\
  toy_view 0%Z (toy (FreqRef [1#10; 1#2; 6#10]%Q) false "mean_of_extrema_interpolants" false) =
    (Ok ([140737488355328 # 884279719003555]%Q, [51762600865449278328522267885 # 39614081257132168796771975168]%Q,
         None, Some [1 # 2]%Q), Some false).
Proof. split; vm_compute; reflexivity. Qed.

(** C18.  Every reported eccentricity is the formula applied to the values at one time of two curves drawn
    through the samples at the pericenters and at the apocenters, and that time lies between the first and
    the last pericenter and between the first and the last apocenter. *)
Theorem C18_no_extrapolation : forall V (ecc_of : Q -> Q -> V) vzero vneg find sv pv rfit slope level c s s' r,
  snd (measure_ecc ecc_of vzero vneg find sv pv rfit slope level c s) = (s', Ok r) -> s_zero s' = Some false ->
  exists p a tp ta fp fa ts, s_peri s' = Some p /\ s_apo s' = Some a /\
    samples_at (c_t c) p tp /\ samples_at (c_t c) a ta /\
    drawn_through sv rfit c p fp /\ drawn_through sv rfit c a fa /\
    (forall t, In t ts -> exists pf pl af al, first_is tp pf /\ last_is tp pl /\ first_is ta af /\ last_is ta al /\
        (pf <= t <= pl)%Q /\ (af <= t <= al)%Q) /\
    Forall2 (fun t e => exists wp wa, fp t = Ok wp /\ fa t = Ok wa /\ e = ecc_of wp wa) ts (entries (r_eccentricity r)) /\
    (forall tr, c_ref c = TimeRef tr -> exists o, r_tref_out r = Some o /\ ts = entries o).
Proof. exact @no_extrapolation. Qed.
Print Assumptions C18_no_extrapolation.
(** The same case as C16_ex: 1/2 and 23/2, outside the apocenters, give no eccentricity. *)
Example C18_ex : fst (toy_view 0%Z (toy (TimeRef [1 # 2; 23 # 2]%Q) false "orbit_averaged_omega_gw" false)) = Err GenericException
  /\ is_ok (fst (toy_view 0%Z (toy (TimeRef [1 # 2; 11]%Q) false "orbit_averaged_omega_gw" false))) = true.
Proof. split; vm_compute; reflexivity. Qed.

(** C19.  If a measurement with some reference times succeeds, then one of the same waveform with no reference
    time in the measurable window [tmin, tmax] raises Exception. *)
Theorem C19_out_of_range : forall V (ecc_of : Q -> Q -> V) vzero vneg find sv pv rfit slope level c tr tr' s s' r lo hi,
  snd (measure_ecc ecc_of vzero vneg find sv pv rfit slope level (with_ref c (TimeRef tr')) s) = (s', Ok r) ->
  s_zero s' = Some false -> s_window s' = Some (lo, hi) ->
  (forall t, In t tr -> ~ within lo hi t) ->
  snd (snd (measure_ecc ecc_of vzero vneg find sv pv rfit slope level (with_ref c (TimeRef tr)) s)) = Err GenericException.
Proof. exact @no_reference. Qed.
Print Assumptions C19_out_of_range.
(** below, above and empty *)
Example C19_ex : map (fun tr => fst (toy_view 0%Z (toy (TimeRef tr) false "orbit_averaged_omega_gw" false)))
    [[-3; 99 # 100]; [1101 # 100]; [0; 12]; []]%Q =
  [Err GenericException; Err GenericException; Err GenericException; Err GenericException] /\
  s_window (fst (snd (toy_measure 0%Z (toy (TimeRef [3%Q]) false "orbit_averaged_omega_gw" false) (fresh None)))) = Some (1, 11)%Q.
Proof. split; vm_compute; reflexivity. Qed.

(** C20.  The fallback was used only with the flag, fewer than two extrema of one kind and more than five
    orbits; then it reports zero at every requested point. *)
Theorem C20_only_when_asked : forall V (ecc_of : Q -> Q -> V) vzero vneg find sv pv rfit slope level c s s' r,
  snd (measure_ecc ecc_of vzero vneg find sv pv rfit slope level c s) = (s', Ok r) -> s_zero s' = Some true ->
  c_return_zero c = true /\ long_waveform c /\
  (exists p a, find true = Ok p /\
     (if c_midpoints c then a = get_apocenters_from_pericenters p else find false = Ok a) /\ (length p < 2 \/ length a < 2)) /\
  entries (r_eccentricity r) = map (fun _ => vzero) (requested c) /\
  entries (r_mean_anomaly r) = map (fun _ => 0%Q) (requested c) /\
  match c_ref c with
  | TimeRef tr => exists o, r_tref_out r = Some o /\ entries o = tr
  | FreqRef fr => exists o, r_fref_out r = Some o /\ entries o = fr
  end.
Proof. exact @zero_fallback. Qed.
Print Assumptions C20_only_when_asked.
(** C20.  With fewer than two extrema of one kind: without the flag, or for a short waveform, Exception; with
    the flag and a long waveform the measurement returns through the fallback. *)
Theorem C20_few_extrema : forall V (ecc_of : Q -> Q -> V) vzero vneg find sv pv rfit slope level c s p a,
  find true = Ok p -> (if c_midpoints c then a = get_apocenters_from_pericenters p else find false = Ok a) ->
  (length p < 2 \/ length a < 2) -> c_phase c <> [] ->
  (~ (c_return_zero c = true /\ long_waveform c) ->
     snd (snd (measure_ecc ecc_of vzero vneg find sv pv rfit slope level c s)) = Err GenericException) /\
  (c_return_zero c = true -> long_waveform c -> (c_scalar c = true -> length (requested c) = 1) ->
     exists r, snd (measure_ecc ecc_of vzero vneg find sv pv rfit slope level c s) = (set_zero true s, Ok r)).
Proof. exact @few_extrema. Qed.
Print Assumptions C20_few_extrema.
Example C20_ex : view (snd (snd (toy_few (toy (TimeRef [3; 50]%Q) false "orbit_averaged_omega_gw" true) (fresh None)))) =
    Ok ([0; 0]%Q, [0; 0]%Q, Some [3; 50]%Q, None) /\
  view (snd (snd (toy_few (toy (TimeRef [3; 50]%Q) false "orbit_averaged_omega_gw" false) (fresh None)))) = Err GenericException.
Proof. split; vm_compute; reflexivity. Qed.

(** C24.  Every reported mean anomaly is 2 pi times the fraction of the way from one pericenter to the next, and
    0 at the last pericenter. *)
Theorem C24_reported : forall V (ecc_of : Q -> Q -> V) vzero vneg find sv pv rfit slope level c s s' r,
  snd (measure_ecc ecc_of vzero vneg find sv pv rfit slope level c s) = (s', Ok r) -> s_zero s' = Some false ->
  exists p tp ts, s_peri s' = Some p /\ samples_at (c_t c) p tp /\
    (increasing tp -> Forall2 (mean_anomaly_is tp) ts (entries (r_mean_anomaly r))) /\
    (forall tr, c_ref c = TimeRef tr -> exists o, r_tref_out r = Some o /\ ts = entries o).
Proof. exact @mean_result. Qed.
Print Assumptions C24_reported.
(** C24.  It is in [0, 2 pi) and 0 exactly at pericenters. *)
Theorem C24_range_and_zeros : forall tp t m, increasing tp -> mean_anomaly_is tp t m ->
  (0 <= m < 2 * np_pi)%Q /\ ((m == 0)%Q <-> exists a, In a tp /\ (t == a)%Q).
Proof. exact mean_range. Qed.
Print Assumptions C24_range_and_zeros.
(** C24.  It grows strictly between consecutive pericenters. *)
Theorem C24_grows : forall tp i a b t1 t2 m1 m2, increasing tp -> nth_error tp i = Some a -> nth_error tp (S i) = Some b ->
  (a <= t1)%Q -> (t1 < t2)%Q -> (t2 < b)%Q ->
  mean_anomaly_is tp t1 m1 -> mean_anomaly_is tp t2 m2 -> (m1 < m2)%Q.
Proof. exact mean_grows. Qed.
Print Assumptions C24_grows.
Example C24_ex : mean_anomaly_is [0; 2; 5]%Q 3 (2 * np_pi * (1 # 3)) /\ mean_anomaly_is [0; 2; 5]%Q 5 0 /\
  (mean_anomaly_at [0; 2; 5]%Q 3 == 2 * np_pi * (1 # 3))%Q /\ (mean_anomaly_at [0; 2; 5]%Q 5 == 0)%Q.
Proof.
  split; [left; exists 1, 2%Q, 5%Q; repeat split; vm_compute; congruence|].
  split; [right; exists 5%Q; split; [now exists [0; 2]%Q|]; split; vm_compute; congruence|].
  split; vm_compute; reflexivity.
Qed.

(** C25.  Changing the unit of time and the origin of time leaves all mean anomalies unchanged. *)
Theorem C25_affine : forall tp lo hi ts v a b first last, (0 < a)%Q -> increasing tp -> first_is tp first -> last_is tp last ->
  (first <= lo)%Q -> (hi <= last)%Q ->
  compute_mean_anomaly tp lo hi ts = Ok v ->
  exists v', compute_mean_anomaly (map (fun t => a * t + b)%Q tp) (a * lo + b) (a * hi + b) (map (fun t => a * t + b)%Q ts) = Ok v' /\
    Forall2 Qeq v v'.
Proof. exact mean_all_affine. Qed.
Print Assumptions C25_affine.
Example C25_ex : Forall2 Qeq
    (match compute_mean_anomaly [0; 2; 5]%Q 1 5 [1; 3; 5]%Q with Ok v => v | _ => [] end)
    (match compute_mean_anomaly [-7; -1; 8]%Q (-4) 8 [-4; 2; 8]%Q with Ok v => v | _ => [0%Q] end).
Proof. vm_compute. repeat constructor. Qed.

(** C26.  fref_out holds exactly the entries of fref_in with fref_min <= f < fref_max, at least one.  The bounds are
    the smallest and largest averaged frequency over 2 pi, of the average stored in the object before the call if
    there was one and otherwise of the one this call stores. *)
Theorem C26_fref_out : forall V (ecc_of : Q -> Q -> V) vzero vneg find sv pv rfit slope level c fr s s' r,
  c_ref c = FreqRef fr -> snd (measure_ecc ecc_of vzero vneg find sv pv rfit slope level c s) = (s', Ok r) -> s_zero s' = Some false ->
  exists used new lo hi o,
    s_average s' = Some new /\ (s_average s = Some used \/ s_average s = None /\ used = new) /\
    bounds_of (snd used) lo hi /\ r_fref_out r = Some o /\ keeps_exactly (in_range lo hi) fr (entries o) /\
    entries o <> [] /\ length (entries (r_eccentricity r)) = length (entries o).
Proof. exact @freq_result. Qed.
Print Assumptions C26_fref_out.
(** C26.  The documentation promises fref_out up to and including fref_max; asking for exactly fref_max raises. *)
Theorem C26_upper_bound_refuted : exists c lo hi,
  snd (run (get_fref_bounds lin lin3 0%Z c None) (fst (snd (toy_measure 0%Z c (fresh None))))) = Ok (lo, hi) /\
  snd (snd (toy_measure 0%Z (with_ref c (FreqRef [hi])) (fresh None))) = Err GenericException /\
  is_ok (snd (snd (toy_measure 0%Z (with_ref c (FreqRef [lo])) (fresh None)))) = true.
Proof.
  exists (toy (FreqRef [1 # 2]%Q) true "mean_of_extrema_interpolants" false). do 2 eexists.
  split; [vm_compute; reflexivity|]. split; vm_compute; reflexivity.
Qed.
Print Assumptions C26_upper_bound_refuted.
(** C26.  The eccentricity reported for a frequency f is the formula at the time where the inverted average takes the value
    f: the spline of some degree through the points (averaged frequency over 2 pi, time), evaluated at f. *)
Theorem C26_times : forall V (ecc_of : Q -> Q -> V) vzero vneg find sv pv rfit slope level c fr s s' r,
  c_ref c = FreqRef fr -> snd (measure_ecc ecc_of vzero vneg find sv pv rfit slope level c s) = (s', Ok r) -> s_zero s' = Some false ->
  exists ts ws k o fp fa, s_average s' = Some (ts, ws) /\ s_curves s' = (Some fp, Some fa) /\ r_fref_out r = Some o /\
    Forall2 (fun f e => exists wp wa, let t := sv (map (fun w => w / (2 * np_pi))%Q ws) ts k f in
               fp t = Ok wp /\ fa t = Ok wa /\ e = ecc_of wp wa) (entries o) (entries (r_eccentricity r)).
Proof. exact @freq_times. Qed.
Print Assumptions C26_times.
Example C26_ex : match toy_view 0%Z (toy (FreqRef [1; 103 # 100; 102 # 100; 2]%Q) false "orbit_averaged_omega_gw" false) with
  | (Ok (e, _, _, f), z) => f = Some [103 # 100; 51 # 50]%Q /\ length e = 2 /\ z = Some false
  | _ => False
  end.
Proof. vm_compute. repeat split. Qed.

(** C27.  The average that a frequency-domain measurement inverts is strictly increasing; for orbit averages so are
    the averages between pericenters, those between apocenters, and both together sorted by time. *)
Theorem C27_increasing : forall V (ecc_of : Q -> Q -> V) vzero vneg find sv pv rfit slope level c fr s s' r,
  c_ref c = FreqRef fr -> snd (measure_ecc ecc_of vzero vneg find sv pv rfit slope level c s) = (s', Ok r) -> s_zero s' = Some false ->
  exists ts ws, s_average s' = Some (ts, ws) /\ increasing ws /\ length ts = length ws /\
    (c_average c = "orbit_averaged_omega_gw"%string -> exists p a, s_peri s' = Some p /\ s_apo s' = Some a /\
       exists wp wa mp ma m, orbit_averages c p = Ok wp /\ orbit_averages c a = Ok wa /\
         average_times c p = Ok mp /\ average_times c a = Ok ma /\ increasing wp /\ increasing wa /\
         Permutation m (combine (ma ++ mp) (wa ++ wp)) /\ StronglySorted (fun x y => (fst x <= fst y)%Q) m /\ increasing (map snd m)).
Proof. exact @freq_increasing. Qed.
Print Assumptions C27_increasing.
(** C27.  The check accepts exactly the strictly increasing sequences. *)
Theorem C27_check : forall w, check_monotonicity w = Ok tt <-> increasing w.
Proof. exact check_monotonicity_ok. Qed.
Print Assumptions C27_check.
Example C27_ex : check_monotonicity [1; 2; 3]%Q = Ok tt /\ check_monotonicity [1; 2; 2]%Q = Err GenericException.
Proof. split; reflexivity. Qed.

(** C28.  The i-th orbit average is the phase advance over the elapsed time between the i-th and the next extremum. *)
Theorem C28_value : forall c loc w, orbit_averages c loc = Ok w ->
  length w = length loc - 1 /\
  forall i p q, nth_error loc i = Some p -> nth_error loc (S i) = Some q ->
    exists fp fq tp tq x, nth_error (c_phase c) p = Some fp /\ nth_error (c_phase c) q = Some fq /\
      nth_error (c_t c) p = Some tp /\ nth_error (c_t c) q = Some tq /\ ~ (tq - tp == 0)%Q /\
      nth_error w i = Some x /\ x = ((fq - fp) / (tq - tp))%Q.
Proof. exact orbit_averages_inv. Qed.
Print Assumptions C28_value.
(** C28.  Such a quotient is between the smallest and the largest frequency in between: if every single step from
    sample k to k+1 advances the phase at a rate between m and M, so does the whole stretch. *)
Theorem C28_between : forall (ph t : list Q) (m M : Q) p q fp fq tp tq, p <= q -> (tp < tq)%Q ->
  nth_error ph p = Some fp -> nth_error ph q = Some fq -> nth_error t p = Some tp -> nth_error t q = Some tq ->
  (forall k a b u v, p <= k < q -> nth_error ph k = Some a -> nth_error ph (S k) = Some b ->
     nth_error t k = Some u -> nth_error t (S k) = Some v -> (m * (v - u) <= b - a <= M * (v - u))%Q) ->
  (m <= (fq - fp) / (tq - tp) <= M)%Q.
Proof. exact average_bounded. Qed.
Print Assumptions C28_between.
(** C28.  The times are the midpoints. *)
Theorem C28_midpoints : forall l i a b, nth_error l i = Some a -> nth_error l (S i) = Some b ->
  nth_error (midpoints l) i = Some ((1 # 2) * (a + b))%Q /\ length (midpoints l) = length l - 1.
Proof. intros l i a b A B. exact (conj (midpoints_nth l i a b A B) (midpoints_length l)). Qed.
Print Assumptions C28_midpoints.
(** C28.  The merged list is sorted by time and is a rearrangement of all the (midpoint, average) pairs. *)
Theorem C28_merge : forall l, Permutation (sort_pairs l) l /\ StronglySorted (fun x y => (fst x <= fst y)%Q) (sort_pairs l).
Proof. intros l. exact (conj (sort_pairs_perm l) (sort_pairs_sorted l)). Qed.
Print Assumptions C28_merge.
Example C28_ex : sort_pairs [(3, 30); (5, 50); (2, 20); (4, 40)]%Q = [(2, 20); (3, 30); (4, 40); (5, 50)]%Q /\
  match orbit_averages (toy (TimeRef []) false "" false) [0; 2; 6] with
  | Ok w => Forall2 Qeq w [2 * np_pi + (4 # 100); 2 * np_pi + (16 # 100)]%Q | Err _ => False end.
Proof. split; vm_compute; [reflexivity|repeat constructor]. Qed.

(** C29.  For an object with reference times: whatever the history of measurements and get_fref_bounds calls with any
    methods, two calls of get_fref_bounds that return give the same pair.  (Setting omega_gw_average to None
    is the only way to make it forget.) *)
Theorem C29_bounds_stay : forall V (ecc_of : Q -> Q -> V) vzero vneg find sv pv rfit slope level c tr os s b1 b2,
  c_ref c = TimeRef tr -> ~ In Forget os ->
  In (RBounds (Ok b1)) (fst (run_ops ecc_of vzero vneg find sv pv rfit slope level c os s)) ->
  In (RBounds (Ok b2)) (fst (run_ops ecc_of vzero vneg find sv pv rfit slope level c os s)) -> b1 = b2.
Proof. exact @same_bounds. Qed.
Print Assumptions C29_bounds_stay.
(** C29.  For an object with reference frequencies: after any get_fref_bounds calls, every frequency accepted by the
    next measurement is within each pair they returned. *)
Theorem C29_accepted : forall V (ecc_of : Q -> Q -> V) vzero vneg find sv pv rfit slope level c fr ms s lo hi s1 ys s' r,
  c_ref c = FreqRef fr ->
  run_ops ecc_of vzero vneg find sv pv rfit slope level c (map FrefBounds ms) s = (ys, s1) -> In (RBounds (Ok (lo, hi))) ys ->
  snd (measure_ecc ecc_of vzero vneg find sv pv rfit slope level c s1) = (s', Ok r) -> s_zero s' = Some false ->
  exists o, r_fref_out r = Some o /\ forall f, In f (entries o) -> (lo <= f < hi)%Q.
Proof. exact @accepted_in_bounds. Qed.
Print Assumptions C29_accepted.
(** Before the measurement there is nothing to bound; afterwards the first method decides; after forgetting, the next. *)
Example C29_ex :
  let mean := Some "mean_of_extrema_interpolants"%string in let orb := Some "orbit_averaged_omega_gw"%string in
  let b1 := Ok (13 # 5, 18 # 5)%Q in
  let b2 := Ok (Qred (2 * np_pi + (4 # 100)), Qred (2 * np_pi + (44 # 100)))%Q in
  bounds_in (fst (toy_ops 0%Z (toy (TimeRef [3%Q]) true "orbit_averaged_omega_gw" false)
    [FrefBounds mean; Measure; FrefBounds mean; FrefBounds orb; Measure; FrefBounds orb; Forget; FrefBounds orb] (fresh None))) =
  [Err AttributeError; b1; b1; b1; b2].
Proof. vm_compute. reflexivity. Qed.

(** C29.  For a new object with reference frequencies and spline curves: whatever the history of measurements, failed or not,
    and get_fref_bounds calls with any methods, two calls of get_fref_bounds that return give the same pair. *)
Theorem C29_freq_stay : forall V (ecc_of : Q -> Q -> V) vzero vneg find sv pv rfit slope level c fr,
  c_interp c = SplineMethod -> c_ref c = FreqRef fr -> forall data os b1 b2, ~ In Forget os ->
  In (RBounds (Ok b1)) (fst (run_ops ecc_of vzero vneg find sv pv rfit slope level c os (fresh data))) ->
  In (RBounds (Ok b2)) (fst (run_ops ecc_of vzero vneg find sv pv rfit slope level c os (fresh data))) -> b1 = b2.
Proof. exact @freq_same_bounds. Qed.
Print Assumptions C29_freq_stay.
(** C29.  In such a history every frequency accepted by any measurement, before or after, lies within that pair. *)
Theorem C29_freq_accepted : forall V (ecc_of : Q -> Q -> V) vzero vneg find sv pv rfit slope level c fr,
  c_interp c = SplineMethod -> c_ref c = FreqRef fr -> forall data os lo hi r, ~ In Forget os ->
  In (RBounds (Ok (lo, hi))) (fst (run_ops ecc_of vzero vneg find sv pv rfit slope level c os (fresh data))) ->
  In (RMeasure (Ok r)) (fst (run_ops ecc_of vzero vneg find sv pv rfit slope level c os (fresh data))) ->
  exists o, r_fref_out r = Some o /\ forall f, In f (entries o) -> (lo <= f < hi)%Q.
Proof. exact @freq_accepted. Qed.
Print Assumptions C29_freq_accepted.
Example C29_freq_ex :
  let ys := fst (toy_ops 0%Z (toy (FreqRef [1 # 3; 1 # 2; 1]%Q) false "mean_of_extrema_interpolants" false)
    [FrefBounds None; Measure; FrefBounds (Some "orbit_averaged_omega_gw"%string); Measure; FrefBounds None] (fresh None)) in
  bounds_in ys = [Err AttributeError; Ok (13 # 5, 18 # 5); Ok (13 # 5, 18 # 5)]%Q /\
  flat_map (fun y => match y with RMeasure (Ok r) => [option_map redo (r_fref_out r)] | _ => [] end) ys = [Some [1 # 2]; Some [1 # 2]]%Q.
Proof. vm_compute. split; reflexivity. Qed.
(** C29 fails for rational fits: the degrees found by one measurement are the first guess of the next, so a second
    measurement replaces the average and get_fref_bounds returns another pair. *)
Theorem C29_rational_refuted :
  bounds_in (fst (toy3_ops [Measure; FrefBounds None; Measure; FrefBounds None] (fresh None))) = [Ok (11 # 5, 38 # 5); Ok (47 # 20, 59 # 5)]%Q.
Proof. vm_compute. reflexivity. Qed.
Print Assumptions C29_rational_refuted.

(** C32.  With splines and reference times, measuring again with the same object gives the same result or the same
    exception. *)
Theorem C32_same_object : forall V (ecc_of : Q -> Q -> V) vzero vneg find sv pv rfit slope level c tr s s' r,
  c_interp c = SplineMethod -> c_ref c = TimeRef tr ->
  snd (measure_ecc ecc_of vzero vneg find sv pv rfit slope level c s) = (s', r) ->
  snd (snd (measure_ecc ecc_of vzero vneg find sv pv rfit slope level c s')) = r.
Proof. exact @measure_again. Qed.
Print Assumptions C32_same_object.
Example C32_ex : let c := toy (TimeRef [3%Q; 4%Q]) false "orbit_averaged_omega_gw" false in
  let '(_, (s1, r1)) := toy_measure 1%Z c (fresh None) in
  view (snd (snd (toy_measure 1%Z c s1))) = view r1 /\ is_ok r1 = true.
Proof. vm_compute. split; reflexivity. Qed.
(** C32.  With splines and reference times, all measurements of any history of calls on one object reply the same, be it a
    result or an exception. *)
Theorem C32_time_history : forall V (ecc_of : Q -> Q -> V) vzero vneg find sv pv rfit slope level c tr,
  c_interp c = SplineMethod -> c_ref c = TimeRef tr -> forall os s x y,
  In (RMeasure x) (fst (run_ops ecc_of vzero vneg find sv pv rfit slope level c os s)) ->
  In (RMeasure y) (fst (run_ops ecc_of vzero vneg find sv pv rfit slope level c os s)) -> x = y.
Proof. exact @time_repeat. Qed.
Print Assumptions C32_time_history.
(** C32.  With splines and reference frequencies, in any history of measurements and get_fref_bounds calls of a new object: if
    one measurement returns a result, all of them return that result. *)
Theorem C32_freq_history : forall V (ecc_of : Q -> Q -> V) vzero vneg find sv pv rfit slope level c fr,
  c_interp c = SplineMethod -> c_ref c = FreqRef fr -> forall data os r x, ~ In Forget os ->
  In (RMeasure (Ok r)) (fst (run_ops ecc_of vzero vneg find sv pv rfit slope level c os (fresh data))) ->
  In (RMeasure x) (fst (run_ops ecc_of vzero vneg find sv pv rfit slope level c os (fresh data))) -> x = Ok r.
Proof. exact @freq_repeat. Qed.
Print Assumptions C32_freq_history.
Example C32_history_ex :
  let replies ys := flat_map (fun y => match y with RMeasure r => [view r] | _ => [] end) ys in
  let h := [Measure; FrefBounds (Some "orbit_averaged_omega_gw"%string); Measure; Measure] in
  let f := replies (fst (toy_ops 0%Z (toy (FreqRef [1 # 3; 1 # 2; 1]%Q) false "mean_of_extrema_interpolants" false) h (fresh None))) in
  let t := replies (fst (toy_ops 0%Z (toy (TimeRef [3%Q]) true "orbit_averaged_omega_gw" false) h (fresh None))) in
  length f = 3 /\ length t = 3 /\ Forall (fun r => is_ok r = true) f /\ Forall (fun r => is_ok r = true) t /\
  match f, t with [a; b; c], [d; e; g] => a = b /\ b = c /\ d = e /\ e = g | _, _ => False end.
Proof. vm_compute. repeat split; repeat constructor. Qed.

(** C32.  With rational fits, the degrees found for the apocenters are the starting point of the next
    measurement: there is a fitter for which the second measurement with the same object returns a
    different eccentricity. *)
Theorem C32_rational_refuted :
  let '(_, (s1, r1)) := toy2_measure (fresh None) in let '(_, (_, r2)) := toy2_measure s1 in
  view r1 = Ok ([1 # 2]%Q, [884279719003555 # 281474976710656]%Q, Some [5%Q], None) /\
  view r2 = Ok ([3 # 5]%Q, [884279719003555 # 281474976710656]%Q, Some [5%Q], None).
Proof. vm_compute. split; reflexivity. Qed.
Print Assumptions C32_rational_refuted.
