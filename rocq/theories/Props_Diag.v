(** Property theorems about a whole measurement: warnings (C64), the extrema used (C65) and the averaged
    frequency used (C66).  Notation as in Props_Measure.v; here [measure level c s = (w, (s', Ok r))] also names the
    list w of warnings issued.  The texts of the warnings are abbreviated in the model. *)
From Coq Require Import Permutation.
From Verif Require Import Base BaseLemmas UtilsModel UtilsSpec ExtremaModel ExtremaSpec RationalModel MeasureModel
  MeasureSpec LevelLemmas AverageLemmas MeasureLemmas MeasureResults MeasureMore MeasureUsed Toy.
Open Scope nat_scope.
Open Scope string_scope.

(** C64.  At debug level 1, after a measurement with locations p, a (times tp, ta; phases php, pha; detected lists
    p0, a0; cleaned lists gp, ga):
    - some reported eccentricity is negative iff this is reported;
    - some sampled slope of the eccentricity is positive iff it is reported as nonmonotonic;
    - two consecutive extrema of one kind are less than pi of orbital phase apart (or nearer pi than 2 pi) iff reported;
    - some gap is more than 3/2 of the one before iff reported;
    - the clean-up dropped more than half of one list iff reported;
    - the numbers of pericenters and apocenters differ by two or more iff reported;
    - without a report the two kinds alternate in time, and if they strictly alternate there is no report. *)
Theorem C64_warnings : forall V (ecc_of : Q -> Q -> V) vzero vneg find sv pv rfit slope c s w s' r,
  measure_ecc ecc_of vzero vneg find sv pv rfit slope 1%Z c s = (w, (s', Ok r)) -> s_zero s' = Some false ->
  exists p0 a0 gp ga p a php pha tp ta,
    find true = Ok p0 /\ raw_apocenters find c p0 a0 /\
    snd (get_good_extrema 1%Z (c_phase c) p0 a0) = Ok (gp, ga) /\
    s_peri s' = Some p /\ s_apo s' = Some a /\
    samples_at (c_phase c) p php /\ samples_at (c_phase c) a pha /\ samples_at (c_t c) p tp /\ samples_at (c_t c) a ta /\
    (In "negative eccentricity" w <-> exists e, In e (entries (r_eccentricity r)) /\ vneg e = true) /\
    (In "egw(t) is nonmonotonic" w <-> exists d, s_decc s' = Some d /\ In true d) /\
    (In "extrema too close" w <-> exists ph, (ph = php \/ ph = pha) /\ some_neighbours (fun x y => (y - x) / 2 < np_pi)%Q ph) /\
    (In "phase shift closer to pi" w <-> exists ph, (ph = php \/ ph = pha) /\
       some_neighbours (fun x y => Qabs ((y - x) / 2 - np_pi) < Qabs ((y - x) / 2 - 2 * np_pi))%Q ph) /\
    (increasing php -> increasing pha ->
     (In "extrema too far" w <-> exists ph, (ph = php \/ ph = pha) /\ some_triple (fun x y z => (3 # 2) * (y - x) < z - y)%Q ph)) /\
    (In "dropped too many extrema" w <->
       (Z.of_nat (length p0) < 2 * (Z.of_nat (length p0) - Z.of_nat (length gp)))%Z \/
       (Z.of_nat (length a0) < 2 * (Z.of_nat (length a0) - Z.of_nat (length ga)))%Z) /\
    (In "number of pericenters and apocenters differ" w <-> (2 <= Z.abs (Z.of_nat (length p) - Z.of_nat (length a)))%Z) /\
    (~ In "number of pericenters and apocenters differ" w -> ~ In "extrema do not alternate" w -> alternate Qle tp ta) /\
    (alternate Qlt tp ta -> ~ In "number of pericenters and apocenters differ" w /\ ~ In "extrema do not alternate" w).
Proof. exact @measure_says. Qed.
Print Assumptions C64_warnings.
(** C64.  The two important reports come at level 0 as well. *)
Theorem C64_important : forall V (ecc_of : Q -> Q -> V) vzero vneg find sv pv rfit slope level c s w s' r,
  level = 0%Z \/ level = 1%Z ->
  measure_ecc ecc_of vzero vneg find sv pv rfit slope level c s = (w, (s', Ok r)) -> s_zero s' = Some false ->
  (In "negative eccentricity" w <-> exists e, In e (entries (r_eccentricity r)) /\ vneg e = true) /\
  (In "egw(t) is nonmonotonic" w <-> exists d, s_decc s' = Some d /\ In true d).
Proof. exact @measure_loud. Qed.
Print Assumptions C64_important.
(** C64.  At level 0 nothing but the important warnings, whether the call returns or raises. *)
Theorem C64_level_0 : forall V (ecc_of : Q -> Q -> V) vzero vneg find sv pv rfit slope c s x,
  In x (fst (measure_ecc ecc_of vzero vneg find sv pv rfit slope 0%Z c s)) ->
  x = "too few extrema, setting eccentricity to zero" \/
  In x ["both degrees 1 and still nonmonotonic, using spline"; "nonmonotonic derivative of the interpolant";
        "egw(t) is nonmonotonic"; "negative eccentricity"].
Proof. exact @measure_important. Qed.
Print Assumptions C64_level_0.
(** C64.  At level -1 nothing but the one warning that ignores the debug level. *)
Theorem C64_level_minus_1 : forall V (ecc_of : Q -> Q -> V) vzero vneg find sv pv rfit slope c s x,
  In x (fst (measure_ecc ecc_of vzero vneg find sv pv rfit slope (-1)%Z c s)) ->
  x = "too few extrema, setting eccentricity to zero".
Proof. exact @measure_silent. Qed.
Print Assumptions C64_level_minus_1.
(** Silence is therefore false at level -1 with the fallback. *)
Theorem C64_silent_refuted : exists level c, level = (-1)%Z /\
  fst (measure_ecc (fun wp wa => Qred ((wp - wa) / (wp + wa))) 0%Q (fun e => Qlt_bool e 0)
         (fun b => Ok (if b then [0; 2; 4] else [3])) lin lin3 (fun _ _ _ => Err LinAlgError) (fun _ _ => []) level c (fresh None)) <> [].
Proof. exists (-1)%Z, (toy (TimeRef [3%Q]) true "orbit_averaged_omega_gw" true). split; [reflexivity|]. vm_compute. discriminate. Qed.
Print Assumptions C64_silent_refuted.
(** Non-vacuity: each report occurs, and a clean waveform has none. *)
Example C64_ex :
  let m find slope := measure_ecc (fun wp wa => ((wp - wa) / (wp + wa))%Q) 0%Q (fun e => Qlt_bool e 0) find lin lin3
    (fun _ _ _ => Err LinAlgError) slope 1%Z (toy (TimeRef [4; 7]%Q) false "orbit_averaged_omega_gw" false) (fresh None) in
  let run find slope := (fst (m find slope), is_ok (snd (snd (m find slope))), s_zero (fst (snd (m find slope)))) in
  let flat := fun _ _ => [false] in
  run toy_find flat = ([], true, Some false) /\
  run toy_find (fun _ _ => [false; true]) = (["egw(t) is nonmonotonic"], true, Some false) /\
  run (fun b => toy_find (negb b)) flat = (["negative eccentricity"], true, Some false) /\
  run (fun b => Ok (if b then [0; 2; 4; 10] else [1; 3; 5; 7; 9])) flat = (["extrema do not alternate"; "extrema too far"], true, Some false) /\
  run (fun b => Ok (if b then [0; 6; 12] else [1; 3; 5; 7; 9; 11])) flat =
    (["number of pericenters and apocenters differ"], true, Some false) /\
  run (fun b => Ok (if b then [0; 2; 3; 4; 6; 8; 10; 12] else [1; 3; 5; 7; 9; 11])) flat =
    (["extrema too widely separated near the start"; "extrema too close in the first half"; "phase shift closer to pi";
      "extrema too far"; "nonmonotonic derivative of the interpolant"], true, Some false).
Proof. repeat split; vm_compute; reflexivity. Qed.

(** C65.  The extrema a measurement uses are those the method's finder returned (apocenters: or the midpoints between
    pericenters), after the clean-up of C11-C14, and without the first of each for filtered precessing data; nothing is
    added or taken from the middle, and at least two of each kind remain. *)
Theorem C65_extrema_used : forall V (ecc_of : Q -> Q -> V) vzero vneg find sv pv rfit slope level c s s' r,
  snd (measure_ecc ecc_of vzero vneg find sv pv rfit slope level c s) = (s', Ok r) -> s_zero s' = Some false ->
  exists p0 a0 gp ga p a, find true = Ok p0 /\
    (if c_midpoints c then a0 = get_apocenters_from_pericenters p0 else find false = Ok a0) /\
    snd (get_good_extrema level (c_phase c) p0 a0) = Ok (gp, ga) /\
    s_peri s' = Some p /\ s_apo s' = Some a /\
    (if c_precessing c && c_filtered c then (exists x, gp = x :: p) /\ (exists x, ga = x :: a) else p = gp /\ a = ga) /\
    2 <= length p0 /\ 2 <= length a0 /\ 2 <= length p /\ 2 <= length a /\
    (sorted p0 -> sorted a0 -> block_of p p0 /\ block_of a a0).
Proof. exact @extrema_used. Qed.
Print Assumptions C65_extrema_used.
Example C65_ex :
  let m c find := fst (snd (measure_ecc (fun wp wa => ((wp - wa) / (wp + wa))%Q) 0%Q (fun e => Qlt_bool e 0) find lin lin3
    (fun _ _ _ => Err LinAlgError) (fun _ _ => []) 0%Z c (fresh None))) in
  let c := toy (TimeRef [6%Q]) true "orbit_averaged_omega_gw" false in
  let st c find := (s_peri (m c find), s_apo (m c find), s_zero (m c find)) in
  let extra b := Ok (if b : bool then [0; 2; 4; 6; 8] else [3; 5; 7; 9; 11]) in
  st c toy_find = (Some [0; 2; 4; 6; 8; 10; 12], Some [1; 3; 5; 7; 9; 11], Some false) /\
  (* two pericenters before the first apocenter and two apocenters after the last pericenter *)
  st c extra = (Some [2; 4; 6; 8], Some [3; 5; 7; 9], Some false) /\
  st {| c_t := c_t c; c_data_t := c_data_t c; c_phase := c_phase c; c_omega := c_omega c; c_ref := c_ref c; c_scalar := true;
        c_precessing := true; c_filtered := true; c_midpoints := true; c_return_zero := false; c_interp := SplineMethod;
        c_average := c_average c; c_use_only := false; c_special := c_special c; c_general := c_general c; c_zeroecc := None |} extra =
    (Some [2; 4; 6; 8], Some [3; 5; 7], Some false).
Proof. repeat split; vm_compute; reflexivity. Qed.

(** C66.  The averaged frequency of a frequency-domain measurement is tabulated at all sample times in the window common
    to pericenters and apocenters, and is:
    - the mean of the two curves at each time, or
    - the spline of some degree through the quasi-circular frequencies, never outside their times, or
    - the spline of some degree through the (midpoint, phase advance over elapsed time) points of consecutive pericenters
      and of consecutive apocenters together, the window being cut down to the range of the midpoints. *)
Theorem C66_average_used : forall V (ecc_of : Q -> Q -> V) vzero vneg find sv pv rfit slope level c fr s s' r,
  c_ref c = FreqRef fr -> snd (measure_ecc ecc_of vzero vneg find sv pv rfit slope level c s) = (s', Ok r) -> s_zero s' = Some false ->
  exists p a tp ta php pha lo hi fp fa ts ws,
    s_peri s' = Some p /\ s_apo s' = Some a /\ samples_at (c_t c) p tp /\ samples_at (c_t c) a ta /\
    s_window s' = Some (lo, hi) /\ common_window tp ta lo hi /\ s_curves s' = (Some fp, Some fa) /\ s_average s' = Some (ts, ws) /\
    ((c_average c = "mean_of_extrema_interpolants" /\ keeps_exactly (within lo hi) (c_t c) ts /\
      Forall2 (fun t w => exists wp wa, fp t = Ok wp /\ fa t = Ok wa /\ w = ((1 # 2) * (wp + wa))%Q) ts ws) \/
     (c_average c = "omega_gw_zeroecc" /\ keeps_exactly (within lo hi) (c_t c) ts /\
      exists zt zw k, c_zeroecc c = Some (zt, zw) /\ ws = map (sv zt zw k) ts /\
        exists z0 z1, first_is zt z0 /\ last_is zt z1 /\ forall t, In t ts -> within z0 z1 t) \/
     (c_average c = "orbit_averaged_omega_gw" /\
      samples_at (c_phase c) p php /\ samples_at (c_phase c) a pha /\
      exists op oa m k lo' hi', orbit_points tp php op /\ orbit_points ta pha oa /\
        Permutation m (oa ++ op) /\ increasing (map fst m) /\ increasing (map snd m) /\
        cut_window (map fst m) lo hi lo' hi' /\ keeps_exactly (within lo' hi') (c_t c) ts /\
        ws = map (sv (map fst m) (map snd m) k) ts)).
Proof. exact @average_used. Qed.
Print Assumptions C66_average_used.
(** All three methods are reached: the stored times, and that the call returned. *)
Example C66_ex :
  let st avg f z := let c := toy (FreqRef f) false avg false in
    let x := toy_measure 0%Z {| c_t := c_t c; c_data_t := c_data_t c; c_phase := c_phase c; c_omega := c_omega c; c_ref := c_ref c; c_scalar := false;
        c_precessing := false; c_filtered := false; c_midpoints := false; c_return_zero := false; c_interp := SplineMethod;
        c_average := avg; c_use_only := false; c_special := c_special c; c_general := c_general c; c_zeroecc := z |} (fresh None) in
    (is_ok (snd (snd x)), option_map (fun a => length (fst a)) (s_average (fst (snd x)))) in
  st "mean_of_extrema_interpolants" [1 # 2]%Q None = (true, Some 11) /\
  st "orbit_averaged_omega_gw" [102 # 100]%Q None = (true, Some 11) /\
  st "omega_gw_zeroecc" [1 # 2]%Q (Some ([0; 20], [3; 4])%Q) = (true, Some 11).
Proof. repeat split; vm_compute; reflexivity. Qed.
