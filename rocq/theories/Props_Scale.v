(** Property theorems about units and origin of time (C99).  [same_config a b c c'] says that the objects c and c' hold the same
    waveform and the same request, with every time t of c written a * t + b in c' and every frequency w written w / a; see
    ScaleSpec.v for it, for [same_result], and for what is asked of the interpolants.  [fresh d] is a new object, with d the
    degrees the user gave for the rational fit.  ScaleCallSpec.v says the same of the caller's dictionaries, of the arguments and
    of the returned dictionary. *)
From Coq Require Import Reals Lra QArith Qreals.
From Verif Require Import Base UtilsModel MeasureModel RationalModel EccModel ScaleSpec ScaleLemmas ScaleMeasure ScaleFit ScaleReal DataModel DataTotal InitModel ScaleCallSpec ScaleCall Toy ScaleToy InitToy ScaleCallToy.
Open Scope nat_scope.
Open Scope Q_scope.

(** C99.  A measurement in other units of time and with another origin gives the same warnings and raises if and only if the
    first one raises; its eccentricities are the same, its mean anomalies equal, its reference times and frequencies the same
    in the other units. *)
Theorem C99_measure : forall V a b ecc_of (vzero : V) vneg find_extrema spline_val pchip_val rfit slope level c c' d,
  0 < a -> spline_affine spline_val -> ecc_ratio a ecc_of -> slope_affine a b slope -> same_config a b c c' ->
  (c_interp c = SplineMethod \/ fit_affine a b rfit) ->
  let m := measure_ecc ecc_of vzero vneg find_extrema spline_val pchip_val rfit slope level c (fresh d) in
  let m' := measure_ecc ecc_of vzero vneg find_extrema spline_val pchip_val rfit slope level c' (fresh d) in
  fst m' = fst m /\ same_res (same_result a b) (snd (snd m)) (snd (snd m')).
Proof.
  exact (fun V a b e z n f s p r sl l c c' d Ha Hs He Hd Hc Hr =>
    let H := measure_rel a b Ha e z n f s p r sl Hs He Hd c c' Hc Hr l (fresh d) (fresh d) (fresh_SR a b d) in
    conj (proj1 H) (proj2 (proj2 H))).
Qed.
Print Assumptions C99_measure.
(** C99.  The same along every history of calls on the object: measurements, questions for the range of reference frequencies,
    forgetting the average. *)
Theorem C99_history : forall V a b ecc_of (vzero : V) vneg find_extrema spline_val pchip_val rfit slope level c c' d os,
  0 < a -> spline_affine spline_val -> ecc_ratio a ecc_of -> slope_affine a b slope -> same_config a b c c' ->
  (c_interp c = SplineMethod \/ fit_affine a b rfit) ->
  Forall2 (same_reply a b)
    (fst (run_ops ecc_of vzero vneg find_extrema spline_val pchip_val rfit slope level c os (fresh d)))
    (fst (run_ops ecc_of vzero vneg find_extrema spline_val pchip_val rfit slope level c' os (fresh d))).
Proof.
  exact (fun V a b e z n f s p r sl l c c' d os Ha Hs He Hd Hc Hr =>
    proj1 (run_ops_rel a b Ha e z n f s p r sl Hs He Hd c c' Hc Hr l os (fresh d) (fresh d) (fresh_SR a b d))).
Qed.
Print Assumptions C99_history.
(** The example waveform with its times doubled and shifted by 100: what is asked of the outside code holds of linear
    interpolation, and three reference times give the same eccentricities and mean anomalies. *)
Example C99_measure_ex :
  let c := toy (TimeRef [3; 5 # 2; 7]) false "orbit_averaged_omega_gw" false in
  (0 < 2 /\ spline_affine lin /\ ecc_ratio 2 toy_ecc /\ slope_affine 2 100 toy_slope /\ same_config 2 100 c (other_units c) /\
   c_interp c = SplineMethod) /\
  view (snd (snd (unit_measure 0 c))) =
    Ok ([5 # 28; 2 # 11; 5 # 32], [np_pi; 884279719003555 # 562949953421312; np_pi], Some [3; 5 # 2; 7], None) /\
  view (snd (snd (unit_measure 0 (other_units c)))) =
    Ok ([5 # 28; 2 # 11; 5 # 32], [np_pi; 884279719003555 # 562949953421312; np_pi], Some [106; 105; 114], None).
Proof.
  cbv zeta. split; [|split; vm_compute; reflexivity].
  split; [reflexivity|]. split; [exact lin_affine|]. split; [exact (toy_ecc_ratio 2 eq_refl)|].
  split; [exact (toy_slope_affine 2 100)|]. split; [exact (other_units_same _)|reflexivity].
Qed.
(** A reference frequency 101/100 becomes 101/200. *)
Example C99_history_ex :
  let c := toy (FreqRef [101 # 100]) true "orbit_averaged_omega_gw" false in
  same_config 2 100 c (other_units c) /\
  map (fun y => match y with RMeasure r => Some (view r) | _ => None end) (unit_ops 0 c [FrefBounds None; Forget; Measure]) =
    [None; None; Some (Ok ([562949953421312 # 2991605710907271], [781950621441006189802102638025 # 158456325028528675187087900672],
      None, Some [101 # 100]))] /\
  map (fun y => match y with RMeasure r => Some (view r) | _ => None end) (unit_ops 0 (other_units c) [FrefBounds None; Forget; Measure]) =
    [None; None; Some (Ok ([562949953421312 # 2991605710907271], [781950621441006189802102638025 # 158456325028528675187087900672],
      None, Some [101 # 200]))].
Proof. cbv zeta. split; [exact (other_units_same _)|split; vm_compute; reflexivity]. Qed.

(** C99.  The eccentricity formula of the code depends on the ratio of the two frequencies only, as asked above. *)
Theorem C99_formula : forall a, 0 < a -> ecc_ratio a (fun w v => ecc_from_extrema (Q2R w) (Q2R v)).
Proof. exact ecc_ratio_real. Qed.
Print Assumptions C99_formula.
Example C99_formula_ex : same_freq 4 12 3 /\ same_freq 4 8 2.
Proof. split; reflexivity. Qed.

(** C99.  The rational fitter: with its tolerance scaled along with the frequencies it makes as many passes and keeps the same
    coefficients. *)
Theorem C99_fitter : forall (W A : Type) (step step' : W -> res (A * list Q * W)) norm y y' k q iterations tol, 0 < k ->
  Forall2 (fun u u' => u' == k * u + 0) y y' ->
  (forall q, match step q, step' q with
    | Ok (x, r, q1), Ok (x', r', q1') => x' = x /\ q1' = q1 /\ Forall2 (fun u u' => u' == k * u + 0) r r'
    | Err e, Err e' => e' = e
    | _, _ => False end) ->
  (forall l l', Forall2 (fun u u' => u' == k * u + 0) l l' -> norm l' == k * norm l + 0) ->
  match fit step norm y q iterations tol, fit step' norm y' q iterations (k * tol) with
  | Ok (e, h), Ok (e', h') => h_coef e' = h_coef e /\ length h' = length h
  | Err e, Err e' => e' = e
  | _, _ => False
  end.
Proof. exact (fun W A s s' n y y' k q i t Hk Hy Hs Hn => fit_rel s s' n y y' k Hk Hy Hs Hn q i t). Qed.
Print Assumptions C99_fitter.
Example C99_fitter_ex :
  match fit (two_guesses 1) norm1 [1] 0%nat 100 (1 # 10000000), fit (two_guesses (1 # 100000000)) norm1 [1 # 100000000] 0%nat 100 ((1 # 100000000) * (1 # 10000000)) with
  | Ok (e, h), Ok (e', h') => h_coef e = 1%nat /\ h_coef e' = 1%nat /\ length h = 3%nat /\ length h' = 3%nat
  | _, _ => False
  end.
Proof. vm_compute. repeat split. Qed.
(** C99, finding.  The tolerance is an absolute number, so in other units the fitter may stop after another number of passes and
    keep other coefficients: a first guess that is off by 100 % is accepted when the frequencies are small. *)
Theorem C99_fitter_refuted : exists (step step' : nat -> res (nat * list Q * nat)) norm y y' k, 0 < k /\
  Forall2 (fun u u' => u' == k * u + 0) y y' /\
  (forall q, match step q, step' q with
    | Ok (x, r, q1), Ok (x', r', q1') => x' = x /\ q1' = q1 /\ Forall2 (fun u u' => u' == k * u + 0) r r'
    | Err e, Err e' => e' = e
    | _, _ => False end) /\
  (forall l l', Forall2 (fun u u' => u' == k * u + 0) l l' -> norm l' == k * norm l + 0) /\
  exists e h e' h', fit step norm y 0%nat 100 (1 # 10000000) = Ok (e, h) /\ fit step' norm y' 0%nat 100 (1 # 10000000) = Ok (e', h') /\
    (h_coef e, length h, h_res e) = (1%nat, 3%nat, 0) /\ (h_coef e', length h') = (0%nat, 1%nat) /\ h_res e' == k.
Proof.
  exact (ex_intro _ (two_guesses 1) (ex_intro _ (two_guesses (1 # 100000000)) (ex_intro _ norm1 (ex_intro _ [1] (ex_intro _ [1 # 100000000]
    (ex_intro _ (1 # 100000000) (conj eq_refl (conj (Forall2_cons 1 (1 # 100000000) (eq_refl : 1 # 100000000 == (1 # 100000000) * 1 + 0) (Forall2_nil _))
    (conj (two_guesses_scale (1 # 100000000)) (conj (fun l l' => norm1_scale (1 # 100000000) l l' eq_refl)
    (ex_intro _ _ (ex_intro _ _ (ex_intro _ _ (ex_intro _ _ (conj eq_refl (conj eq_refl (conj eq_refl (conj eq_refl eq_refl)))))))))))))))))).
Qed.
Print Assumptions C99_fitter_refuted.

(** C99.  A whole call of measure_eccentricity, from the caller's dictionaries to the returned dictionary, for every method, frame
    and set of options: in other units it logs the same, raises if and only if the first one raises, with the same exception, and
    returns the same eccentricities, equal mean anomalies and the reference points in the other units.  The caller's dictionaries
    correspond afterwards as they did before. *)
Theorem C99_call : forall C V a b o kinds (L : library C V) m x x' p w w', 0 < a ->
  library_scale a b L -> calls_scale a b o kinds L m x -> same_args a b x x' -> same_world a b o kinds w w' ->
  (spline_chosen (wd_extra w) \/ fit_affine a b (lib_rational L)) -> free_search a o m (wd_extra w) ->
  let r := measure_eccentricity L m x p w in
  let r' := measure_eccentricity L m x' p w' in
  same_world a b o kinds (fst r) (fst r') /\ fst (snd r') = fst (snd r) /\ same_res (same_return a b) (snd (snd r)) (snd (snd r')).
Proof. exact (fun C V a b o kinds L m x x' p w w' Ha HL => @call_rel C V a b o kinds L Ha HL m x x' p w w'). Qed.
Print Assumptions C99_call.
(** The example waveform with its circular counterpart, times doubled and shifted by 100, those of the counterpart by -7, with
    the default options but for the spline: two reference times, searched with "ResidualFrequency". *)
Example C99_call_ex :
  let x := in_args (Some (RArr [6; 7])) None false in
  let x' := in_args (Some (RArr [112; 114])) None false in
  let w := in_world in_zero (Some in_spline) in
  let w' := re_world 2 100 (-7) in_zero (Some in_spline) in
  (0 < 2 /\ library_scale 2 100 in_lib /\ calls_scale 2 100 kept in_kinds in_lib "ResidualFrequency" x /\ same_args 2 100 x x' /\
   same_world 2 100 kept in_kinds w w' /\ spline_chosen (wd_extra w) /\ free_search 2 kept "ResidualFrequency" (wd_extra w)) /\
  in_out (measure_eccentricity in_lib "ResidualFrequency" x 0 w) =
    Ok [("eccentricity", [5 # 31; 5 # 32]); ("mean_anomaly", [0; np_pi]); ("tref_out", [6; 7])] /\
  in_out (measure_eccentricity in_lib "ResidualFrequency" x' 0 w') =
    Ok [("eccentricity", [5 # 31; 5 # 32]); ("mean_anomaly", [0; np_pi]); ("tref_out", [112; 114])].
Proof.
  cbv zeta. split; [|split; vm_compute; reflexivity].
  split; [reflexivity|]. split; [exact (in_library 2 100 eq_refl)|]. split; [exact (in_calls 2 100 kept in_kinds _ _ eq_refl eq_refl (or_intror eq_refl))|].
  split; [constructor; [constructor; constructor; repeat constructor|constructor|reflexivity]|].
  split; [exact (re_world_same 2 100 (-7) _)|]. split; [exists in_spline; split; reflexivity|].
  left. intros e u He Hu. injection He as <-. discriminate Hu.
Qed.
(** C99, finding.  Whether the times count as evenly spaced is decided with an absolute tolerance of 1e-8 besides the relative
    one, so a waveform accepted in one unit of time is rejected in another. *)
Theorem C99_uniform_refuted : exists t t' om om', same_times 2 0 t t' /\ same_modes (same_freqs 2) om om' /\
  in_out (measure_eccentricity in_lib "Amplitude" (in_args (Some (RScalar 6)) None false) 0 (un_world t om)) =
    Ok [("eccentricity", [5 # 31]); ("mean_anomaly", [0]); ("tref_out", [6])] /\
  in_out (measure_eccentricity in_lib "Amplitude" (in_args (Some (RScalar 12)) None false) 0 (un_world t' om')) = Err GenericException.
Proof.
  exact (ex_intro _ un_t (ex_intro _ (re_t 2 0 un_t) (ex_intro _ (both neg in_om) (ex_intro _ (re_modes 2 (both neg in_om))
    (conj (re_t_same 2 0 un_t) (conj (re_modes_same 2 (both neg in_om)) (conj eq_refl eq_refl))))))).
Qed.
Print Assumptions C99_uniform_refuted.
