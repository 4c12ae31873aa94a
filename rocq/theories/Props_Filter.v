(** Properties of the filter for spin-induced oscillations (spin_filter.py): the low-pass mask (C43), recombination of the
    segments (C44), the returned dictionary (C45), the sweep over the data (C46), crossings (C62), the cutoff frequency (C74),
    a segment (C75), inputs on which it fails (C76) and what a measurement takes from it (C77). *)
From Coq Require Import Reals.
From Verif Require Import Base BaseLemmas UtilsModel UtilsSpec MeasureModel SegmentModel DataModel DataSpec DataTotal InitModel InitSpec InitLemmas MaskModel MaskLemmas FilterModel FilterSpec
  FilterLemmas FilterCombine FilterSweep FilterApply FilterCheck FilterFinds FilterToy FilterZeroecc FilterClaims.
Open Scope string_scope.
Open Scope nat_scope.

(** C43.  Over the reals: the mask lies in [0, 1], is 1 up to fc (1 - w), 1/2 at fc, 0 from fc (1 + w) on, and never rises. *)
Theorem C43_real : forall fc w fs, (0 < fc)%R -> (0 < w)%R ->
  length (lowpass_mask fs fc w) = length fs /\
  (forall i f, nth_error fs i = Some f -> exists m, nth_error (lowpass_mask fs fc w) i = Some m /\ (0 <= m <= 1)%R /\
     (f <= fc * (1 - w) -> m = 1)%R /\ (fc * (1 + w) <= f -> m = 0)%R /\ (f = fc -> m = (1 / 2)%R)) /\
  (forall i j f g m n, nth_error fs i = Some f -> nth_error fs j = Some g -> nth_error (lowpass_mask fs fc w) i = Some m ->
     nth_error (lowpass_mask fs fc w) j = Some n -> (f <= g)%R -> (n <= m)%R).
Proof. exact mask_all. Qed.
Print Assumptions C43_real.
(** C43.  It is continuous everywhere, the edges included. *)
Theorem C43_continuous : forall fc w, (0 < fc)%R -> (0 < w)%R -> continuity (fun f => nth 0 (lowpass_mask [f] fc w) 0%R).
Proof. exact mask_continuous. Qed.
Print Assumptions C43_continuous.
(** C43.  The same for the mask that the filter uses, with any cosine that falls from 1 to -1. *)
Theorem C43_used : forall F freqs fc w m, cosine_like (fo_cos F) -> make_lowpass_mask F freqs fc w = Ok m -> (0 < fc)%Q -> (0 < w)%Q ->
  length m = length freqs /\
  (forall i f, nth_error freqs i = Some f -> exists v, nth_error m i = Some v /\ (0 <= v <= 1)%Q /\
     (f <= fc * (1 - w) -> v == 1)%Q /\ (fc * (1 + w) <= f -> v == 0)%Q) /\
  (forall i j f g u v, nth_error freqs i = Some f -> nth_error freqs j = Some g -> nth_error m i = Some u -> nth_error m j = Some v ->
     (f <= g)%Q -> (v <= u)%Q).
Proof. exact (fun F freqs fc w m K => mask_q F K freqs fc w m). Qed.
Print Assumptions C43_used.
Example C43_ex : cosine_like (fo_cos fx) /\
  (do m <- make_lowpass_mask fx [0; 3 # 4; 4 # 5; 9 # 10; 1; 11 # 10; 6 # 5; 2]%Q 1 (1 # 5); Ok (map Qred m)) = Ok [1; 1; 1; 3 # 4; 1 # 2; 1 # 4; 0; 0]%Q.
Proof. split; [exact fx_cosine|]. vm_compute. reflexivity. Qed.

(** C44.  However many segments there are and wherever they lie: every sample of the result is the weighted average of the
    segments' values there; where no segment has weight it is interpolated from the nearest samples that have one, and constant
    beyond the outermost of those.  ValueError is raised if and only if no sample has any weight. *)
Theorem C44_recombined : forall F t l, window (fo_hanning F) -> increasing t -> Forall (fun p => placed t (fst p) (snd p)) l ->
  match combine_segments F t (map fst l) with
  | Ok r => length r = length t /\ forall i v, nth_error r i = Some v ->
      averaged (fo_hanning F) l i v \/
      (~ covered (fo_hanning F) l i /\ filled t r (fun c => c < length t /\ covered (fo_hanning F) l c) i)
  | Err e => e = ValueError /\ forall i, i < length t -> ~ covered (fo_hanning F) l i
  end.
Proof. exact recombined_averaged. Qed.
Print Assumptions C44_recombined.
(** C44.  An average lies between the values averaged; so it is their common value if they agree. *)
Theorem C44_between : forall F l i v lo hi, window (fo_hanning F) -> averaged (fo_hanning F) l i v ->
  (forall w y, In (w, y) (shares (fo_hanning F) i l) -> (0 < w)%Q -> (lo <= y <= hi)%Q) -> (lo <= v <= hi)%Q.
Proof. exact averaged_between. Qed.
Print Assumptions C44_between.
(** C44.  No value leaves the range of the segments' values, interpolated ones included. *)
Theorem C44_range : forall F t l r lo hi, window (fo_hanning F) -> increasing t -> Forall (fun p => placed t (fst p) (snd p)) l ->
  (forall s j y, In (s, j) l -> In y (sg_filtered s) -> (lo <= y <= hi)%Q) ->
  combine_segments F t (map fst l) = Ok r -> forall y, In y r -> (lo <= y <= hi)%Q.
Proof. exact (fun F t l r lo hi W => recombined_bounds F W t l r lo hi). Qed.
Print Assumptions C44_range.
Example C44_ex : window (fo_hanning fx) /\ increasing fx_t /\ Forall (fun p => placed fx_t (fst p) (snd p)) fx_pieces /\
  (do r <- combine_segments fx fx_t (map fst fx_pieces); Ok (map Qred r)) =
  Ok [2; 2; 2; 2; 2; 3; 3; 4; 4; 4; 9 # 2; 5; 11 # 2; 6; 6; 6; 6; 6; 6; 6; 6; 6; 6; 6]%Q.
Proof. split; [exact fx_window|]. split; [exact fx_increasing|]. split; [exact fx_placed|]. vm_compute. reflexivity. Qed.

(** C45.  The returned dictionary.  Amplitude and frequency are returned filtered if and only if filtering is called for and
    do_not_filter is not set, and as they are otherwise; the original is returned in any case.  The phase is filtered exactly if
    the frequency is: it is then the running sum of the filtered frequency times the first time step, so that it starts at
    that of the first sample. *)
Theorem C45_contract : forall F C fuel (d : sdict (dval C)) tag given kw w r, check_and_filter F fuel d tag given kw = (w, Ok r) ->
  exists o ba bo ra ro, reads kw o /\ subject F d tag given kw true ba /\ subject F d tag given kw false bo /\
    outcome r ("amp_gw" ++ tag) (ob_data ba) ra /\ outcome r ("omega_gw" ++ tag) (ob_data bo) ro /\
    (forall b res, (b = ba /\ res = ra) \/ (b = bo /\ res = ro) ->
       match res with
       | Some x => ob_required b = true /\ k_skip o = false /\ apply_filter F fuel b o = Ok x
       | None => ob_required b = false \/ k_skip o = true
       end) /\
    (exists pho, combined [] d ("phaselm" ++ tag) (fun p q => (1 # 2) * (p - q))%Q pho /\
       slookup r ("phase_gw" ++ tag ++ "_original") = Some (FArr pho) /\
       match ro with
       | Some (y, _) => exists t t0 t1 p, times_of d t /\ nth_error t 0 = Some t0 /\ nth_error t 1 = Some t1 /\ accumulated y p (t1 - t0) /\
                          slookup r ("phase_gw" ++ tag ++ "_filtered") = Some (FArr p) /\ slookup r ("phase_gw" ++ tag) = Some (FArr p)
       | None => slookup r ("phase_gw" ++ tag ++ "_filtered") = Some FNone /\ slookup r ("phase_gw" ++ tag) = Some (FArr pho)
       end) /\
    NoDup (map fst r) /\ (forall k, In k (map fst r) <-> In k (result_keys tag)).
Proof. exact (fun F C => @contract F C). Qed.
Print Assumptions C45_contract.
(** C45.  The choice is the same for amplitude, frequency and phase if the type of data to look at is prescribed. *)
Theorem C45_same : forall F C fuel (d : sdict (dval C)) tag given kw w r s, check_and_filter F fuel d tag given kw = (w, Ok r) ->
  slookup kw "data_type_for_filter_requirement_check" = Some (LStr s) ->
  (slookup r ("amp_gw" ++ tag ++ "_filtered") = Some FNone <-> slookup r ("omega_gw" ++ tag ++ "_filtered") = Some FNone) /\
  (slookup r ("omega_gw" ++ tag ++ "_filtered") = Some FNone <-> slookup r ("phase_gw" ++ tag ++ "_filtered") = Some FNone).
Proof. exact (fun F C => @same_choice F C). Qed.
Print Assumptions C45_same.
(** C45.  With the default, the type of the data itself, it need not be. *)
Theorem C45_same_refuted : exists F d kw r, slookup kw "data_type_for_filter_requirement_check" = Some LNone /\
  check_and_filter (C := ex_c) F 30 d "" (Some 100%Q) kw = ([], Ok r) /\
  (exists y, slookup r "amp_gw_filtered" = Some (FArr y)) /\ slookup r "omega_gw_filtered" = Some FNone /\ slookup r "phase_gw_filtered" = Some FNone.
Proof. exact fx_differ. Qed.
Print Assumptions C45_same_refuted.
Example C45_ex :
  fx_kind (fx_run fx_d []) = Ok [("amp_gw", 24); ("amp_gw_original", 24); ("amp_gw_filtered", 24); ("amp_gw_filter_segment_results", -8);
    ("omega_gw", 24); ("omega_gw_original", 24); ("omega_gw_filtered", 24); ("omega_gw_filter_segment_results", -8);
    ("phase_gw_original", 24); ("phase_gw_filtered", 24); ("phase_gw", 24)]%Z /\
  fx_kind (fx_run fx_d [("do_not_filter", LBool true)]) = Ok [("amp_gw", 24); ("amp_gw_original", 24); ("amp_gw_filtered", -1); ("amp_gw_filter_segment_results", -1);
    ("omega_gw", 24); ("omega_gw_original", 24); ("omega_gw_filtered", -1); ("omega_gw_filter_segment_results", -1);
    ("phase_gw_original", 24); ("phase_gw_filtered", -1); ("phase_gw", 24)]%Z /\
  fx_kind (fx_run fx_mild [("data_type_for_filter_requirement_check", LStr "amp")]) = fx_kind (fx_run fx_d []).
Proof. vm_compute. repeat split. Qed.

(** C46.  The sweep: the centres start at the first time, advance by alpha times the local spacing of crossings, stay before the
    last time and stop when the next would not.  The segment of a centre consists of exactly the samples within half the
    segment size times the local spacing of it, at least two. *)
Theorem C46_sweep : forall F fuel b o y l, increasing (ob_t b) -> length (ob_data b) = length (ob_t b) -> apply_filter F fuel b o = Ok (y, l) ->
  exists t0 tn cs, nth_error (ob_t b) 0 = Some t0 /\ nth_error (ob_t b) (length (ob_t b) - 1) = Some tn /\
    centres (fun c => k_alpha o * ob_delta_T b c)%Q t0 tn cs /\ length l = length cs /\
    (forall k c, nth_error cs k = Some c -> exists s j, nth_error l k = Some s /\
       cut (ob_t b) (ob_data b) (c - (1 # 2) * k_size o * ob_delta_T b c) (c + (1 # 2) * k_size o * ob_delta_T b c) (sg_t s) (sg_data s) j /\ 2 <= length (sg_t s)).
Proof. exact swept. Qed.
Print Assumptions C46_sweep.
(** C46.  With positive alpha and segment size it ends, by returning or by an exception, whatever the interpolated spacing is:
    zero and negative values included.  (A step that does not advance has a segment of fewer than two samples, which raises.) *)
Theorem C46_terminates : forall F b o, increasing (ob_t b) -> length (ob_data b) = length (ob_t b) -> (forall a m t x, fo_trend F a m t x <> Err OutOfFuel) ->
  (0 < k_alpha o)%Q -> (0 < k_size o)%Q ->
  exists n, forall fuel, n <= fuel -> apply_filter F fuel b o <> Err OutOfFuel /\ apply_filter F fuel b o = apply_filter F n b o.
Proof. exact ends. Qed.
Print Assumptions C46_terminates.
(** C46.  With alpha = 0 it never ends, once the first segment can be filtered. *)
Theorem C46_alpha_zero : forall F b o t0 tn s, increasing (ob_t b) -> length (ob_data b) = length (ob_t b) -> (k_alpha o == 0)%Q ->
  nth_error (ob_t b) 0 = Some t0 -> nth_error (ob_t b) (length (ob_t b) - 1) = Some tn ->
  1 < length (ob_t b) -> (forall c, (c == t0)%Q -> ob_delta_T b c = ob_delta_T b t0) -> filter_segment F b o t0 = Ok s ->
  forall fuel, apply_filter F fuel b o = Err OutOfFuel.
Proof. exact stuck. Qed.
Print Assumptions C46_alpha_zero.
(** C46.  If every half segment is at least a step of the sweep and a step of time, then the segments reach every sample but the
    first and the last, and those two copy their neighbours. *)
Theorem C46_everywhere : forall F fuel b o y l dt t0 tn,
  increasing (ob_t b) -> length (ob_data b) = length (ob_t b) -> window (fo_hanning F) -> hann_like (fo_hanning F) ->
  apply_filter F fuel b o = Ok (y, l) -> gaps_at_most (ob_t b) dt -> 3 <= length (ob_t b) ->
  nth_error (ob_t b) 0 = Some t0 -> nth_error (ob_t b) (length (ob_t b) - 1) = Some tn -> (0 < k_alpha o)%Q -> (0 < k_size o)%Q ->
  (forall c, (t0 <= c)%Q -> (c < tn)%Q -> (k_alpha o * ob_delta_T b c + dt <= (1 # 2) * k_size o * ob_delta_T b c)%Q) ->
  length y = length (ob_t b) /\
  exists js, Forall (fun p => placed (ob_t b) (fst p) (snd p)) (combine l js) /\ map fst (combine l js) = l /\
    (forall i v, 0 < i -> S i < length (ob_t b) -> nth_error y i = Some v -> averaged (fo_hanning F) (combine l js) i v) /\
    nth_error y 0 = nth_error y 1 /\ nth_error y (length (ob_t b) - 1) = nth_error y (length (ob_t b) - 2).
Proof. exact everywhere. Qed.
Print Assumptions C46_everywhere.
Example C46_ex : increasing (ob_t fx_obj) /\ length (ob_data fx_obj) = length (ob_t fx_obj) /\ hann_like (fo_hanning fx) /\ gaps_at_most (ob_t fx_obj) 1 /\
  (exists y l, apply_filter fx 30 fx_obj (fx_opt 1 7 2 (1 # 5)) = Ok (y, l) /\ map (fun s => length (sg_t s)) l = [15; 19; 23; 24; 22; 18]) /\
  (exists s, filter_segment fx fx_obj (fx_opt 0 7 2 (1 # 5)) 0 = Ok s) /\
  (1 * 4 + 1 <= (1 # 2) * 7 * 4)%Q.
Proof. exact fx_swept. Qed.

(** C62.  The crossings reported are exactly the samples after which the difference of the curves changes sign (zero being a
    sign of its own), in order, with the times of the samples before them, their midpoints and spacings. *)
Theorem C62_crossings : forall t x y tc tm dt, find_intersection_points t x y = Ok (tc, tm, dt) ->
  exists idx, crossing_times t x y idx tc /\ 2 <= length idx /\ pairwise (fun a b => (a + b) / 2)%Q tc tm /\ pairwise (fun a b => b - a)%Q tc dt.
Proof. exact crossings_found. Qed.
Print Assumptions C62_crossings.
(** C62.  Fewer than two crossings raise ValueError, two or more do not raise. *)
Theorem C62_few : forall t x y, length x = length y -> (forall i j, crosses x y i -> crosses x y j -> i = j) ->
  find_intersection_points t x y = Err ValueError.
Proof. exact crossings_few. Qed.
Print Assumptions C62_few.
Theorem C62_enough : forall t x y i j, length x = length y -> length t = length x -> i <> j -> crosses x y i -> crosses x y j ->
  exists r, find_intersection_points t x y = Ok r.
Proof. exact crossings_enough. Qed.
Print Assumptions C62_enough.
(** C62.  Where the curves meet exactly in a sample, one crossing is counted twice. *)
Theorem C62_twice : forall x y i a b c a' b' c', nth_error x i = Some a -> nth_error x (S i) = Some b -> nth_error x (S (S i)) = Some c ->
  nth_error y i = Some a' -> nth_error y (S i) = Some b' -> nth_error y (S (S i)) = Some c' ->
  ~ (a == a')%Q -> (b == b')%Q -> ~ (c == c')%Q -> crosses x y i /\ crosses x y (S i).
Proof. exact touching. Qed.
Print Assumptions C62_twice.
Example C62_ex : find_intersection_points [0; 1; 2; 3; 4]%Q [1; -1; -1; 1; 2]%Q [0; 0; 0; 0; 0]%Q = Ok ([0; 2]%Q, [(1 # 2) * (0 + 2)]%Q, [2 - 0]%Q) /\
  find_intersection_points [0; 1; 2; 3]%Q [1; -1; -1; -1]%Q [0; 0; 0; 0]%Q = Err ValueError /\
  find_intersection_points [0; 1; 2]%Q [1; 0; -1]%Q [0; 0; 0]%Q = Ok ([0; 1]%Q, [(1 # 2) * (0 + 1)]%Q, [1 - 0]%Q).
Proof. vm_compute. repeat split. Qed.

(** C74.  The frequencies: f_spin is where the spectrum is strongest in the window around the guess, f_ecc where it is strongest
    in the window below f_spin, and the cutoff where it is weakest between the two; if a window has no frequency, they are the
    guess, f_spin / 2.5 and the midpoint. *)
Theorem C74_cutoff : forall freqs spectrum g sl sh el eh fc fe fs, get_fcut freqs spectrum g sl sh el eh = Ok (fc, fe, fs) ->
  (strongest freqs spectrum (sl * g) (sh * g) fs \/ (fs = g /\ none_within freqs (sl * g) (sh * g))) /\
  (strongest freqs spectrum (el * fs) (eh * fs) fe \/ (fe = (fs / (5 # 2))%Q /\ none_within freqs (el * fs) (eh * fs))) /\
  (weakest freqs spectrum fe fs fc \/ (fc = ((1 # 2) * (fs + fe))%Q /\ none_within freqs fe fs)).
Proof. exact fcut_ok. Qed.
Print Assumptions C74_cutoff.
(** C74.  The cutoff is positive and lies between f_ecc and f_spin. *)
Theorem C74_order : forall freqs spectrum g sl sh el eh fc fe fs, get_fcut freqs spectrum g sl sh el eh = Ok (fc, fe, fs) ->
  (0 < g)%Q -> (0 < sl)%Q -> (0 < el)%Q -> (eh <= 1)%Q -> (0 < fe /\ fe <= fc /\ fc <= fs)%Q.
Proof. exact fcut_between. Qed.
Print Assumptions C74_order.
Example C74_ex :
  get_fcut [0; 1 # 4; 1 # 2; 3 # 4; 1; 5 # 4]%Q [9; 5; 7; 1; 8; 3]%Q 1 (75 # 100) (125 # 100) (25 # 100) (5 # 10) = Ok (3 # 4, 1 # 2, 1)%Q /\
  get_fcut [0; 10]%Q [9; 5]%Q 1 (75 # 100) (125 # 100) (25 # 100) (5 # 10) = Ok ((1 # 2) * (1 + 1 / (5 # 2)), 1 / (5 # 2), 1)%Q.
Proof. vm_compute. repeat split. Qed.

(** C75.  One segment, from the data to the filtered values: the samples within half the segment size of the centre, all before
    the merger; the trend fitted to them; the residual; its spectrum after the Hamming window and padding with zeros; the cutoff
    (C74) for one over the local spacing of crossings; the mask of the cutoff; the low-pass of the padded residual, without the
    padding; and the sum of trend and low-passed residual. *)
Theorem C75_segment : forall F b o t_mid s, increasing (ob_t b) -> length (ob_data b) = length (ob_t b) -> filter_segment F b o t_mid = Ok s ->
  let half := ((1 # 2) * k_size o * ob_delta_T b t_mid)%Q in let p := Z.to_nat (k_pad o) in let n := length (sg_t s) + 2 * p in
  exists j trend t0 t1 windowed mask, cut (ob_t b) (ob_data b) (t_mid - half) (t_mid + half) (sg_t s) (sg_data s) j /\ 0 < p /\
    (forall a, In a (sg_t s) -> (a < ob_t_merger b)%Q) /\ fo_trend F (ob_amp b) (ob_t_merger b) (sg_t s) (sg_data s) = Ok trend /\
    sg_secular s = map trend (sg_t s) /\ pointwise Qminus (sg_data s) (sg_secular s) (sg_residual s) /\
    nth_error (sg_t s) 0 = Some t0 /\ nth_error (sg_t s) 1 = Some t1 /\
    pointwise Qmult (fo_hamming F (length (sg_t s))) (sg_residual s) windowed /\
    frequencies_of n (t1 - t0) (sg_freqs s) /\ normalized n (fo_abs_rfft F (padded p windowed)) (sg_spectrum s) /\
    (sg_guess s == 1 / ob_delta_T b t_mid)%Q /\ cutoff_of (sg_freqs s) (sg_spectrum s) (sg_guess s) o (sg_cutoff s) (sg_ecc s) (sg_spin s) /\
    tapered (fo_cos F) (sg_freqs s) (sg_cutoff s) (k_taper o) mask /\ length (sg_smooth s) = length (sg_t s) /\
    (forall k, k < length (sg_t s) -> nth_error (sg_smooth s) k = nth_error (fo_lowpass F (padded p (sg_residual s)) mask) (p + k)) /\
    pointwise Qplus (sg_secular s) (sg_smooth s) (sg_filtered s).
Proof. exact segment_all. Qed.
Print Assumptions C75_segment.
Example C75_ex : increasing (ob_t fx_obj) /\ length (ob_data fx_obj) = length (ob_t fx_obj) /\
  fx_segment (filter_segment fx fx_obj (fx_opt 1 2 2 (1 # 5)) 6) =
  Ok ([2; 3; 4; 5; 6; 7; 8; 9; 10]%Q, [1; -1; 1; -1; 1; -1; 1; -1; 1]%Q, [5 # 2; 3 # 2; 5 # 2; 3 # 2; 5 # 2; 3 # 2; 5 # 2; 3 # 2; 5 # 2]%Q, 1 # 4, [1 # 13; 2 # 13; 4 # 13])%Q.
Proof. split; [exact fx_increasing|]. split; [reflexivity|]. vm_compute. reflexivity. Qed.

(** C76.  No dictionary is returned for data whose (2,-2) mode mirrors the (2,2) mode, whatever the options: do_not_filter too. *)
Theorem C76_symmetric : forall F C fuel (d : sdict (dval C)) given kw w r, reflection_symmetric [] d -> check_and_filter F fuel d "" given kw <> (w, Ok r).
Proof. exact (fun F C => @symmetric_fails F C). Qed.
Print Assumptions C76_symmetric.
(** C76.  The exception: the curves of two modes that mirror each other have no crossings. *)
Theorem C76_mirror : forall F t x y tm amp thr trend, Forall2 Qeq x (mirrored amp y) -> length t = length x -> (forall s, In s t -> (s < tm)%Q) ->
  fo_trend F amp tm t x = Ok trend -> check_filter_requirement F t x y tm amp thr = Err ValueError.
Proof. exact agree_check. Qed.
Print Assumptions C76_mirror.
(** C76.  So do data that reach the merger. *)
Theorem C76_merged : forall F t x y tm amp thr, length x = length y -> (exists s, In s t /\ (tm <= s)%Q) ->
  check_filter_requirement F t x y tm amp thr = Err ValueError.
Proof. exact merged_check. Qed.
Print Assumptions C76_merged.
(** C76.  Consequence: a measurement with precessing=True that returns had data that was neither symmetric nor reached the
    merger.  (The data after the change of frame and the cut before the merger.) *)
Theorem C76_measured : forall F C V (L : library C V) fuel, lib_filter L = spin_filter F fuel -> forall m a p w w' l (d : sdict (entry V)),
  a_precessing a = true -> measure_eccentricity L m a p w = (w', (l, Ok d)) ->
  exists h' l1 pd t, process L a p (wd_heap w) = (h', (l1, Ok pd)) /\ times_of (p_dict C pd) t /\
    ~ reflection_symmetric h' (p_dict C pd) /\ (forall s, In s t -> (s < p_t_merger C pd)%Q).
Proof. exact (fun F C => @measured_needs F C). Qed.
Print Assumptions C76_measured.
(** C76.  Filtering needs a positive padding_length. *)
Theorem C76_padding : forall F fuel b o y l, increasing (ob_t b) -> length (ob_data b) = length (ob_t b) -> 1 < length (ob_t b) ->
  apply_filter F fuel b o = Ok (y, l) -> (0 < k_pad o)%Z.
Proof. exact padding_needed. Qed.
Print Assumptions C76_padding.
(** C76.  With taper_width = 0 a segment has finite values only if no frequency of its spectrum lies between f_ecc and f_spin. *)
Theorem C76_taper : forall F b o t_mid s, increasing (ob_t b) -> length (ob_data b) = length (ob_t b) -> filter_segment F b o t_mid = Ok s ->
  (k_taper o == 0)%Q -> none_within (sg_freqs s) (sg_ecc s) (sg_spin s).
Proof. exact taper_zero. Qed.
Print Assumptions C76_taper.
Example C76_ex : reflection_symmetric [] fx_mirror /\ fx_kind (fx_run fx_mirror [("do_not_filter", LBool true)]) = Err ValueError /\
  fx_seen (fx_measure 0 (1 # 1000) (Some 1%Q)) = Err ValueError /\ fx_seen (fx_measure 1 (1 # 1000) None) = Err ValueError /\
  fx_kind (fx_run fx_d [("padding_length", LNum 0)]) = Err ValueError /\ fx_kind (fx_run fx_d [("taper_width", LNum 0)]) = Err NonFinite.
Proof. split; [exact fx_mirrored|]. vm_compute. repeat split. Qed.

(** C77.  A measurement with precessing=True: the filter gets the prepared data, the time of merger and the options completed
    with the documented defaults; amplitude, phase and frequency of the measuring object are those of the filter's dictionary
    (unless only some orbits are to be used), and the object remembers whether the frequency was filtered. *)
Theorem C77_measured : forall F C V (L : library C V) fuel, lib_filter L = spin_filter F fuel -> forall m a p w w' l (d : sdict (entry V)),
  a_precessing a = true -> measure_eccentricity L m a p w = (w', (l, Ok d)) ->
  exists h' l1 pd t fk l2 r o st A P O,
    process L a p (wd_heap w) = (h', (l1, Ok pd)) /\ times_of (p_dict C pd) t /\
    slookup d "gwecc_object" = Some (EObject o st) /\
    (exists u, given_filter (wd_extra w) u /\ completed_filter u fk) /\
    check_and_filter F fuel (deepcopy C h' (p_dict C pd)) "" (Some (p_t_merger C pd)) fk = (l2, Ok r) /\
    slookup r "amp_gw" = Some (FArr A) /\ slookup r "phase_gw" = Some (FArr P) /\ slookup r "omega_gw" = Some (FArr O) /\
    (c_filtered (b_config (o_base o)) = true <-> slookup r "omega_gw_filtered" <> Some FNone) /\
    (c_use_only (b_config (o_base o)) = false -> b_wave (o_base o) = {| w_t := t; w_amp := A; w_phase := P; w_omega := O |}).
Proof. exact (fun F C => @measured_filter F C). Qed.
Print Assumptions C77_measured.
Example C77_ex : lib_filter fx_lib = spin_filter fx 60 /\
  fx_seen (fx_measure 1 (1 # 5) (Some 1%Q)) = Ok (true, 17, [105; 951 # 10; 526 # 5; 953 # 10]%Q) /\
  fx_seen (fx_measure 1 (1 # 1000) (Some 1%Q)) = Ok (true, 17, [971 # 20; 971 # 20; 268 # 5; 973 # 20]%Q).
Proof. split; [reflexivity|]. vm_compute. split; reflexivity. Qed.

(** C61.  Nor does the filter look at zeroecc data, so they have no effect on measurements with precessing=True by the methods
    without residuals. *)
Theorem C61_filter : forall F C V (L : library C V) fuel, lib_filter L = spin_filter F fuel -> forall m a p w w' l d0 d,
  In m ["Amplitude"; "Frequency"; "AmplitudeFits"; "FrequencyFits"] -> is_dict (wd_heap w) p d0 -> NoDup (dkeys d0) ->
  (a_precessing a = true -> a_frame a = "inertial" -> has d0 "amplm_zeroecc" -> polar_numbers L) ->
  (a_fref a = None \/ forall e, wd_extra w = Some e -> slookup e "omega_gw_averaging_method" <> Some (Leaf (LStr "omega_gw_zeroecc"))) ->
  measure_eccentricity L m a p w = (w', (l, Ok d)) ->
  exists w2 l2 d2, measure_eccentricity L m a p {| wd_heap := set_nth (wd_heap w) p (OTop C (without_zeroecc d0)); wd_extra := wd_extra w |} = (w2, (l2, Ok d2)) /\
    forall k, In k ["eccentricity"; "mean_anomaly"; "tref_out"; "fref_out"] -> slookup d2 k = slookup d k.
Proof. exact (fun F C V => @zeroecc_unused_filter F C V). Qed.
Print Assumptions C61_filter.
Example C61_filter_ex : fx_out fx_zero = Ok [("eccentricity", [5 # 53]%Q); ("mean_anomaly", [0%Q]); ("tref_out", [8%Q])] /\ fx_out fx_zero = fx_out (fx_heap 1).
Proof. vm_compute. repeat split. Qed.
