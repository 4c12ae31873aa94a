(** Property theorems about the option use_only_these_many_orbits (C35).
    [segments sec N w true refs] is the waveform cut for N orbits and reference times refs; [sec] stands for the fit used
    to turn a reference frequency into a time and plays no role for reference times.  Vocabulary in SegmentSpec.v. *)
From Verif Require Import Base BaseLemmas UtilsModel UtilsSpec SegmentModel SegmentSpec SegmentLemmas.
Open Scope nat_scope.

(** C35.  The segment is a contiguous run a..b-1 of samples, the same for all four arrays.  With pl, pr the phases at the
    samples nearest to the first and the last reference time:
    - it starts at the first sample, or beyond ceil(N/2) orbits before pl (within one sample);
    - it ends at the last sample but one, or beyond ceil(N/2) orbits after pr;
    - it spans N orbits in total unless it is all the data but the last sample;
    - its samples after the first one are not further out than ceil(N/2) orbits, plus N/2 when the other side is short. *)
Theorem C35_segment : forall sec N h w n is_time ref w' tl tr,
  (0 < N)%Q -> half_up N h -> samples_of w n -> increasing (w_t w) -> increasing (w_phase w) ->
  segments sec N w is_time ref = Ok w' ->
  reference_bounds sec w is_time ref = Ok (tl, tr) -> (tl <= tr)%Q ->
  exists i j pl pr p0 pn a b,
    nearest_to (w_t w) tl i /\ nearest_to (w_t w) tr j /\ i <= j /\
    nth_error (w_phase w) i = Some pl /\ nth_error (w_phase w) j = Some pr /\
    nth_error (w_phase w) 0 = Some p0 /\ nth_error (w_phase w) (n - 1) = Some pn /\
    part_of w a b w' /\ a <= i /\ b < n /\
    (a = 0 \/ exists p, nth_error (w_phase w) (a - 1) = Some p /\ (p + inject_Z h * orbit < pl)%Q) /\
    (b = n - 1 \/ exists q, nth_error (w_phase w) b = Some q /\ (pr + inject_Z h * orbit <= q)%Q) /\
    ((a = 0 /\ b = n - 1) \/
     exists p q, nth_error (w_phase w) (a - 1) = Some p /\ nth_error (w_phase w) b = Some q /\ (N * orbit <= q - p)%Q) /\
    (forall k x, a < k < b -> nth_error (w_phase w) k = Some x ->
       (pl - inject_Z h * orbit <= x \/ pn - inject_Z h * orbit - N / 2 * orbit <= x)%Q /\
       (x < pr + inject_Z h * orbit \/ x < p0 + inject_Z h * orbit + N / 2 * orbit)%Q) /\
    (forall p1, nth_error (w_phase w) 1 = Some p1 -> (p1 + inject_Z h * orbit < pl)%Q -> (pr + inject_Z h * orbit <= pn)%Q ->
       forall k x, nth_error (w_phase w) k = Some x ->
          (a < k /\ k < b <-> (pl - inject_Z h * orbit <= x /\ x < pr + inject_Z h * orbit)%Q)).
Proof. exact segment_shape. Qed.
Print Assumptions C35_segment.

(** C35.  For reference times: whenever the samples are finer than an orbit and the first reference time is not before the
    data, every time between the first and the last reference time is inside the segment, except times after the last
    sample but one of the data. *)
Theorem C35_covers : forall sec N w n ref w' tl tr t0,
  (0 < N)%Q -> samples_of w n -> 2 <= n ->
  increasing (w_t w) -> increasing (w_phase w) -> fine_phase (w_phase w) ->
  segments sec N w true ref = Ok w' ->
  hd_error ref = Some tl -> nth_error ref (length ref - 1) = Some tr ->
  nth_error (w_t w) 0 = Some t0 -> (t0 <= tl)%Q ->
  forall r, (tl <= r <= tr)%Q ->
  (exists x, nth_error (w_t w') 0 = Some x /\ (x <= r)%Q) /\
  ((exists y, nth_error (w_t w') (length (w_t w') - 1) = Some y /\ (r <= y)%Q) \/
   (exists y, nth_error (w_t w) (n - 2) = Some y /\ (y < r)%Q)).
Proof. exact time_cover. Qed.
Print Assumptions C35_covers.

(** C35.  The cut succeeds for every waveform with samples and every reference list with an entry. *)
Theorem C35_total : forall sec N w n ref, samples_of w n -> 1 <= n -> ref <> [] ->
  exists w', segments sec N w true ref = Ok w'.
Proof. exact segments_total. Qed.
Print Assumptions C35_total.

(** C35 (against the claim).  The last sample of the data is in no segment, so a reference at the last sample is outside
    the segment cut for it. *)
Theorem C35_last_sample_refuted : forall sec N w n ref w' tl tr tn,
  (0 < N)%Q -> samples_of w n -> increasing (w_t w) -> increasing (w_phase w) ->
  segments sec N w true ref = Ok w' ->
  hd_error ref = Some tl -> nth_error ref (length ref - 1) = Some tr -> (tl <= tr)%Q ->
  nth_error (w_t w) (n - 1) = Some tn -> forall x, In x (w_t w') -> (x < tn)%Q.
Proof. exact time_last. Qed.
Print Assumptions C35_last_sample_refuted.

(** C35.  Without the option, or with fewer orbits in the data than asked for, the data is used as it is; with enough
    orbits the segment is used. *)
Theorem C35_off : forall sec level w is_time ref,
  use_segment sec level None w is_time ref = ([], Ok w) /\ use_segment sec level (Some 0%Q) w is_time ref = ([], Ok w).
Proof. exact use_segment_none. Qed.
Print Assumptions C35_off.
Theorem C35_short_data : forall sec level N w is_time ref p0 pn,
  ~ (N == 0)%Q -> nth_error (w_phase w) 0 = Some p0 -> nth_error (w_phase w) (length (w_phase w) - 1) = Some pn ->
  ((pn - p0) / (4 * np_pi) < N)%Q -> level = (-1)%Z \/ level = 0%Z \/ level = 1%Z ->
  snd (use_segment sec level (Some N) w is_time ref) = Ok w.
Proof. exact use_segment_short. Qed.
Print Assumptions C35_short_data.
Theorem C35_long_data : forall sec level N w is_time ref p0 pn,
  ~ (N == 0)%Q -> nth_error (w_phase w) 0 = Some p0 -> nth_error (w_phase w) (length (w_phase w) - 1) = Some pn ->
  (N <= (pn - p0) / (4 * np_pi))%Q ->
  snd (use_segment sec level (Some N) w is_time ref) = segments sec N w is_time ref.
Proof. exact use_segment_long. Qed.
Print Assumptions C35_long_data.

(** C35.  A reference frequency f is turned into a time as follows.  Samples i..j bracket the place where the frequency
    crosses 2 pi f.  When they span five orbits or more the samples i..j-1 are used, otherwise two and a half orbits are
    added on either side as far as there is data.  Of every step-th of these samples, with the fitted frequencies m at them,
    the time of the one with m nearest to 2 pi f is taken.  It is one of the sample times. *)
Theorem C35_frequency_reference : forall sec w n f t, samples_of w n -> approximate_tref sec w f = Ok t ->
  exists i j pi pj l r step ts ws m k,
    bracket (w_omega w) (2 * np_pi * f) i j /\ nth_error (w_phase w) i = Some pi /\ nth_error (w_phase w) j = Some pj /\
    ((5 <= (pj - pi) / (4 * np_pi))%Q -> l = i /\ r = j) /\
    (((pj - pi) / (4 * np_pi) < 5)%Q ->
       window_edge (w_phase w) (pi - (5 # 2) * 4 * np_pi) 0 l /\ window_edge (w_phase w) (pj + (5 # 2) * 4 * np_pi) (n - 1) r) /\
    1 <= step /\ thinned (w_t w) l r step ts /\ thinned (w_omega w) l r step ws /\
    sec ts ws = Ok m /\ nearest_to m (2 * np_pi * f) k /\ nth_error ts k = Some t.
Proof. exact approximate_ok. Qed.
Print Assumptions C35_frequency_reference.
Theorem C35_frequency_sample : forall sec w f t, approximate_tref sec w f = Ok t -> In t (w_t w).
Proof. exact approximate_in. Qed.
Print Assumptions C35_frequency_sample.
(** C35.  For reference frequencies the segment is cut around the times of the first and of the last of them. *)
Theorem C35_frequency_bounds : forall sec w ref a b f0 fn, reference_bounds sec w false ref = Ok (a, b) ->
  hd_error ref = Some f0 -> nth_error ref (length ref - 1) = Some fn ->
  approximate_tref sec w f0 = Ok a /\ approximate_tref sec w fn = Ok b.
Proof. exact frequency_bounds. Qed.
Print Assumptions C35_frequency_bounds.
Example C35_frequency_ex :
  approximate_tref (fun ts _ => Ok ts) (ramp 60) (55 / (2 * np_pi)) = Ok 55%Q /\
  reference_bounds (fun ts _ => Ok ts) (ramp 60) false [(52 / (2 * np_pi))%Q; (55 / (2 * np_pi))%Q] = Ok (52, 55)%Q.
Proof. vm_compute. auto. Qed.

(** Data meeting the hypotheses: 60 samples, 3 rad apart; two orbits around sample 30 are samples 25 to 34; a reference at
    the last sample gets all of the last part but that sample; and an unsorted reference list loses its middle entry.  ([ramp] is in SegmentLemmas.v.) *)
Example C35_ex :
  half_up 2 1 /\ samples_of (ramp 60) 60 /\
  (exists w', segments no_fit 2 (ramp 60) true [30%Q] = Ok w' /\ w_t w' = map (fun i => inject_Z (Z.of_nat i)) (seq 25 10)) /\
  (exists w', segments no_fit 2 (ramp 60) true [59%Q] = Ok w' /\ w_t w' = map (fun i => inject_Z (Z.of_nat i)) (seq 50 9)) /\
  (exists w', segments no_fit 2 (ramp 60) true [0%Q] = Ok w' /\ w_t w' = map (fun i => inject_Z (Z.of_nat i)) (seq 0 10)) /\
  (exists w', segments no_fit 2 (ramp 60) true [30%Q; 50%Q; 31%Q] = Ok w' /\ ~ In 50%Q (w_t w')) /\
  snd (use_segment no_fit 1 (Some 100%Q) (ramp 60) true [30%Q]) = Ok (ramp 60).
Proof. exact segment_ex. Qed.
Example C35_ex_increasing : increasing (w_t (ramp 60)) /\ increasing (w_phase (ramp 60)) /\ fine_phase (w_phase (ramp 60)).
Proof. exact (ramp_ok 60). Qed.
