(** Properties of the helpers around the measurement: comparison of two measurements (C56), truncation by frequency (C57),
    modes as columns (C58) and removal of junk (C59). *)
From Coq Require Import Lia Qabs.
From Verif Require Import Base BaseLemmas UtilsModel UtilsSpec MeasureModel DataModel InitModel InitSpec Toy InitToy FilterModel FilterSpec HelperModel HelperSpec
  CompareLemmas HelperLemmas HelperClaims.
Open Scope string_scope.
Open Scope nat_scope.

(** C56.  A comparison uses exactly the times from the latest of the lower bounds up to, but not including, the earliest of the
    upper bounds, the values of both measurements there, and the distances between them; anomalies are first made continuous. *)
Theorem C56_window : forall o1 o2 tmin tmax r, compute_errors_between_methods o1 o2 tmin tmax = Ok r ->
  exists lo hi t2 u1 u2, latest (ms_tmin o1 :: ms_tmin o2 :: given tmin) lo /\ earliest (ms_tmax o1 :: ms_tmax o2 :: given tmax) hi /\
    picked (from_until lo hi) (ms_tref_out o1) (ms_tref_out o1) (cp_t r) /\ picked (from_until lo hi) (ms_tref_out o2) (ms_tref_out o2) t2 /\ close_to (cp_t r) t2 /\
    picked (from_until lo hi) (ms_tref_out o1) (ms_ecc o1) (cp_ecc1 r) /\ picked (from_until lo hi) (ms_tref_out o2) (ms_ecc o2) (cp_ecc2 r) /\
    picked (from_until lo hi) (ms_tref_out o1) (ms_ano o1) (cp_ano1 r) /\ picked (from_until lo hi) (ms_tref_out o2) (ms_ano o2) (cp_ano2 r) /\
    pointwise distance (cp_ecc1 r) (cp_ecc2 r) (cp_ecc_errors r) /\
    unwrapped (cp_ano1 r) u1 /\ unwrapped (cp_ano2 r) u2 /\ pointwise distance u1 u2 (cp_ano_errors r).
Proof. exact compared. Qed.
Print Assumptions C56_window.
Example C56_window_ex : (do r <- compute_errors_between_methods hx_one hx_two None (Some 100%Q); Ok (cp_t r, map Qred (cp_ecc_errors r), map Qred (cp_ano_errors r))) =
  Ok ([2; 3; 4]%Q, [1 # 100; 0; 1 # 100]%Q, [0; 1 # 10; 0]%Q).
Proof. vm_compute. reflexivity. Qed.
(** C56.  "No common time" is raised if and only if the reference times agree and a given bound lies beyond the common window. *)
Theorem C56_raises : forall o1 o2 tmin tmax lo hi, latest (ms_tmin o1 :: ms_tmin o2 :: given tmin) lo -> earliest [ms_tmax o1; ms_tmax o2] hi ->
  (compute_errors_between_methods o1 o2 tmin tmax = Err GenericException <->
   close_to (ms_tref_in o1) (ms_tref_in o2) /\ ((exists x, tmin = Some x /\ (hi < x)%Q) \/ (exists x, tmax = Some x /\ (x < lo)%Q))).
Proof. exact compared_raises. Qed.
Print Assumptions C56_raises.
Example C56_raises_ex : compute_errors_between_methods hx_one hx_two (Some (11 # 2)) None = Err GenericException /\
  compute_errors_between_methods hx_one hx_two None (Some (3 # 2)) = Err GenericException.
Proof. split; vm_compute; reflexivity. Qed.
(** C56.  A measurement compared with itself gives errors that are all zero. *)
Theorem C56_self : forall o tmin tmax, well_formed o -> (forall x, tmin = Some x -> (x <= ms_tmax o)%Q) ->
  (forall x, tmax = Some x -> (ms_tmin o <= x)%Q /\ forall y, tmin = Some y -> (y <= x)%Q) ->
  exists r, compute_errors_between_methods o o tmin tmax = Ok r /\
    Forall (fun e => e == 0)%Q (cp_ecc_errors r) /\ Forall (fun e => e == 0)%Q (cp_ano_errors r).
Proof. exact compared_self_total. Qed.
Print Assumptions C56_self.
Example C56_self_ex : well_formed hx_one /\ (do r <- compute_errors_between_methods hx_one hx_one (Some 2%Q) None; Ok (cp_t r, map Qred (cp_ano_errors r))) = Ok ([2; 3; 4]%Q, [0; 0; 0]%Q).
Proof. split; [split; reflexivity|]. vm_compute. reflexivity. Qed.
(** C56.  The errors do not depend on the order of the two measurements. *)
Theorem C56_symmetric : forall o1 o2 tmin tmax r r', compute_errors_between_methods o1 o2 tmin tmax = Ok r -> compute_errors_between_methods o2 o1 tmin tmax = Ok r' ->
  close_to (cp_t r') (cp_t r) /\ Forall2 Qeq (cp_ecc_errors r) (cp_ecc_errors r') /\ Forall2 Qeq (cp_ano_errors r) (cp_ano_errors r').
Proof. exact compared_swapped. Qed.
Print Assumptions C56_symmetric.
Example C56_symmetric_ex : (do r <- compute_errors_between_methods hx_two hx_one None (Some 100%Q); Ok (cp_t r, map Qred (cp_ecc_errors r), map Qred (cp_ano_errors r))) =
  Ok ([2; 3; 4]%Q, [1 # 100; 0; 1 # 100]%Q, [0; 1 # 10; 0]%Q).
Proof. vm_compute. reflexivity. Qed.
(** C56, finding.  Two measurements without any common time, and no bounds given: no exception, but empty results. *)
Theorem C56_disjoint : forall o1 o2, well_formed o1 -> well_formed o2 -> close_to (ms_tref_in o1) (ms_tref_in o2) -> (ms_tmax o1 <= ms_tmin o2)%Q ->
  exists r, compute_errors_between_methods o1 o2 None None = Ok r /\ cp_t r = [] /\ cp_ecc_errors r = [] /\ cp_ano_errors r = [].
Proof. exact compared_disjoint. Qed.
Print Assumptions C56_disjoint.
Example C56_disjoint_ex : well_formed hx_one /\ well_formed hx_late /\ close_to (ms_tref_in hx_one) (ms_tref_in hx_late) /\ (ms_tmax hx_one <= ms_tmin hx_late)%Q.
Proof. split; [split; reflexivity|]. split; [split; reflexivity|]. split; [exact (close_refl _)|discriminate]. Qed.
(** C56.  Anomalies that agree up to whole turns at every compared time: the error is constant, the distance of the first two. *)
Theorem C56_turns : forall o1 o2 tmin tmax r, compute_errors_between_methods o1 o2 tmin tmax = Ok r ->
  (forall k a b, nth_error (cp_ano1 r) k = Some a -> nth_error (cp_ano2 r) k = Some b -> turns a b) -> no_half_turns (cp_ano1 r) ->
  forall a b, nth_error (cp_ano1 r) 0 = Some a -> nth_error (cp_ano2 r) 0 = Some b -> Forall (fun e => e == distance a b)%Q (cp_ano_errors r).
Proof. exact compared_turns. Qed.
Print Assumptions C56_turns.
Example C56_turns_ex : (do r <- compute_errors_between_methods hx_small hx_turn None None; Ok (map (fun e => Qeq_bool e (2 * np_pi)) (cp_ano_errors r))) = Ok [true; true; true].
Proof. vm_compute. reflexivity. Qed.
(** C56, finding.  So 0 and 2 pi are not treated as the same: two anomalies in [0, 2 pi) that are equal at a compared time can
    have an error of a whole turn there. *)
Theorem C56_turns_refuted : exists o1 o2 r e, well_formed o1 /\ well_formed o2 /\
  (forall x, In x (ms_ano o1) \/ In x (ms_ano o2) -> (0 <= x)%Q /\ (x < 2 * np_pi)%Q) /\ compute_errors_between_methods o1 o2 None None = Ok r /\
  nth_error (cp_ano1 r) 1 = nth_error (cp_ano2 r) 1 /\ nth_error (cp_ano_errors r) 1 = Some e /\ (e == 2 * np_pi)%Q.
Proof. exact turns_witness. Qed.
Print Assumptions C56_turns_refuted.

(** C57.  Every call of the truncation by frequency raises, whatever comes after the object is made: no waveform is ever
    truncated.  It reads and changes nothing. *)
Theorem C57_raises : forall C V X (L : library C V) (rest : object -> W X) m w,
  truncate_waveform_by_flow L rest None m w = (w, ([], Err ValueError)) /\
  (forall p, In m method_names -> truncate_waveform_by_flow L rest (Some p) m w = (w, ([], Err KeyError))) /\
  (forall p, ~ In m method_names -> truncate_waveform_by_flow L rest (Some p) m w = (w, ([], Err NameError))).
Proof. exact @truncation_claim. Qed.
Print Assumptions C57_raises.
Example C57_ex : truncate_waveform_by_flow in_lib (fun o => wret (o_method o)) (Some 0) "Amplitude" (in_world in_plain None) = (in_world in_plain None, ([], Err KeyError)) /\
  in_run "Amplitude" in_plain None (in_args (Some (RScalar 6)) None false) = Ok [("eccentricity", [5 # 31]); ("mean_anomaly", [0%Q]); ("tref_out", [6%Q])].
Proof. split; vm_compute; reflexivity. Qed.

(** C58.  There are (ell_max + 3)(ell_max - 1) columns; the mode (l, m) is in column l (l + 1) - ell_min^2 + m, and columns of
    no mode are zero. *)
Theorem C58_columns : forall K (zero : K) d a b cols, package_modes_for_scri zero d a b = Ok cols -> (0 <= a <= b)%Z ->
  exists h, mode_of d (2, 2)%Z h /\ Z.of_nat (length cols) = ((b + 3) * (b - 1))%Z /\
  (forall lm, in_range a b lm -> exists v c, mode_of d lm v /\ nth_error cols (column a lm) = Some c /\ length c = length h /\
     (length v = length h -> c = v) /\ (length v <> length h -> exists x, v = [x] /\ c = repeat x (length h))) /\
  (forall j c, nth_error cols j = Some c -> (forall lm, in_range a b lm -> column a lm <> j) -> c = repeat zero (length h)).
Proof. exact @package_ok. Qed.
Print Assumptions C58_columns.
Example C58_columns_ex : package_modes_for_scri 0%Q hx_modes 3 3 = Ok [[5; 5]; [6; 6]; [7; 7]; [8; 8]; [9; 9]; [10; 10]; [33; 33]; [0; 0]; [0; 0]; [0; 0]; [0; 0]; [0; 0]]%Q.
Proof. vm_compute. reflexivity. Qed.
(** C58.  Unpacking what was packed gives exactly the modes of the range. *)
Theorem C58_round_trip : forall K (zero : K) d a b n, (2 <= a <= b)%Z -> complete_modes d a b n ->
  exists cols r, package_modes_for_scri zero d a b = Ok cols /\ unpack_scri_modes cols a b = Ok r /\
    forall lm v, mode_of r lm v <-> in_range a b lm /\ mode_of d lm v.
Proof. exact @round_trip. Qed.
Print Assumptions C58_round_trip.
Example C58_round_trip_ex : complete_modes hx_modes 2 3 2 /\
  (do c <- package_modes_for_scri 0%Q hx_modes 2 3; do r <- unpack_scri_modes c 2 3; Ok (map fst r, mget r (3, 2)%Z)) =
    Ok ([(2, -2); (2, -1); (2, 0); (2, 1); (2, 2); (3, -3); (3, -2); (3, -1); (3, 0); (3, 1); (3, 2); (3, 3)]%Z, Ok [10; 10]%Q).
Proof. split; [exact hx_complete|]. vm_compute. reflexivity. Qed.
(** C58.  A missing mode of the range raises; a missing (2, 2) mode raises KeyError, even if it is not in the range. *)
Theorem C58_missing : forall K (zero : K) d a b h, (2 <= a <= b)%Z -> mode_of d (2, 2)%Z h -> (forall lm v, in_range a b lm -> mode_of d lm v -> length v = length h) ->
  (exists lm, in_range a b lm /\ forall v, ~ mode_of d lm v) -> package_modes_for_scri zero d a b = Err GenericException.
Proof. exact @package_missing. Qed.
Print Assumptions C58_missing.
Theorem C58_no_22 : forall K (zero : K) d a b, (forall v, ~ mode_of d (2, 2)%Z v) -> package_modes_for_scri zero d a b = Err KeyError.
Proof. exact @package_no22. Qed.
Print Assumptions C58_no_22.
Example C58_missing_ex : package_modes_for_scri 0%Q hx_modes 2 4 = Err GenericException /\ package_modes_for_scri 0%Q [((3, 3)%Z, [1%Q])] 3 3 = Err KeyError.
Proof. split; vm_compute; reflexivity. Qed.
(** C58, finding.  With ell_min below 2 and every mode there, packing raises IndexError: the columns are counted from ell = 2. *)
Theorem C58_small : forall K (zero : K) d a b n, (0 <= a < 2)%Z -> (a <= b)%Z -> (1 <= b)%Z -> complete_modes d a b n -> package_modes_for_scri zero d a b = Err IndexError.
Proof. exact @package_small. Qed.
Print Assumptions C58_small.
Example C58_small_ex : package_modes_for_scri 0%Q ([((1, -1)%Z, [1; 1]%Q); ((1, 0)%Z, [1; 1]%Q); ((1, 1)%Z, [1; 1]%Q)] ++ hx_modes)%list 1 2 = Err IndexError.
Proof. vm_compute. reflexivity. Qed.
(** C58.  For ell_min = ell_max = 2 this is the packing that the frame rotation of the measurement uses. *)
Theorem C58_rotation : forall K (zero : K) d, (forall h lm v, mode_of d (2, 2)%Z h -> in_range 2 2 lm -> mode_of d lm v -> length v = length h) ->
  package_modes_for_scri zero d 2 2 = package_ell2 (list K) d.
Proof. exact @package_two. Qed.
Print Assumptions C58_rotation.
Example C58_rotation_ex : package_modes_for_scri 0%Q hx_modes 2 2 = Ok [[1; 1]; [2; 2]; [3; 3]; [4; 4]; [22; 22]]%Q.
Proof. vm_compute. reflexivity. Qed.

(** C59.  Time and every mode lose the same first samples: those before the one whose phase is nearest to that many orbits. *)
Theorem C59_aligned : forall K (phase : list K -> list Q) t d n t' d', remove_junk phase t d n = Ok (t', d') ->
  exists h p0 i, mode_of d (2, 2)%Z h /\ nth_error (phase h) 0 = Some p0 /\ nearest (phase h) (p0 + n * 4 * np_pi) i /\ without_first i t d t' d'.
Proof. exact @removed. Qed.
Print Assumptions C59_aligned.
(** C59.  It succeeds on every nonempty waveform with a (2, 2) mode. *)
Theorem C59_total : forall K (phase : list K -> list Q) t d n h, mode_of d (2, 2)%Z h -> phase h <> [] -> exists r, remove_junk phase t d n = Ok r.
Proof. exact @removed_total. Qed.
Print Assumptions C59_total.
(** C59.  If the phase grows, every dropped sample lies before that many orbits, and all but the first kept one after them. *)
Theorem C59_dropped : forall K (phase : list K -> list Q) t d n t' d' h p0, remove_junk phase t d n = Ok (t', d') -> mode_of d (2, 2)%Z h -> increasing (phase h) ->
  nth_error (phase h) 0 = Some p0 ->
  exists i, without_first i t d t' d' /\ i < length (phase h) /\
    forall j p, nth_error (phase h) j = Some p -> (j < i -> (p < p0 + n * 4 * np_pi)%Q) /\ (i < j -> (p0 + n * 4 * np_pi < p)%Q).
Proof. exact removed_where. Qed.
Print Assumptions C59_dropped.
(** C59.  No orbits, or a negative number of them: nothing is dropped. *)
Theorem C59_none : forall K (phase : list K -> list Q) t d n t' d' h, remove_junk phase t d n = Ok (t', d') -> mode_of d (2, 2)%Z h -> increasing (phase h) -> (n <= 0)%Q ->
  t' = t /\ d' = d.
Proof. exact removed_none. Qed.
Print Assumptions C59_none.
(** C59, finding.  More orbits than there are: no exception, but a waveform of one sample. *)
Theorem C59_beyond : forall K (phase : list K -> list Q) t d n t' d' h p0 pn, remove_junk phase t d n = Ok (t', d') -> mode_of d (2, 2)%Z h -> increasing (phase h) ->
  nth_error (phase h) 0 = Some p0 -> nth_error (phase h) (length (phase h) - 1) = Some pn -> (pn <= p0 + n * 4 * np_pi)%Q ->
  length t = length (phase h) -> (forall lm v, mode_of d lm v -> length v = length (phase h)) ->
  length t' = 1 /\ forall lm v, mode_of d lm v -> exists v', mode_of d' lm v' /\ length v' = 1.
Proof. exact removed_beyond. Qed.
Print Assumptions C59_beyond.
Example C59_ex : mode_of hx_wave (2, 2)%Z [0; 6; 12; 18; 24; 30]%Q /\ increasing (hx_phase [0; 6; 12; 18; 24; 30]%Q) /\
  remove_junk hx_phase hx_times hx_wave 1 = Ok ([0; 1; 2; 3]%Q, [((2, 2)%Z, [12; 18; 24; 30]%Q); ((3, 3)%Z, [3; 4; 5; 6]%Q)]) /\
  remove_junk hx_phase hx_times hx_wave 0 = Ok (hx_times, hx_wave) /\
  remove_junk hx_phase hx_times hx_wave 9 = Ok ([3]%Q, [((2, 2)%Z, [30]%Q); ((3, 3)%Z, [6]%Q)]).
Proof. split; [reflexivity|]. split; [exact hx_increasing|]. split; [vm_compute; reflexivity|]. split; vm_compute; reflexivity. Qed.
(** C59.  With the black holes' coordinates: the time that many orbits take is found from their phase, and the samples up to that
    time, counted from time zero, are dropped. *)
Theorem C59_horizons : forall K t (d : mdict (list K)) n time ph t' d', remove_junk_horizons t d n time ph = Ok (t', d') -> increasing t -> increasing ph ->
  exists p0 j a b i, nth_error ph 0 = Some p0 /\ nth_error time j = Some a /\ nth_error time 0 = Some b /\
    (forall k p, nth_error ph k = Some p -> (k < j -> (p < p0 + n * 2 * np_pi)%Q) /\ (j < k -> (p0 + n * 2 * np_pi < p)%Q)) /\
    without_first i t d t' d' /\ i < length t /\ (forall k x, nth_error t k = Some x -> (k < i -> (x < a - b)%Q) /\ (i < k -> (a - b < x)%Q)).
Proof. exact removed_horizons_where. Qed.
Print Assumptions C59_horizons.
Example C59_horizons_ex : remove_junk_horizons hx_times hx_wave 1 [0; 1; 2; 3]%Q [0; 6; 12; 18]%Q = Ok ([1; 2; 3]%Q, [((2, 2)%Z, [18; 24; 30]%Q); ((3, 3)%Z, [4; 5; 6]%Q)]).
Proof. vm_compute. reflexivity. Qed.
