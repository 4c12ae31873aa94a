(** Property theorems about reading the waveform dictionary: which dictionaries are accepted (C03), truncation before merger
    (C30), what happens to the caller's objects (C31) and to a second call (C32), the data used for precessing systems
    (C33), units (C34) and the total amplitude (C60).
    [process_data_dict ... level precessing frame num p h] reads the caller's dictionary number p among the objects h; its
    value is the new state of the objects, the warnings, and the processed data or the exception.  The functions on
    complex arrays and the change of frame are arbitrary.  Vocabulary in DataSpec.v. *)
From Coq Require Import Reals Qreals Permutation.
From Verif Require Import Base UtilsModel UtilsSpec SegmentSpec DataModel DataSpec DataLemmas DataLemmas2 DataUnits DataTotal.
Open Scope string_scope.
Open Scope nat_scope.

(** C03.  A dictionary that mixes or lacks representations is rejected with Exception, and nothing is changed. *)
Theorem C03_rejected : forall C cabs cphase cpolar rotate qsqrt level precessing frame num p (h : heap C) d,
  is_dict h p d -> ~ one_representation d ->
  process_data_dict C cabs cphase cpolar rotate qsqrt level precessing frame num p h = (h, ([], Err GenericException)).
Proof. exact rejected. Qed.
Print Assumptions C03_rejected.
Example C03_rejected_ex : raises (ex_process false "inertial" None (ex_d [("amplm", 1); ("phaselm", 2); ("hlm", 4)])) = Some GenericException /\
  raises (ex_process false "inertial" None (ex_d [("amplm", 1)])) = Some GenericException.
Proof. vm_compute. auto. Qed.
(** C03.  An accepted dictionary has the time and exactly one representation. *)
Theorem C03_accepted : forall C cabs cphase cpolar rotate qsqrt level precessing frame num p (h h' : heap C) w r,
  process_data_dict C cabs cphase cpolar rotate qsqrt level precessing frame num p h = (h', (w, Ok r)) ->
  exists d, is_dict h p d /\ one_representation d /\ has d "t".
Proof. exact accepted. Qed.
Print Assumptions C03_accepted.
Example C03_accepted_ex : succeeds (ex_process false "inertial" None ex_real) = true /\ succeeds (ex_process true "inertial" None ex_cplx) = true.
Proof. vm_compute. auto. Qed.
(** C03.  Without the time the call raises; it raises Exception unless a change of frame is attempted first. *)
Theorem C03_no_time : forall C cabs cphase cpolar rotate qsqrt level precessing frame num p (h : heap C) d,
  is_dict h p d -> ~ has d "t" ->
  (exists e, snd (snd (process_data_dict C cabs cphase cpolar rotate qsqrt level precessing frame num p h)) = Err e) /\
  (precessing = false \/ frame <> "inertial" ->
   process_data_dict C cabs cphase cpolar rotate qsqrt level precessing frame num p h = (h, ([], Err GenericException))).
Proof. exact without_time. Qed.
Print Assumptions C03_no_time.
Example C03_no_time_ex : raises (ex_process false "inertial" None (skipn 1 ex_real)) = Some GenericException /\
  raises (ex_process true "inertial" None (skipn 1 ex_cplx)) = Some KeyError.
Proof. vm_compute. auto. Qed.

(** C30.  With a number n of orbits, everything is cut before one index: the sample whose phase is nearest to that at merger
    minus n orbits.  Nothing else differs from the result without truncation. *)
Theorem C30_cut : forall C cabs cphase cpolar rotate qsqrt level precessing frame n p (h h' : heap C) w r,
  process_data_dict C cabs cphase cpolar rotate qsqrt level precessing frame (Some n) p h = (h', (w, Ok r)) ->
  exists h0 r0 t ph i pm idx,
    process_data_dict C cabs cphase cpolar rotate qsqrt level precessing frame None p h = (h0, (w, Ok r0)) /\
    p_t_merger C r = p_t_merger C r0 /\ p_amp_merger C r = p_amp_merger C r0 /\ p_width C r = p_width C r0 /\
    (0 <= n)%Q /\ times_of (p_dict C r0) t /\ nearest_to t (p_t_merger C r0) i /\
    wave_phase h0 (p_dict C r0) precessing ph /\ nth_error ph i = Some pm /\ nearest_to ph (pm - wave_orbit * n) idx /\
    times_of (p_dict C r) (firstn idx t) /\
    (forall key m y, In key ["amplm"; "phaselm"; "omegalm"] ->
       (array_of h' (p_dict C r) key m y <-> exists x, array_of h0 (p_dict C r0) key m x /\ y = firstn idx x)) /\
    (forall key, ~ In key ["t"; "amplm"; "phaselm"; "omegalm"] -> slookup (p_dict C r) key = slookup (p_dict C r0) key).
Proof. exact truncated. Qed.
Print Assumptions C30_cut.
Example C30_cut_ex : ex_view (ex_process false "inertial" None ex_real) = Some (40%Q, 3%Z, 48) /\
  ex_view (ex_process false "inertial" (Some 1%Q) ex_real) = Some (40%Q, 3%Z, 27).
Proof. vm_compute. auto. Qed.
(** C30.  Arrays of equal lengths have equal lengths after the cut. *)
Theorem C30_equal_lengths : forall C cabs cphase cpolar rotate qsqrt level precessing frame n p (h h' : heap C) w r h0 w0 r0 N,
  process_data_dict C cabs cphase cpolar rotate qsqrt level precessing frame (Some n) p h = (h', (w, Ok r)) ->
  process_data_dict C cabs cphase cpolar rotate qsqrt level precessing frame None p h = (h0, (w0, Ok r0)) ->
  same_length h0 (p_dict C r0) N -> exists idx, idx < N /\ same_length h' (p_dict C r) idx.
Proof. exact aligned. Qed.
Print Assumptions C30_equal_lengths.
Example C30_equal_lengths_ex : lengths (ex_process false "inertial" None ex_omega) = repeat 48 16 /\
  lengths (ex_process false "inertial" (Some 1%Q) ex_omega) = repeat 27 16.
Proof. vm_compute. auto. Qed.
(** C30.  A negative number of orbits is refused. *)
Theorem C30_negative : forall C cabs cphase cpolar rotate qsqrt level precessing frame n p (h h0 : heap C) w0 r0,
  process_data_dict C cabs cphase cpolar rotate qsqrt level precessing frame None p h = (h0, (w0, Ok r0)) ->
  (n < 0)%Q ->
  process_data_dict C cabs cphase cpolar rotate qsqrt level precessing frame (Some n) p h = (h0, (w0, Err ValueError)).
Proof. exact negative. Qed.
Print Assumptions C30_negative.
Example C30_negative_ex : raises (ex_process false "inertial" (Some (- (1))%Q) ex_real) = Some ValueError.
Proof. vm_compute. auto. Qed.
(** C30.  More orbits than there are raise Exception; no more succeed. *)
Theorem C30_too_many : forall C cabs cphase cpolar rotate qsqrt level precessing frame n p (h h0 : heap C) w0 r0,
  process_data_dict C cabs cphase cpolar rotate qsqrt level precessing frame None p h = (h0, (w0, Ok r0)) -> (0 <= n)%Q ->
  exists t ph i pm p0, times_of (p_dict C r0) t /\ nearest_to t (p_t_merger C r0) i /\
    wave_phase h0 (p_dict C r0) precessing ph /\ nth_error ph i = Some pm /\ nth_error ph 0 = Some p0 /\
    ((pm - wave_orbit * n < p0)%Q ->
     process_data_dict C cabs cphase cpolar rotate qsqrt level precessing frame (Some n) p h = (h0, (w0, Err GenericException))) /\
    ((p0 <= pm - wave_orbit * n)%Q ->
     exists h' r, process_data_dict C cabs cphase cpolar rotate qsqrt level precessing frame (Some n) p h = (h', (w0, Ok r))).
Proof. exact too_many. Qed.
Print Assumptions C30_too_many.
Example C30_too_many_ex : raises (ex_process false "inertial" (Some 4%Q) ex_real) = Some GenericException /\
  succeeds (ex_process false "inertial" (Some 3%Q) ex_real) = true.
Proof. vm_compute. auto. Qed.

(** C31.  The caller's dictionaries stay as they are, also when an exception is raised, unless omegalm is given together with
    a truncation, or precessing inertial-frame data is given as amplitudes and phases. *)
Theorem C31_unchanged : forall C cabs cphase cpolar rotate qsqrt level precessing frame num p (h : heap C) d,
  is_dict h p d ->
  (precessing = true -> frame = "inertial" -> has d "hlm") ->
  num = None \/ ~ has d "omegalm" \/ (precessing = true /\ frame = "inertial") ->
  fst (process_data_dict C cabs cphase cpolar rotate qsqrt level precessing frame num p h) = h.
Proof. exact process_same. Qed.
Print Assumptions C31_unchanged.
Example C31_unchanged_ex : fst (ex_process true "inertial" (Some 1%Q) ex_cplx) = ex_heap ex_cplx /\ succeeds (ex_process true "inertial" (Some 1%Q) ex_cplx) = true.
Proof. vm_compute. auto. Qed.
(** C31.  First exception: the caller's omegalm modes are cut in place. *)
Theorem C31_omegalm_shortened : forall C cabs cphase cpolar rotate qsqrt level precessing frame n p (h h' : heap C) w r d q ms,
  is_dict h p d -> precessing = false \/ frame <> "inertial" ->
  slookup d "omegalm" = Some (VRef C q) -> nth_error h q = Some (OReal C ms) ->
  process_data_dict C cabs cphase cpolar rotate qsqrt level precessing frame (Some n) p h = (h', (w, Ok r)) ->
  exists h0 w0 r0, process_data_dict C cabs cphase cpolar rotate qsqrt level precessing frame None p h = (h0, (w0, Ok r0)) /\ h0 = h /\
    forall N, same_length h (p_dict C r0) N ->
    exists idx ms', idx < N /\ nth_error h' q = Some (OReal C ms') /\
      (forall m x, dlookup mode_eqb ms m = Some x -> dlookup mode_eqb ms' m = Some (firstn idx x) /\ length (firstn idx x) < length x).
Proof. exact omegalm_shortened. Qed.
Print Assumptions C31_omegalm_shortened.
Example C31_omegalm_shortened_ex : nth_error (fst (ex_process false "inertial" (Some 1%Q) ex_omega)) 3 = Some (OReal ex_c (cut_modes 27 (both neg ex_om))).
Proof. vm_compute. auto. Qed.
(** C31.  Second exception: hlm is added to the caller's dictionary (and hlm_zeroecc, if that data is there). *)
Theorem C31_hlm_added : forall C cabs cphase cpolar rotate qsqrt level num p (h h' : heap C) w r d,
  is_dict h p d -> ~ has d "hlm" ->
  process_data_dict C cabs cphase cpolar rotate qsqrt level true "inertial" num p h = (h', (w, Ok r)) ->
  exists d2, is_dict h' p d2 /\ has d2 "hlm" /\
    (forall k, k <> "hlm" -> k <> "hlm_zeroecc" -> slookup d2 k = slookup d k) /\
    (forall q, q <> p -> nth_error h' q = nth_error h q).
Proof. exact hlm_added. Qed.
Print Assumptions C31_hlm_added.
Example C31_hlm_added_ex : match nth_error (fst (ex_process true "inertial" None ex_real)) 0 with Some (OTop _ d) => smem d "hlm" | _ => false end = true /\
  smem ex_real "hlm" = false.
Proof. vm_compute. auto. Qed.

(** C32.  Where the dictionary stays unchanged, the next call does the same. *)
Theorem C32_same_dictionary : forall C cabs cphase cpolar rotate qsqrt level precessing frame num p (h : heap C) d,
  is_dict h p d ->
  (precessing = true -> frame = "inertial" -> has d "hlm") ->
  num = None \/ ~ has d "omegalm" \/ (precessing = true /\ frame = "inertial") ->
  let call := process_data_dict C cabs cphase cpolar rotate qsqrt level precessing frame num p in
  call (fst (call h)) = call h.
Proof. exact second_same. Qed.
Print Assumptions C32_same_dictionary.
(** C32.  With precessing inertial-frame amplitudes and phases, every further call with the dictionary raises. *)
Theorem C32_second_call_rejected : forall C cabs cphase cpolar rotate qsqrt level num p (h h' : heap C) w r d num' level' precessing' frame',
  is_dict h p d -> ~ has d "hlm" ->
  process_data_dict C cabs cphase cpolar rotate qsqrt level true "inertial" num p h = (h', (w, Ok r)) ->
  process_data_dict C cabs cphase cpolar rotate qsqrt level' precessing' frame' num' p h' = (h', ([], Err GenericException)).
Proof. exact second_call_rejected. Qed.
Print Assumptions C32_second_call_rejected.
Example C32_second_call_rejected_ex : succeeds (ex_process true "inertial" None ex_real) = true /\ smem ex_real "hlm" = false.
Proof. vm_compute. auto. Qed.
(** C32.  With omegalm and a truncation, every further call with the dictionary raises IndexError when the phase increases. *)
Theorem C32_omegalm_second : forall C cabs cphase cpolar rotate qsqrt level precessing frame n p (h h' : heap C) w r d q ms level' num',
  is_dict h p d -> precessing = false \/ frame <> "inertial" ->
  slookup d "omegalm" = Some (VRef C q) -> (forall k, slookup d k = Some (VRef C q) -> k = "omegalm") -> nth_error h q = Some (OReal C ms) ->
  process_data_dict C cabs cphase cpolar rotate qsqrt level precessing frame (Some n) p h = (h', (w, Ok r)) ->
  (forall ph, (exists r0 w0, process_data_dict C cabs cphase cpolar rotate qsqrt level precessing frame None p h = (h, (w0, Ok r0)) /\
                             wave_phase h (p_dict C r0) precessing ph) -> increasing ph) ->
  process_data_dict C cabs cphase cpolar rotate qsqrt level' precessing frame num' p h' = (h', ([], Err IndexError)).
Proof. exact omegalm_second. Qed.
Print Assumptions C32_omegalm_second.
Example C32_omegalm_second_ex : succeeds (ex_process false "inertial" (Some 1%Q) ex_omega) = true /\
  raises (process_data_dict ex_c fst snd (fun a p => Ok (a, p)) (fun _ cols => Ok cols) (fun x => x) 1 false "inertial" None 0
            (fst (ex_process false "inertial" (Some 1%Q) ex_omega))) = Some IndexError.
Proof. vm_compute. auto. Qed.

(** C33.  The data used: combinations of the (2,2) and (2,-2) modes for precessing systems, else those of the (2,2) mode. *)
Theorem C33_data_used : forall C (h : heap C) precessing d A P O,
  get_amp_phase_omega_gw C h precessing d "" = Ok (A, P, O) ->
  if precessing then
    combined h d "amplm" (fun x y => (1 # 2) * (x + y))%Q A /\ combined h d "phaselm" (fun x y => (1 # 2) * (x - y))%Q P /\
    combined h d "omegalm" (fun x y => (1 # 2) * (x - y))%Q O
  else array_of h d "amplm" (2, 2)%Z A /\ array_of h d "phaselm" (2, 2)%Z P /\ array_of h d "omegalm" (2, 2)%Z O.
Proof. exact gw_combined. Qed.
Print Assumptions C33_data_used.
(** C33.  Declaring a reflection-symmetric system precessing in the coprecessing frame changes neither the data used ... *)
Theorem C33_symmetric_data : forall C (h : heap C) d A P O, reflection_symmetric h d ->
  get_amp_phase_omega_gw C h false d "" = Ok (A, P, O) ->
  exists A' P' O', get_amp_phase_omega_gw C h true d "" = Ok (A', P', O') /\ Forall2 Qeq A A' /\ Forall2 Qeq P P' /\ Forall2 Qeq O O'.
Proof. exact symmetric_data. Qed.
Print Assumptions C33_symmetric_data.
(** C33.  ... nor the processed dictionary, merger time, merger amplitude, width, warnings or exception. *)
Theorem C33_symmetric : forall C cabs cphase cpolar rotate qsqrt level frame frame' num p (h h0 : heap C) w r0,
  process_data_dict C cabs cphase cpolar rotate qsqrt level false frame' None p h = (h0, (w, Ok r0)) ->
  reflection_symmetric h (p_dict C r0) -> frame <> "inertial" ->
  let P := process_data_dict C cabs cphase cpolar rotate qsqrt level true frame num p h in
  let S := process_data_dict C cabs cphase cpolar rotate qsqrt level false frame' num p h in
  fst P = fst S /\ fst (snd P) = fst (snd S) /\
  match snd (snd P), snd (snd S) with
  | Ok x, Ok y => p_dict C x = p_dict C y /\ (p_t_merger C x == p_t_merger C y)%Q /\ (p_amp_merger C x == p_amp_merger C y)%Q /\ p_width C x = p_width C y
  | Err e, Err e' => e = e'
  | _, _ => False
  end.
Proof. exact symmetric_same. Qed.
Print Assumptions C33_symmetric.
Example C33_ex : ex_view (ex_process true "coprecessing" (Some 1%Q) ex_omega) = Some (40%Q, 3%Z, 27) /\
  exists h0 w r0, ex_process false "inertial" None ex_omega = (h0, (w, Ok r0)) /\ reflection_symmetric (ex_heap ex_omega) (p_dict ex_c r0).
Proof. split; [vm_compute; reflexivity|exact ex_symmetric]. Qed.

(** C34.  The width does not depend on the unit and origin of time nor on the origin of the phase. *)
Theorem C34_width : forall a b c t t' ph ph' pm pm', (0 < a)%Q ->
  Forall2 (fun x y => y == a * x + b)%Q t t' -> Forall2 (fun x y => y == x + c)%Q ph ph' -> (pm' == pm + c)%Q ->
  width_from_phase t' ph' pm' = width_from_phase t ph pm.
Proof. exact width_rescaled. Qed.
Print Assumptions C34_width.
Example C34_width_ex : width_from_phase (map (fun x => 3 * x - 100)%Q ex_t) (map (fun x => x + 2)%Q ex_ph) 42 = Ok 3%Z /\ width_from_phase ex_t ex_ph 40 = Ok 3%Z.
Proof. vm_compute. auto. Qed.
(** C34.  The whole processing follows a change of the unit and origin of time: the merger time and the times kept change
    accordingly, frequencies are divided by the factor, and the rest including the width stays. *)
Theorem C34_retimed : forall C cabs cphase cpolar rotate qsqrt level precessing frame num p (h h1 : heap C) w r d t t' a b,
  process_data_dict C cabs cphase cpolar rotate qsqrt level precessing frame num p h = (h1, (w, Ok r)) ->
  is_dict h p d -> times_of d t -> ~ has d "omegalm" -> precessing = false \/ frame <> "inertial" -> increasing t ->
  (forall am m x, amplm_for C cabs h d "" = Ok am -> In (m, x) am -> length x = length t) ->
  (0 < a)%Q -> Forall2 (fun x y => y == a * x + b)%Q t t' ->
  let h' := set_nth h p (OTop C (sset d "t" (VArr C t'))) in
  h1 = h /\ exists r', process_data_dict C cabs cphase cpolar rotate qsqrt level precessing frame num p h' = (h', (w, Ok r')) /\
    (p_t_merger C r' == a * p_t_merger C r + b)%Q /\ (p_amp_merger C r' == p_amp_merger C r)%Q /\ p_width C r' = p_width C r /\
    (exists u u', times_of (p_dict C r) u /\ times_of (p_dict C r') u' /\ Forall2 (fun x y => y == a * x + b)%Q u u') /\
    (forall m x, array_of h (p_dict C r) "omegalm" m x ->
       exists y, array_of h' (p_dict C r') "omegalm" m y /\ Forall2 (fun x y => y == x / a)%Q x y) /\
    (forall key, key <> "t" -> key <> "omegalm" -> slookup (p_dict C r') key = slookup (p_dict C r) key).
Proof. exact retimed. Qed.
Print Assumptions C34_retimed.
Example C34_retimed_ex : ex_view (ex_process false "inertial" (Some 1%Q) (sset ex_real "t" (VArr ex_c (map (fun x => 2 * x + 5)%Q ex_t)))) = Some (85%Q, 3%Z, 27).
Proof. vm_compute. auto. Qed.

(** C60.  The total amplitude is the square root of a sum s_k; the exact root of s_k is non-negative, at least the
    amplitude of each mode, and zero iff all amplitudes are.  ([qsqrt] is numpy's square root, any function.) *)
Theorem C60_total : forall C cabs qsqrt data_type d r, amplitude_using_all_modes C cabs qsqrt data_type d = Ok r ->
  exists s, r = map qsqrt s /\ forall k v, nth_error s k = Some v ->
    (v == sum_sq (map (fun kx => amps cabs data_type (snd kx)) d) k)%Q /\
    let A := sqrt (Q2R v) in
    (0 <= A)%R /\ (forall kx y, In kx d -> nth_error (amps cabs data_type (snd kx)) k = Some y -> (Rabs (Q2R y) <= A)%R) /\
    (A = 0%R <-> forall kx y, In kx d -> nth_error (amps cabs data_type (snd kx)) k = Some y -> (y == 0)%Q).
Proof. exact total_real. Qed.
Print Assumptions C60_total.
Theorem C60_succeeds : forall C cabs qsqrt data_type d n, d <> [] -> data_type = "hlm" \/ data_type = "amplm" ->
  (forall kx, In kx d -> length (amps cabs data_type (snd kx)) = n /\ (data_type = "hlm" \/ exists a, snd kx = inr a)) ->
  exists r, amplitude_using_all_modes C cabs qsqrt data_type d = Ok r.
Proof. exact total_exists. Qed.
Print Assumptions C60_succeeds.
Theorem C60_order : forall C cabs qsqrt data_type d d' r r', Permutation d d' -> (forall x y, x == y -> qsqrt x == qsqrt y)%Q ->
  amplitude_using_all_modes C cabs qsqrt data_type d = Ok r -> amplitude_using_all_modes C cabs qsqrt data_type d' = Ok r' -> Forall2 Qeq r r'.
Proof. exact total_order. Qed.
Print Assumptions C60_order.
Theorem C60_other_kind : forall C cabs qsqrt data_type d, data_type <> "hlm" -> data_type <> "amplm" -> d <> [] ->
  amplitude_using_all_modes C cabs qsqrt data_type d = Err KeyError.
Proof. exact total_bad. Qed.
Print Assumptions C60_other_kind.
Example C60_ex : amplitude_using_all_modes ex_c fst (fun x => x) "amplm" [((2, 2)%Z, inr [3; 0]%Q); ((3, 3)%Z, inr [4; 1]%Q)] = Ok [25; 1]%Q.
Proof. vm_compute. auto. Qed.
