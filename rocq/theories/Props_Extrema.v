(** Property theorems about the clean-up of extrema (C11-C15). *)
From Verif Require Import Base BaseLemmas UtilsModel UtilsLemmas ExtremaModel ExtremaSpec ExtremaLemmas.
Open Scope string_scope. Open Scope list_scope. Open Scope nat_scope.

(** Example data: a phase growing by 4 pi per sample, sample k having phase 4 pi k. *)
Definition ramp (n : nat) : list Q := map (fun i => (four_pi * inject_Z (Z.of_nat i))%Q) (seq 0 n).
Definition ramp_fine (n : nat) : list Q := map (fun i => (2 * np_pi * inject_Z (Z.of_nat i))%Q) (seq 0 n).
Lemma ramp_inc : phase_increasing (ramp 40) /\ phase_increasing (ramp_fine 40).
Proof. split; apply all_increasing_iff; vm_compute; reflexivity. Qed.

(** C11.  Whatever the phase values and the debug level: if the clean-up returns, its results are
    contiguous blocks of the detected extrema in the same order. *)
Theorem C11_contiguous : forall level phase p a p' a', sorted p -> sorted a ->
  snd (get_good_extrema level phase p a) = Ok (p', a') ->
  block_of p' p /\ block_of a' a /\ sorted p' /\ sorted a'.
Proof. exact good_block. Qed.
Print Assumptions C11_contiguous.

(** C11, C12.  For strictly increasing phase and non-empty increasing lists of sample positions, at the
    debug levels that do not turn warnings into errors: the clean-up succeeds, both results are
    non-empty contiguous blocks of the inputs (nothing reordered, invented or removed from the
    middle), and at each end of the data at most one extremum of one kind lies beyond the outermost
    extremum of the other kind. *)
Theorem C11_C12_good_extrema : forall level phase p a,
  quiet level -> phase_increasing phase -> sorted p -> sorted a -> p <> [] -> a <> [] ->
  Forall (fun i => i < length phase) p -> Forall (fun i => i < length phase) a ->
  exists p' a' pf pl af al,
    snd (get_good_extrema level phase p a) = Ok (p', a') /\
    block_of p' p /\ block_of a' a /\
    get p' 0 = Ok pf /\ last_of p' = Ok pl /\ get a' 0 = Ok af /\ last_of a' = Ok al /\
    count (fun x => al <? x) p' <= 1 /\ count (fun x => pl <? x) a' <= 1 /\
    count (fun x => x <? af) p' <= 1 /\ count (fun x => x <? pf) a' <= 1.
Proof. exact good_spec. Qed.
Print Assumptions C11_C12_good_extrema.
Example C11_C12_ex :
  snd (get_good_extrema 1 (ramp_fine 40) [0; 2; 4; 8; 12; 16; 20; 24] [10; 14; 18; 28; 32])
  = Ok ([8; 12; 16; 20; 24], [10; 14; 18; 28]).
Proof. vm_compute. reflexivity. Qed.

(** C11.  With no extremum of one kind the clean-up raises IndexError. *)
Theorem C11_empty_raises : forall level phase p a,
  quiet level -> phase_increasing phase -> sorted p -> sorted a ->
  Forall (fun i => i < length phase) p -> Forall (fun i => i < length phase) a ->
  p = [] \/ a = [] -> snd (get_good_extrema level phase p a) = Err IndexError.
Proof. exact good_empty. Qed.
Print Assumptions C11_empty_raises.

(** C12.  Lists that satisfy the end conditions already come back unchanged. *)
Theorem C12_fixed_point : forall level p a pf pl af al, quiet level -> sorted p -> sorted a ->
  get p 0 = Ok pf -> last_of p = Ok pl -> get a 0 = Ok af -> last_of a = Ok al ->
  count (fun x => al <? x) p <= 1 -> count (fun x => pl <? x) a <= 1 ->
  count (fun x => x <? af) p <= 1 -> count (fun x => x <? pf) a <= 1 ->
  snd (drop_extra_extrema_at_ends level p a) = Ok (p, a).
Proof. exact ends_fixed. Qed.
Print Assumptions C12_fixed_point.
Example C12_fixed_point_ex :
  snd (drop_extra_extrema_at_ends 0 [4; 8; 12] [6; 10; 14]) = Ok ([4; 8; 12], [6; 10; 14]) /\
  snd (drop_extra_extrema_at_ends 0 [1; 2; 4; 8; 12] [6; 10; 14; 15; 16]) = Ok ([4; 8; 12], [6; 10; 14]).
Proof. split; reflexivity. Qed.

(** C13.  Exactly what is dropped: the result is the slice [s, e) of the input where e and s are the
    cuts named in ExtremaSpec. *)
Theorem C13_jumps : forall level phase loc,
  quiet level -> phase_increasing phase -> sorted loc -> Forall (fun i => i < length phase) loc ->
  exists s e, snd (drop_extrema_if_extrema_jumps level phase loc max_ratio) = Ok (slice loc s e) /\
    jump_end phase loc e /\ jump_start phase loc s.
Proof. exact jumps_spec. Qed.
Print Assumptions C13_jumps.
Theorem C13_unchanged : forall level phase loc,
  quiet level -> phase_increasing phase -> sorted loc -> Forall (fun i => i < length phase) loc ->
  (forall k, ~ jump_up phase loc k) -> (forall k, ~ jump_down phase loc k) ->
  snd (drop_extrema_if_extrema_jumps level phase loc max_ratio) = Ok loc.
Proof. exact jumps_unchanged. Qed.
Print Assumptions C13_unchanged.
(** C13.  If the first too-wide step is in the second half, no too-wide step is left afterwards. *)
Theorem C13_end_clean : forall level phase loc f,
  quiet level -> phase_increasing phase -> sorted loc -> Forall (fun i => i < length phase) loc ->
  first_with (jump_up phase loc) f -> (length loc - 2) / 2 < f ->
  exists out, snd (drop_extrema_if_extrema_jumps level phase loc max_ratio) = Ok out /\
    forall k, ~ jump_up phase out k.
Proof. exact jumps_end_cut. Qed.
Print Assumptions C13_end_clean.
(** C13.  The same claim for the start of the data is false, and not by accident: whenever the start
    is cut, the too-wide first gap is still the first gap of the result (the docstring keeps the
    extrema from the (i+1)-th on, the code keeps them from the i-th on). *)
Theorem C13_start_jump_survives : forall level phase loc l,
  quiet level -> phase_increasing phase -> sorted loc -> Forall (fun i => i < length phase) loc ->
  last_with (jump_down phase loc) l -> l < (length loc - 2) / 2 ->
  exists out, snd (drop_extrema_if_extrema_jumps level phase loc max_ratio) = Ok out /\
    jump_down phase out 0.
Proof. exact jumps_start_cut. Qed.
Print Assumptions C13_start_jump_survives.
Example C13_ex :
  (* too-wide gap near the end, and near the start *)
  snd (drop_extrema_if_extrema_jumps 1 (ramp_fine 40) [0; 2; 4; 6; 8; 10; 16; 18] max_ratio)
    = Ok [0; 2; 4; 6; 8; 10] /\
  snd (drop_extrema_if_extrema_jumps 1 (ramp_fine 40) [0; 2; 8; 10; 12; 14; 16; 18] max_ratio)
    = Ok [2; 8; 10; 12; 14; 16; 18].
Proof. split; vm_compute; reflexivity. Qed.

(** C14.  Exactly what is dropped. *)
Theorem C14_too_close : forall level phase loc m,
  quiet level -> sorted loc -> Forall (fun i => i < length phase) loc ->
  exists s e, snd (drop_extrema_if_too_close level phase loc m) = Ok (slice loc s e) /\
    close_end phase loc m e /\ close_start phase loc m s.
Proof. exact close_spec. Qed.
Print Assumptions C14_too_close.
Theorem C14_unchanged : forall level phase loc m,
  quiet level -> sorted loc -> Forall (fun i => i < length phase) loc ->
  (forall k, ~ close_pair phase loc m k) ->
  snd (drop_extrema_if_too_close level phase loc m) = Ok loc.
Proof. exact close_unchanged. Qed.
Print Assumptions C14_unchanged.
Theorem C14_end_clean : forall level phase loc m f,
  quiet level -> sorted loc -> Forall (fun i => i < length phase) loc ->
  first_with (close_pair phase loc m) f -> (length loc - 1) / 2 < f ->
  exists out, snd (drop_extrema_if_too_close level phase loc m) = Ok out /\
    forall k, ~ close_pair phase out m k.
Proof. exact close_end_cut. Qed.
Print Assumptions C14_end_clean.
(** C14.  At the start the close pair is never removed: it is the first pair of the result. *)
Theorem C14_start_pair_survives : forall level phase loc m l,
  quiet level -> sorted loc -> Forall (fun i => i < length phase) loc ->
  last_with (close_pair phase loc m) l -> l < (length loc - 1) / 2 ->
  exists out, snd (drop_extrema_if_too_close level phase loc m) = Ok out /\ close_pair phase out m 0.
Proof. exact close_start_cut. Qed.
Print Assumptions C14_start_pair_survives.
(** The two examples of the docstring (indices two apart are one orbit apart).  The first is as
    documented; the second should give [4; 6; 8; 10; 12]. *)
Example C14_docstring_end :
  snd (drop_extrema_if_too_close 1 (ramp_fine 40) [1; 3; 5; 7; 9; 11; 12; 14] four_pi)
    = Ok [1; 3; 5; 7; 9; 11].
Proof. vm_compute. reflexivity. Qed.
Example C14_docstring_start_refuted :
  snd (drop_extrema_if_too_close 1 (ramp_fine 40) [1; 3; 4; 6; 8; 10; 12] four_pi)
    = Ok [3; 4; 6; 8; 10; 12].
Proof. vm_compute. reflexivity. Qed.

(** C15. *)
Theorem C15_midpoints : forall p, sorted p ->
  let a := get_apocenters_from_pericenters p in
  length a = length p - 1 /\ sorted a /\
  forall k m x y, nth_error a k = Some m -> nth_error p k = Some x -> nth_error p (S k) = Some y ->
    x <= m /\ m < y /\ (x + 1 < y -> x < m) /\ (2 * m = x + y \/ 2 * m + 1 = x + y).
Proof. exact apo_spec. Qed.
Print Assumptions C15_midpoints.
Example C15_midpoints_ex : get_apocenters_from_pericenters [3; 8; 11; 12] = [5; 9; 11].
Proof. reflexivity. Qed.
