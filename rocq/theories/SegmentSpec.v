(** Vocabulary for the properties of the short-segment option, written without the functions of the model. *)
From Verif Require Import Base SegmentModel.
Open Scope nat_scope.

(** the four arrays of a waveform have n samples each *)
Definition samples_of (w : wave) (n : nat) : Prop :=
  length (w_t w) = n /\ length (w_amp w) = n /\ length (w_phase w) = n /\ length (w_omega w) = n.
(** [w'] consists of the samples a, a+1, ..., b-1 of [w]: the same ones of each of the four arrays *)
Definition part_of (w : wave) (a b : nat) (w' : wave) : Prop :=
  samples_of w' (b - a) /\
  forall k, k < b - a ->
    nth_error (w_t w') k = nth_error (w_t w) (a + k) /\ nth_error (w_amp w') k = nth_error (w_amp w) (a + k) /\
    nth_error (w_phase w') k = nth_error (w_phase w) (a + k) /\ nth_error (w_omega w') k = nth_error (w_omega w) (a + k).
(** the i-th entry of [l] is one of those nearest to x *)
Definition nearest_to (l : list Q) (x : Q) (i : nat) : Prop :=
  exists y, nth_error l i = Some y /\ forall k z, nth_error l k = Some z -> (Qabs (y - x) <= Qabs (z - x))%Q.
(** phase advance allotted to one orbit: 4 pi, times 1.1 for pericenter advance *)
Definition orbit : Q := (44 # 10) * np_pi.
(** [h] is N/2 rounded up *)
Definition half_up (N : Q) (h : Z) : Prop := (inject_Z h - 1 < N / 2 <= inject_Z h)%Q.
(** consecutive phases are less than one orbit apart *)
Definition fine_phase (phase : list Q) : Prop :=
  forall k p q, nth_error phase k = Some p -> nth_error phase (S k) = Some q -> (q - p < orbit)%Q.
(** [ts] consists of the entries l, l + step, l + 2 step, ... of [t] that come before entry r *)
Definition thinned (t : list Q) (l r step : nat) (ts : list Q) : Prop :=
  forall k, nth_error ts k = if l + k * step <? r then nth_error t (l + k * step) else None.
(** the first and the last entry with a property *)
Definition first_with (P : Q -> Prop) (l : list Q) (i : nat) : Prop :=
  (exists x, nth_error l i = Some x /\ P x) /\ forall k y, nth_error l k = Some y -> P y -> i <= k.
Definition last_with (P : Q -> Prop) (l : list Q) (i : nat) : Prop :=
  (exists x, nth_error l i = Some x /\ P x) /\ forall k y, nth_error l k = Some y -> P y -> k <= i.
(** i is the first sample at or above x and j the last one at or below x; if there is no sample on one side, both are the
    one found on the other side *)
Definition bracket (omega : list Q) (x : Q) (i j : nat) : Prop :=
  (first_with (fun y => x <= y)%Q omega i /\ last_with (fun y => y <= x)%Q omega j) \/
  (first_with (fun y => x <= y)%Q omega i /\ i = j /\ forall y, In y omega -> (x < y)%Q) \/
  (last_with (fun y => y <= x)%Q omega j /\ i = j /\ forall y, In y omega -> (y < x)%Q).
(** two samples have phase v or more *)
Definition two_beyond (phase : list Q) (v : Q) : Prop :=
  exists k k' y y', k < k' /\ nth_error phase k = Some y /\ nth_error phase k' = Some y' /\ (v <= y /\ v <= y')%Q.
(** where the fit window starts: the first sample with phase at least v, if two samples have it; else at the start *)
Definition window_edge (phase : list Q) (v : Q) (otherwise l : nat) : Prop :=
  (two_beyond phase v -> first_with (fun y => v <= y)%Q phase l) /\ (~ two_beyond phase v -> l = otherwise).
