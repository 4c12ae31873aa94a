(** Specification vocabulary for extrema lists. *)
From Coq Require Import Sorted.
From Verif Require Import Base.
Open Scope nat_scope.

(** The debug levels at which warnings never become exceptions. *)
Definition quiet (level : Z) : Prop := In level [-1; 0; 1]%Z.

Definition sorted (l : list nat) : Prop := StronglySorted lt l.
(** [out] is a contiguous block of [l]: only a prefix and a suffix were removed. *)
Definition block_of {A} (out l : list A) : Prop := exists pre post, l = pre ++ out ++ post.
(** number of elements of l satisfying p *)
Definition count (p : nat -> bool) (l : list nat) : nat := length (filter p l).

(** Phase at the k-th listed extremum, and phase advance from the k-th to the next. *)
Definition phase_at (phase : list Q) (loc : list nat) (k : nat) (x : Q) : Prop :=
  exists i, nth_error loc k = Some i /\ nth_error phase i = Some x.
Definition advance (phase : list Q) (loc : list nat) (k : nat) (d : Q) : Prop :=
  exists x y, phase_at phase loc k x /\ phase_at phase loc (S k) y /\ d = (y - x)%Q.
(** The advance following the k-th one is more than 3/2 times (less than 2/3 of) it; stated without
    division, for positive advances. *)
Definition jump_up (phase : list Q) (loc : list nat) (k : nat) : Prop :=
  exists d d', advance phase loc k d /\ advance phase loc (S k) d' /\ (3 * d < 2 * d')%Q.
Definition jump_down (phase : list Q) (loc : list nat) (k : nat) : Prop :=
  exists d d', advance phase loc k d /\ advance phase loc (S k) d' /\ (3 * d' < 2 * d)%Q.
(** The k-th pair of listed extrema is closer than [m] in phase. *)
Definition close_pair (phase : list Q) (loc : list nat) (m : Q) (k : nat) : Prop :=
  exists d, advance phase loc k d /\ (d < m)%Q.
(** strictly increasing phase *)
Definition phase_increasing (phase : list Q) : Prop :=
  forall i j x y, i < j -> nth_error phase i = Some x -> nth_error phase j = Some y -> (x < y)%Q.
Definition first_with (P : nat -> Prop) (k : nat) : Prop := P k /\ forall j, j < k -> ~ P j.
Definition last_with (P : nat -> Prop) (k : nat) : Prop := P k /\ forall j, k < j -> ~ P j.

(** The intended cuts.  A list of n extrema has n - 2 consecutive ratios and n - 1 gaps; an anomaly
    in the second half truncates the end of the list, one in the first half truncates the start.
    [jump_end e]: everything from position e on is dropped; e = f + 2 keeps the extrema up to the one
    just before the too-wide gap. *)
Definition jump_end (phase : list Q) (loc : list nat) (e : nat) : Prop :=
  (exists f, first_with (jump_up phase loc) f /\ (length loc - 2) / 2 < f /\ e = f + 2) \/
  ((forall f, first_with (jump_up phase loc) f -> f <= (length loc - 2) / 2) /\ e = length loc).
Definition jump_start (phase : list Q) (loc : list nat) (s : nat) : Prop :=
  (exists l, last_with (jump_down phase loc) l /\ l < (length loc - 2) / 2 /\ s = l) \/
  ((forall l, last_with (jump_down phase loc) l -> (length loc - 2) / 2 <= l) /\ s = 0).
Definition close_end (phase : list Q) (loc : list nat) (m : Q) (e : nat) : Prop :=
  (exists f, first_with (close_pair phase loc m) f /\ (length loc - 1) / 2 < f /\ e = f + 1) \/
  ((forall f, first_with (close_pair phase loc m) f -> f <= (length loc - 1) / 2) /\ e = length loc).
Definition close_start (phase : list Q) (loc : list nat) (m : Q) (s : nat) : Prop :=
  (exists l, last_with (close_pair phase loc m) l /\ l < (length loc - 1) / 2 /\ s = l) \/
  ((forall l, last_with (close_pair phase loc m) l -> (length loc - 1) / 2 <= l) /\ s = 0).
