(** Specification of the helpers around the measurement. *)
From Coq Require Import Qabs Sorted.
From Verif Require Import Base UtilsModel UtilsSpec DataModel FilterModel FilterSpec HelperModel.
Open Scope nat_scope.

(** ** Comparison of two measurements *)
(** r holds the values of v at the samples whose time satisfies P, in order. *)
Definition picked {A} (P : Q -> Prop) (t : list Q) (v r : list A) : Prop :=
  exists idx, StronglySorted lt idx /\ (forall i, In i idx <-> exists x, nth_error t i = Some x /\ P x) /\
    length r = length idx /\ forall k i, nth_error idx k = Some i -> nth_error r k = nth_error v i /\ nth_error r k <> None.
Definition from_until (lo hi x : Q) : Prop := (lo <= x /\ x < hi)%Q.
Definition latest (l : list Q) (m : Q) : Prop := In m l /\ forall x, In x l -> (x <= m)%Q.
Definition earliest (l : list Q) (m : Q) : Prop := In m l /\ forall x, In x l -> (m <= x)%Q.
Definition given (x : option Q) : list Q := match x with Some v => [v] | None => [] end.
(** equal up to a relative difference of 1e-7 *)
Definition close_to (a b : list Q) : Prop :=
  length a = length b /\ forall k x y, nth_error a k = Some x -> nth_error b k = Some y -> (Qabs (x - y) <= (1 # 10000000) * Qabs y)%Q.
(** a and b differ by a whole number of turns *)
Definition turns (a b : Q) : Prop := exists z : Z, (b - a == inject_Z z * (2 * np_pi))%Q.
(** u follows l up to whole turns, without jumps of more than half a turn *)
Definition unwrapped (l u : list Q) : Prop :=
  length u = length l /\ nth_error u 0 = nth_error l 0 /\
  (forall k a b, nth_error l k = Some a -> nth_error u k = Some b -> turns a b) /\
  (forall k a b, nth_error u k = Some a -> nth_error u (S k) = Some b -> (Qabs (b - a) <= np_pi)%Q).
Definition distance (a b : Q) : Q := Qabs (a - b).
(** one value for every reference time *)
Definition well_formed (o : measured) : Prop := length (ms_ecc o) = length (ms_tref_out o) /\ length (ms_ano o) = length (ms_tref_out o).
(** neighbouring values never differ by exactly half a turn *)
Definition no_half_turns (l : list Q) : Prop :=
  forall k a b (z : Z), nth_error l k = Some a -> nth_error l (S k) = Some b -> ~ (b - a == inject_Z (2 * z + 1) * np_pi)%Q.

(** ** Modes *)
Definition in_range (ell_min ell_max : Z) (lm : mode) : Prop := (ell_min <= fst lm <= ell_max /\ - fst lm <= snd lm <= fst lm)%Z.
Definition mode_of {A} (d : mdict A) (lm : mode) (v : A) : Prop := dlookup mode_eqb d lm = Some v.
(** every mode of the range is there, with n samples, and so is (2, 2) *)
Definition complete_modes {K} (d : mdict (list K)) (ell_min ell_max : Z) (n : nat) : Prop :=
  (exists h, mode_of d (2, 2)%Z h /\ length h = n) /\
  forall lm, in_range ell_min ell_max lm -> exists v, mode_of d lm v /\ length v = n.
(** the column of (l, m) *)
Definition column (ell_min : Z) (lm : mode) : nat := Z.to_nat (fst lm * (fst lm + 1) - ell_min * ell_min + snd lm).

(** ** Junk *)
(** i is the first sample of l nearest to x *)
Definition nearest (l : list Q) (x : Q) (i : nat) : Prop :=
  exists a, nth_error l i = Some a /\ (forall j b, nth_error l j = Some b -> distance a x <= distance b x)%Q /\
    (forall j b, j < i -> nth_error l j = Some b -> (distance a x < distance b x)%Q).
(** t' and d' are t and d without their first i samples *)
Definition without_first {K} (i : nat) (t : list Q) (d : mdict (list K)) (t' : list Q) (d' : mdict (list K)) : Prop :=
  t' = skipn i t /\ map fst d' = map fst d /\ forall lm v, mode_of d lm v -> mode_of d' lm (skipn i v).
