(** Vocabulary for the properties of reading a waveform dictionary, written without the functions of the model. *)
From Verif Require Import Base DataModel SegmentSpec.
Open Scope string_scope.
Open Scope nat_scope.

(** key [k] is in the dictionary *)
Definition has {V} (d : sdict V) (k : string) : Prop := In k (map fst d).
(** hlm alone, or amplm and phaselm without hlm; the same exclusion for the zeroecc data *)
Definition one_representation {V} (d : sdict V) : Prop :=
  (has d "hlm" /\ ~ has d "amplm" /\ ~ has d "phaselm" \/ ~ has d "hlm" /\ has d "amplm" /\ has d "phaselm") /\
  (has d "hlm_zeroecc" -> ~ has d "amplm_zeroecc" /\ ~ has d "phaselm_zeroecc").

Section Spec.
  Context {C : Type}.
  (** the caller's object number p is the waveform dictionary [d] *)
  Definition is_dict (h : heap C) (p : nat) (d : sdict (dval C)) : Prop := nth_error h p = Some (OTop C d).
  (** the array of one mode stored under a key, seen through a reference to an object of the caller if there is one *)
  Definition array_of (h : heap C) (d : sdict (dval C)) (key : string) (m : mode) (a : list Q) : Prop :=
    exists v, slookup d key = Some v /\
      ((exists ms, v = VReal C ms /\ dlookup mode_eqb ms m = Some a) \/
       (exists q ms, v = VRef C q /\ nth_error h q = Some (OReal C ms) /\ dlookup mode_eqb ms m = Some a)).
  Definition times_of (d : sdict (dval C)) (t : list Q) : Prop := slookup d "t" = Some (VArr C t).
  (** the phase of the (2,2) mode, or for precessing systems half the difference with that of the (2,-2) mode *)
  Definition wave_phase (h : heap C) (d : sdict (dval C)) (precessing : bool) (ph : list Q) : Prop :=
    if precessing then
      exists u v, array_of h d "phaselm" (2, 2)%Z u /\ array_of h d "phaselm" (2, -2)%Z v /\ length u = length v /\
        length ph = length u /\
        forall k x y, nth_error u k = Some x -> nth_error v k = Some y -> nth_error ph k = Some ((1 # 2) * (x - y))%Q
    else array_of h d "phaselm" (2, 2)%Z ph.
  (** the time array and all arrays of the eccentric modes have N samples *)
  Definition same_length (h : heap C) (d : sdict (dval C)) (N : nat) : Prop :=
    (forall t, times_of d t -> length t = N) /\
    (forall key m x, In key ["amplm"; "phaselm"; "omegalm"] -> array_of h d key m x -> length x = N).
  (** the (2,-2) mode has the amplitude of the (2,2) mode and the opposite phase and frequency *)
  Definition reflection_symmetric (h : heap C) (d : sdict (dval C)) : Prop :=
    exists a a' p p' o o',
      array_of h d "amplm" (2, 2)%Z a /\ array_of h d "amplm" (2, -2)%Z a' /\ Forall2 (fun x y => y == x)%Q a a' /\
      array_of h d "phaselm" (2, 2)%Z p /\ array_of h d "phaselm" (2, -2)%Z p' /\ Forall2 (fun x y => y == - x)%Q p p' /\
      array_of h d "omegalm" (2, 2)%Z o /\ array_of h d "omegalm" (2, -2)%Z o' /\ Forall2 (fun x y => y == - x)%Q o o'.
  (** [A] combines the arrays of the (2,2) and the (2,-2) mode with f, sample by sample *)
  Definition combined (h : heap C) (d : sdict (dval C)) (key : string) (f : Q -> Q -> Q) (A : list Q) : Prop :=
    exists u v, array_of h d key (2, 2)%Z u /\ array_of h d key (2, -2)%Z v /\ length u = length v /\ length A = length u /\
      forall k x y, nth_error u k = Some x -> nth_error v k = Some y -> nth_error A k = Some (f x y).
End Spec.
(** one orbit is a phase advance of 4 pi *)
Definition wave_orbit : Q := 4 * np_pi.
(** the sum of the squares of the k-th entries *)
Definition sum_sq (l : list (list Q)) (k : nat) : Q := fold_right (fun a s => nth k a 0 * nth k a 0 + s)%Q 0%Q l.
(** the amplitudes an entry of a mode dictionary stands for: the absolute values of complex samples (as given by [cabs]), or
    real samples, which "hlm" data replaces by their absolute values *)
Definition amps {C} (cabs : C -> list Q) (data_type : string) (x : C + list Q) : list Q :=
  match x with inl c => cabs c | inr a => if String.eqb data_type "hlm" then map Qabs a else a end.
