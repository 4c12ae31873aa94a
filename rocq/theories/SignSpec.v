(** The sign of the phase of a waveform at its merger. *)
From Verif Require Import Base UtilsModel DataModel DataSpec SegmentSpec InitModel InitSpec FormSpec ModeSpec.
Open Scope string_scope.
Open Scope nat_scope.

Section Spec.
  Context {C V : Type} (L : library C V).
  Notation modes := (mdict (list Q)).
  (** what is used of the modes: the (2, 2) mode, or half its difference with the (2, -2) mode for a precessing system *)
  Definition of_system (precessing : bool) (m : modes) (y : list Q) : Prop :=
    if precessing then exists u v, mode22 m u /\ dlookup mode_eqb m (2, -2)%Z = Some v /\ y = map2 (fun x z => (1 # 2) * (x - z))%Q u v
    else mode22 m y.
  (** the frequencies: those given, or else the derivatives of the phases (C06) for the first step of the times *)
  Definition rates (h : heap C) (d : sdict (dval C)) (times : list Q) (ph o : modes) : Prop :=
    real_modes_are h d "omegalm" o \/
    (~ has d "omegalm" /\ exists t0 t1, nth_error times 0 = Some t0 /\ nth_error times 1 = Some t1 /\
       forall k y, dlookup mode_eqb ph k = Some y -> exists w, dlookup mode_eqb o k = Some w /\ time_deriv_4thOrder y (t1 - t0) = Ok w).
  (** at the merger the phase is [dph] ahead of the first sample, and the frequency is [w] *)
  Definition at_merger (h : heap C) (d : sdict (dval C)) (precessing : bool) (dph w : Q) : Prop :=
    exists times a ph tm i y y0 yi o f, slookup d "t" = Some (VArr C times) /\ gives L h d "" a ph /\ merger_at L times a tm /\ nearest_to times tm i /\
      of_system precessing ph y /\ nth_error y 0 = Some y0 /\ nth_error y i = Some yi /\ dph = (yi - y0)%Q /\
      rates h d times ph o /\ of_system precessing o f /\ nth_error f i = Some w.
  (** The same waveform with the phases of the opposite sign. *)
  Definition opposite_sign (p : nat) (h h2 : heap C) (d d2 : sdict (dval C)) : Prop :=
    is_dict h p d /\ is_dict h2 p d2 /\ slookup d "t" = slookup d2 "t" /\
    exists a ph ph2, gives L h d "" a ph /\ gives L h2 d2 "" a ph2 /\ ph2 = map (fun ky => (fst ky, map Qopp (snd ky))) ph.
End Spec.
