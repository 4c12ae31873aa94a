(** The two forms of a waveform: complex modes, or amplitudes and phases. *)
From Verif Require Import Base DataModel DataSpec InitModel InitSpec.
Open Scope string_scope.

Section Spec.
  Context {C V : Type} (L : library C V).
  (** the modes under a key, held in the dictionary or seen through a reference to an object of the caller *)
  Definition complex_modes (h : heap C) (d : sdict (dval C)) (key : string) (m : mdict C) : Prop :=
    slookup d key = Some (VCplx C m) \/ exists q, slookup d key = Some (VRef C q) /\ nth_error h q = Some (OCplx C m).
  Definition real_modes_are (h : heap C) (d : sdict (dval C)) (key : string) (m : mdict (list Q)) : Prop :=
    slookup d key = Some (VReal C m) \/ exists q, slookup d key = Some (VRef C q) /\ nth_error h q = Some (OReal C m).
  (** the waveform [m] given as complex modes; the same given as amplitudes and phases; [t] is "" or "_zeroecc" *)
  Definition as_complex (h : heap C) (d : sdict (dval C)) (t : string) (m : mdict C) : Prop :=
    complex_modes h d ("hlm" ++ t) m /\ ~ has d ("amplm" ++ t) /\ ~ has d ("phaselm" ++ t).
  Definition as_polar (h : heap C) (d : sdict (dval C)) (t : string) (m : mdict C) : Prop :=
    real_modes_are h d ("amplm" ++ t) (map (fun kc => (fst kc, lib_abs L (snd kc))) m) /\
    real_modes_are h d ("phaselm" ++ t) (map (fun kc => (fst kc, lib_phase L (snd kc))) m) /\ ~ has d ("hlm" ++ t).
  Definition same_at (keys : list string) (d d2 : sdict (dval C)) : Prop := forall k, In k keys -> slookup d k = slookup d2 k.
  Definition other_keys : list string := ["t"; "t_zeroecc"; "omegalm"; "omegalm_zeroecc"].
  (** Two dictionaries at [p] that differ in the form of the waveform, of its circular counterpart, or of both. *)
  Definition same_or_other_form (h h2 : heap C) (d d2 : sdict (dval C)) (t : string) : Prop :=
    same_at ["hlm" ++ t; "amplm" ++ t; "phaselm" ++ t] d d2 \/
    exists m, as_complex h d t m /\ as_polar h2 d2 t m \/ as_polar h d t m /\ as_complex h2 d2 t m.
  Definition other_forms (p : nat) (h h2 : heap C) : Prop :=
    (forall q, q <> p -> nth_error h q = nth_error h2 q) /\
    exists d d2, is_dict h p d /\ is_dict h2 p d2 /\ same_at other_keys d d2 /\
      same_or_other_form h h2 d d2 "" /\ same_or_other_form h h2 d d2 "_zeroecc".
  (** The waveform as complex modes in one dictionary and as amplitudes and phases in the other, without a circular
      counterpart, or with the counterpart in the same two forms. *)
  Definition no_counterpart (d : sdict (dval C)) : Prop := ~ has d "hlm_zeroecc" /\ ~ has d "amplm_zeroecc" /\ ~ has d "phaselm_zeroecc".
  Definition both_forms (p : nat) (h h2 : heap C) (counterpart : bool) : Prop :=
    (forall q, q <> p -> nth_error h q = nth_error h2 q) /\
    exists d d2 m, is_dict h p d /\ is_dict h2 p d2 /\ NoDup (dkeys d) /\ NoDup (dkeys d2) /\ same_at other_keys d d2 /\
      NoDup (dkeys m) /\ as_complex h d "" m /\ as_polar h2 d2 "" m /\
      if counterpart then exists z, as_complex h d "_zeroecc" z /\ as_polar h2 d2 "_zeroecc" z
      else no_counterpart d /\ no_counterpart d2.
End Spec.
