(** Waveform dictionaries that say the same under the recognized keys. *)
From Verif Require Import Base DataModel DataSpec InitModel InitSpec.
Open Scope string_scope.

Definition same_waveform {C} (d d2 : sdict (dval C)) : Prop := forall k, In k known_keys -> slookup d k = slookup d2 k.
(** The caller's objects are the same but for the waveform dictionary at [p]; a dictionary has no key twice. *)
Definition same_but {C} (p : nat) (h h2 : heap C) : Prop :=
  (forall q, q <> p -> nth_error h q = nth_error h2 q) /\
  exists d d2, is_dict h p d /\ is_dict h2 p d2 /\ NoDup (dkeys d) /\ NoDup (dkeys d2) /\ same_waveform d d2.
(** The warnings but for those about unknown keys. *)
Definition but_unknown (l : list string) : list string :=
  filter (fun x => negb (String.eqb x "not a recognized key word in dataDict")) l.
