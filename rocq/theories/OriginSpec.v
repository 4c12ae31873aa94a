(** The same waveform with the phase of every mode counted from an origin of its own. *)
From Verif Require Import Base UtilsModel RationalModel MeasureModel DataModel InitModel ScaleCallSpec.
Open Scope string_scope.
Open Scope nat_scope.
Open Scope list_scope.

(** A constant is added to the phase of a mode. *)
Definition moved (l l' : list Q) : Prop := exists k, Forall2 (fun y y' => y' == y + k)%Q l l'.
(** Every mode with a constant of its own. *)
Definition moved_modes (d d' : mdict (list Q)) : Prop := Forall2 (fun x x' => fst x' = fst x /\ moved (snd x) (snd x')) d d'.

(** The amplitudes are kept, the origins of the phases are free. *)
Definition any_phase : change := {| ch_amps := None; ch_phases := true |}.

Section Origin.
  Context {C : Type}.
  (** What the dictionaries of modes in memory hold, by position: none is used both for phases and for something else. *)
  Variable holds : nat -> kind.
  Inductive moved_entry (k : string) : dval C -> dval C -> Prop :=
  | moved_own d d' : In k ["phaselm"; "phaselm_zeroecc"] -> moved_modes d d' -> moved_entry k (VReal C d) (VReal C d')
  | moved_shared p : holds p = kind_of k -> moved_entry k (VRef C p) (VRef C p)
  | moved_kept v : ~ In k ["phaselm"; "phaselm_zeroecc"] -> (forall p, v <> VRef C p) -> moved_entry k v v.
  Definition moved_dict (d d' : sdict (dval C)) : Prop := Forall2 (fun x x' => fst x' = fst x /\ moved_entry (fst x) (snd x) (snd x')) d d'.
  Inductive moved_obj (p : nat) : obj C -> obj C -> Prop :=
  | moved_phases d d' : holds p = Phases -> moved_modes d d' -> moved_obj p (OReal C d) (OReal C d')
  | moved_others d : holds p <> Phases -> moved_obj p (OReal C d) (OReal C d)
  | moved_complex d : moved_obj p (OCplx C d) (OCplx C d)
  | moved_top d d' : moved_dict d d' -> moved_obj p (OTop C d) (OTop C d').
  (** The caller's memory: the same objects in the same places, the same extra_kwargs. *)
  Record moved_world (w w' : world C) : Prop := {
    mw_size : length (wd_heap w') = length (wd_heap w);
    mw_objects : forall p x x', nth_error (wd_heap w) p = Some x -> nth_error (wd_heap w') p = Some x' -> moved_obj p x x';
    mw_extra : wd_extra w' = wd_extra w }.
End Origin.

(** The returned dictionaries have the same keys in the same order; the eccentricities are identical, all other numbers are
    equal; scalars stay scalars. *)
Inductive equal_numbers : out Q -> out Q -> Prop :=
| equal_scalars x x' : (x' == x)%Q -> equal_numbers (Scalar x) (Scalar x')
| equal_arrays l l' : Forall2 (fun x x' => x' == x)%Q l l' -> equal_numbers (Arr l) (Arr l').
Definition equal_return {V} : sdict (entry V) -> sdict (entry V) -> Prop :=
  Forall2 (fun x x' => fst x' = fst x /\
    match snd x, snd x' with
    | EEcc e, EEcc e' => e' = e
    | ERef r, ERef r' => equal_numbers r r'
    | EObject _ _, EObject _ _ => True
    | _, _ => False
    end).
