(** The same waveform with its amplitudes in another unit, as for a source at another distance. *)
From Verif Require Import Base UtilsModel RationalModel MeasureModel DataModel InitModel ScaleCallSpec.
Open Scope string_scope.
Open Scope nat_scope.
Open Scope list_scope.

(** The amplitudes are multiplied by k, all else is kept. *)
Definition louder (k : Q) : change := {| ch_amps := Some k; ch_phases := false |}.
(** Every number of every mode is multiplied by k. *)
Definition loud_modes (k : Q) (d d' : mdict (list Q)) : Prop :=
  Forall2 (fun x x' => fst x' = fst x /\ Forall2 (fun y y' => y' == k * y)%Q (snd x) (snd x')) d d'.

Section Loud.
  Context {C : Type}.
  Variable k : Q.
  (** What the dictionaries of modes in memory hold, by position: none is used both for amplitudes and for something else. *)
  Variable holds : nat -> kind.
  (** Waveforms in the form of amplitudes and phases: there are no complex modes. *)
  Inductive loud_entry (key : string) : dval C -> dval C -> Prop :=
  | loud_own d d' : In key ["amplm"; "amplm_zeroecc"] -> loud_modes k d d' -> loud_entry key (VReal C d) (VReal C d')
  | loud_shared p : holds p = kind_of key -> loud_entry key (VRef C p) (VRef C p)
  | loud_array l : loud_entry key (VArr C l) (VArr C l)
  | loud_kept d : ~ In key ["amplm"; "amplm_zeroecc"] -> loud_entry key (VReal C d) (VReal C d)
  | loud_other : loud_entry key (VOther C) (VOther C).
  Definition loud_dict (d d' : sdict (dval C)) : Prop := Forall2 (fun x x' => fst x' = fst x /\ loud_entry (fst x) (snd x) (snd x')) d d'.
  Inductive loud_obj (p : nat) : obj C -> obj C -> Prop :=
  | loud_amps d d' : holds p = Amplitudes -> loud_modes k d d' -> loud_obj p (OReal C d) (OReal C d')
  | loud_others d : holds p <> Amplitudes -> loud_obj p (OReal C d) (OReal C d)
  | loud_top d d' : loud_dict d d' -> loud_obj p (OTop C d) (OTop C d').
  Record loud_world (w w' : world C) : Prop := {
    lw_size : length (wd_heap w') = length (wd_heap w);
    lw_objects : forall p x x', nth_error (wd_heap w) p = Some x -> nth_error (wd_heap w') p = Some x' -> loud_obj p x x';
    lw_extra : wd_extra w' = wd_extra w }.
End Loud.
(** Levels for find_peaks are in the unit of what it is given: amplitudes, for two of the methods. *)
Definition level_free (m : string) (extra : option kwargs) : Prop := ~ In m ["Amplitude"; "ResidualAmplitude"] \/ levels_unset extra.
