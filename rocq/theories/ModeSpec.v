(** Waveforms that agree in the (2, 2) mode and in the time of the merger. *)
From Verif Require Import Base UtilsModel DataModel DataSpec InitModel InitSpec FormSpec.
Open Scope string_scope.
Open Scope nat_scope.

Section Spec.
  Context {C V : Type} (L : library C V).
  Notation modes := (mdict (list Q)).
  (** the amplitudes [a] and phases [ph] of the modes that a dictionary gives in either form; [t] is "" or "_zeroecc" *)
  Definition gives (h : heap C) (d : sdict (dval C)) (t : string) (a ph : modes) : Prop :=
    (real_modes_are h d ("amplm" ++ t) a /\ real_modes_are h d ("phaselm" ++ t) ph /\ ~ has d ("hlm" ++ t)) \/
    (exists m, as_complex h d t m /\ a = map (fun kc => (fst kc, lib_abs L (snd kc))) m /\ ph = map (fun kc => (fst kc, lib_phase L (snd kc))) m).
  Definition mode22 (m : modes) (y : list Q) : Prop := dlookup mode_eqb m (2, 2)%Z = Some y.
  (** the merger: the peak (C07) of the amplitude of all modes together (C60) *)
  Definition merger_at (times : list Q) (a : modes) (tm : Q) : Prop :=
    exists amp, amplitude_using_all_modes C (lib_abs L) (lib_sqrt L) "amplm" (real_modes C a) = Ok amp /\
      exists peak, peak_time_via_quadratic_fit times amp = Ok (tm, peak).
  (** Both dictionaries give a (2, 2) mode, the same one, with the merger at the same time; the phases of each mode have the same
      number of samples. *)
  Definition agree_22 (h h2 : heap C) (d d2 : sdict (dval C)) (t : string) (times : list Q) : Prop :=
    exists a ph a2 ph2, gives h d t a ph /\ gives h2 d2 t a2 ph2 /\
      (exists y, mode22 a y /\ mode22 a2 y) /\ (exists y, mode22 ph y /\ mode22 ph2 y) /\
      (exists tm, merger_at times a tm /\ merger_at times a2 tm) /\
      (exists n, forall k y, In (k, y) ph \/ In (k, y) ph2 -> length y = n).
  (** Neither gives frequencies of its own. *)
  Definition no_omega (d : sdict (dval C)) : Prop := ~ has d "omegalm" /\ ~ has d "omegalm_zeroecc".
  Definition agree_in_22 (p : nat) (h h2 : heap C) : Prop :=
    exists d d2 times, is_dict h p d /\ is_dict h2 p d2 /\ no_omega d /\ no_omega d2 /\
      slookup d "t" = Some (VArr C times) /\ slookup d2 "t" = Some (VArr C times) /\ agree_22 h h2 d d2 "" times /\
      ((no_counterpart d /\ no_counterpart d2 /\ slookup d "t_zeroecc" = slookup d2 "t_zeroecc") \/
       exists timesz, slookup d "t_zeroecc" = Some (VArr C timesz) /\ slookup d2 "t_zeroecc" = Some (VArr C timesz) /\
         agree_22 h h2 d d2 "_zeroecc" timesz).
End Spec.
