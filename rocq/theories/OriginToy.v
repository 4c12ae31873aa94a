(** The example waveform of InitToy.v with the phase of each mode counted from an origin of its own: example data for
    Props_Origin.v. *)
From Coq Require Import Lqa.
From Verif Require Import Base BaseLemmas UtilsModel UtilsSpec RationalModel MeasureModel DataModel DataTotal InitModel ScaleSpec ScaleCallSpec Toy InitToy ScaleCallToy OriginSpec.
Open Scope string_scope.
Open Scope nat_scope.
Open Scope list_scope.

(** 3/10 is added to the phase of the (2, 2) mode, 1 is taken from those of the other modes. *)
Definition or_modes (d : mdict (list Q)) : mdict (list Q) :=
  map (fun kl => (fst kl, map (fun y => y + (if mode_eqb (fst kl) (2, 2)%Z then 3 # 10 else -1))%Q (snd kl))) d.
Definition or_world (d : sdict (dval ex_c)) (extra : option kwargs) : world ex_c :=
  {| wd_heap := [OTop ex_c d; OReal ex_c (both (fun a => a) in_amp); OReal ex_c (or_modes (both neg in_ph)); OReal ex_c (both neg in_om);
       OReal ex_c (both (fun a => a) in_ampz); OReal ex_c (both neg in_omz)]; wd_extra := extra |}.
Lemma or_modes_moved d : moved_modes d (or_modes d).
Proof.
  unfold moved_modes, or_modes. induction d as [|kl d IH]; constructor; [|exact IH]. split; [reflexivity|]. cbn [fst snd].
  exists (if mode_eqb (fst kl) (2, 2)%Z then 3 # 10 else -1)%Q. induction (snd kl); constructor; [reflexivity|assumption].
Qed.
Lemma or_world_moved extra : moved_world in_kinds (in_world in_zero extra) (or_world in_zero extra).
Proof.
  constructor; [reflexivity| |reflexivity].
  assert (D : moved_dict (C := ex_c) in_kinds in_zero in_zero).
  { unfold in_zero, in_d. cbn [map app fst snd].
    repeat (constructor; [split; [reflexivity|cbn [fst snd]; first [apply moved_shared; reflexivity|apply moved_kept; [intros [H|[H|[]]]; discriminate H|intros q H; discriminate H]]]|]).
    constructor. }
  intros p x x' H H'. do 6 (destruct p as [|p]; [injection H as <-; injection H' as <-; first [apply moved_top; exact D|apply moved_others; discriminate|apply moved_phases; [reflexivity|apply or_modes_moved]]|]).
  destruct p; discriminate H.
Qed.
