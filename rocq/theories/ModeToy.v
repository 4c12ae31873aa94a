(** Waveforms with and without further modes, for the example of Props_Modes.v. *)
From Verif Require Import Base BaseLemmas UtilsModel UtilsSpec ExtremaModel RationalModel MeasureModel MeasureSpec SegmentModel DataModel DataSpec DataTotal Toy InitModel InitSpec InitToy FormSpec FormToy ModeSpec.
Open Scope string_scope.
Open Scope nat_scope.
Open Scope list_scope.

(** the (2, 2) mode alone, as amplitude and phase; and with a (2, 1) and a (3, 3) mode, as complex modes *)
Definition mo_alone : sdict (dval ex_c) :=
  [("t", VArr ex_c fo_t); ("amplm", VReal ex_c [((2, 2)%Z, fo_amp)]); ("phaselm", VReal ex_c [((2, 2)%Z, fo_ph)]);
   ("t_zeroecc", VArr ex_c fo_t); ("amplm_zeroecc", VReal ex_c [((2, 2)%Z, fo_circ)]); ("phaselm_zeroecc", VReal ex_c [((2, 2)%Z, fo_ph)])].
Definition mo_more (amp : list Q) : mdict ex_c := [((3, 3)%Z, (fo_side, map (fun x => Qred (x + x)) fo_ph)); ((2, 2)%Z, (amp, fo_ph)); ((2, 1)%Z, (fo_side, fo_nil))].
Definition mo_many : sdict (dval ex_c) :=
  [("t", VArr ex_c fo_t); ("hlm", VCplx ex_c (mo_more fo_amp)); ("t_zeroecc", VArr ex_c fo_t); ("hlm_zeroecc", VCplx ex_c (mo_more fo_circ))].
Lemma mo_lengths : exists n, forall (k : mode) y, In (k, y) [((2, 2)%Z, fo_ph)] \/ In (k, y) (fo_phase (mo_more fo_amp)) -> length y = n.
Proof.
  assert (A : length fo_ph = 48) by reflexivity. assert (B : length fo_nil = 48) by reflexivity. exists 48. intros k y.
  assert (F : Forall (fun e : mode * list Q => length (snd e) = 48) (((2, 2)%Z, fo_ph) :: fo_phase (mo_more fo_amp))).
  { unfold fo_phase, mo_more. cbn [map fst snd]. repeat constructor; cbn [snd]; rewrite ?map_length; assumption. }
  rewrite Forall_forall in F. intros H. apply (F (k, y)). destruct H as [[H|[]]|H]; [left; exact H|right; exact H].
Qed.
Lemma mo_agree : agree_in_22 fo_lib 0 [OTop ex_c mo_alone] [OTop ex_c mo_many].
Proof.
  exists mo_alone, mo_many, fo_t. split; [reflexivity|]. split; [reflexivity|]. split; [split; absent|]. split; [split; absent|]. split; [reflexivity|]. split; [reflexivity|].
  split; [|right; exists fo_t; split; [reflexivity|split; [reflexivity|]]].
  - exists [((2, 2)%Z, fo_amp)], [((2, 2)%Z, fo_ph)], (fo_abs (mo_more fo_amp)), (fo_phase (mo_more fo_amp)).
    split; [left; split; [left; reflexivity|split; [left; reflexivity|absent]]|].
    split; [right; exists (mo_more fo_amp); split; [split; [left; reflexivity|split; absent]|split; reflexivity]|].
    split; [exists fo_amp; split; reflexivity|]. split; [exists fo_ph; split; reflexivity|].
    split; [|exact mo_lengths]. eexists. split; eexists; (split; [vm_compute; reflexivity|]); eexists; vm_compute; reflexivity.
  - exists [((2, 2)%Z, fo_circ)], [((2, 2)%Z, fo_ph)], (fo_abs (mo_more fo_circ)), (fo_phase (mo_more fo_circ)).
    split; [left; split; [left; reflexivity|split; [left; reflexivity|absent]]|].
    split; [right; exists (mo_more fo_circ); split; [split; [left; reflexivity|split; absent]|split; reflexivity]|].
    split; [exists fo_circ; split; reflexivity|]. split; [exists fo_ph; split; reflexivity|].
    split; [|exact mo_lengths]. eexists. split; eexists; (split; [vm_compute; reflexivity|]); eexists; vm_compute; reflexivity.
Qed.
