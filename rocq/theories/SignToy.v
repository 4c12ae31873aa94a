(** A waveform with phases of either sign, for the example of Props_Sign.v. *)
From Verif Require Import Base BaseLemmas UtilsModel UtilsSpec ExtremaModel RationalModel MeasureModel MeasureSpec SegmentModel DataModel DataSpec DataTotal Toy InitModel InitSpec InitToy FormSpec FormToy ModeSpec ModeToy SignSpec.
Open Scope string_scope.
Open Scope nat_scope.
Open Scope list_scope.

(** [fo_polar] with all phases negated *)
Definition si_wrong : sdict (dval ex_c) :=
  [("t", VArr ex_c fo_t); ("amplm", VReal ex_c (fo_abs fo_wave)); ("phaselm", VReal ex_c (map (fun ky => (fst ky, map Qopp (snd ky))) (fo_phase fo_wave)))].
Lemma si_opposite : opposite_sign fo_lib 0 [OTop ex_c fo_polar] [OTop ex_c si_wrong] fo_polar si_wrong.
Proof.
  split; [reflexivity|]. split; [reflexivity|]. split; [reflexivity|]. exists (fo_abs fo_wave), (fo_phase fo_wave). eexists.
  split; [left; split; [left; reflexivity|split; [left; reflexivity|absent]]|]. split; [left; split; [left; reflexivity|split; [left; reflexivity|absent]]|]. reflexivity.
Qed.
(** precessing data in the coprecessing frame *)
Definition si_args : args := {| a_tref := Some (RScalar 6); a_fref := None; a_num := None; a_precessing := true; a_frame := "coprecessing"; a_level := 0 |}.
Definition si_run m d := measure_eccentricity fo_lib m si_args 0 {| wd_heap := [OTop ex_c d]; wd_extra := Some in_spline |}.
