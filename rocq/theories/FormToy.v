(** A small waveform in both forms, for the examples of Props_Form.v.  The frame change adds the amplitude of a (2, 1)
    mode to that of the (2, 2) mode: the circular counterpart precesses, so that its (2, 2) mode goes up and down in the inertial
    frame and does not in the coprecessing frame. *)
From Verif Require Import Base BaseLemmas UtilsModel UtilsSpec ExtremaModel RationalModel MeasureModel MeasureSpec SegmentModel DataModel DataSpec DataTotal Toy InitModel InitSpec InitToy FormSpec.
Open Scope string_scope.
Open Scope nat_scope.
Open Scope list_scope.

(** amplitudes and frequencies go up and down together, with four samples to an orbit; the merger is at sample 43 *)
Definition fo_t : list Q := ex_n 48.
Definition fo_bump (i : nat) : Q := let x := inject_Z (Z.of_nat i) in (150 - (x - 43) * (x - 43))%Q.
Definition fo_turn (a b c d : Q) (i : nat) : Q := nth (i mod 4) [a; b; c; d] 0%Q.
Definition fo_amp : list Q := map (fun i => if i <? 38 then fo_turn 100 105 100 95 i else fo_bump i) (seq 0 48).
Definition fo_circ : list Q := map (fun i => if i <? 38 then fo_turn 90 98 90 82 i else fo_bump i) (seq 0 48).
Definition fo_side : list Q := map (fun i => if i <? 38 then fo_turn 10 2 10 18 i else 0%Q) (seq 0 48).
Definition fo_ph : list Q := map (fun i => Qred (np_pi * inject_Z (Z.of_nat i) + fo_turn (-1) 0 1 0 i)) (seq 0 48).
Definition fo_nil : list Q := map (fun _ => 0%Q) (seq 0 48).
Definition fo_modes (amp side : list Q) : mdict ex_c :=
  [((2, -2)%Z, (amp, map Qopp fo_ph)); ((2, -1)%Z, (side, fo_nil)); ((2, 0)%Z, (fo_nil, fo_nil)); ((2, 1)%Z, (side, fo_nil)); ((2, 2)%Z, (amp, fo_ph))].
Definition fo_wave := fo_modes fo_amp fo_nil.
Definition fo_counter := fo_modes fo_circ fo_side.
Definition fo_rotate (t : list Q) (l : list ex_c) : res (list ex_c) :=
  let plus u v := map2 (fun x y => Qred (x + y)) u v in
  match l with
  | [a; b; c; d; e] => Ok [(plus (fst a) (fst b), snd a); (fo_nil, fo_nil); c; (fo_nil, fo_nil); (plus (fst e) (fst d), snd e)]
  | _ => Err ValueError
  end.
Definition fo_abs (m : mdict ex_c) : mdict (list Q) := map (fun kc => (fst kc, fst (snd kc))) m.
Definition fo_phase (m : mdict ex_c) : mdict (list Q) := map (fun kc => (fst kc, snd (snd kc))) m.
Definition fo_complex : sdict (dval ex_c) := [("t", VArr ex_c fo_t); ("hlm", VCplx ex_c fo_wave)].
Definition fo_polar : sdict (dval ex_c) :=
  [("t", VArr ex_c fo_t); ("amplm", VReal ex_c (fo_abs fo_wave)); ("phaselm", VReal ex_c (fo_phase fo_wave))].
Definition fo_complex2 : sdict (dval ex_c) := fo_complex ++ [("t_zeroecc", VArr ex_c fo_t); ("hlm_zeroecc", VCplx ex_c fo_counter)].
Definition fo_polar2 : sdict (dval ex_c) :=
  fo_polar ++ [("t_zeroecc", VArr ex_c fo_t); ("amplm_zeroecc", VReal ex_c (fo_abs fo_counter)); ("phaselm_zeroecc", VReal ex_c (fo_phase fo_counter))].
Definition fo_lib : library ex_c Q :=
  {| lib_abs := fst; lib_phase := snd; lib_polar := fun a p => Ok (a, p);
     lib_rotate := fo_rotate;
     lib_sqrt := lib_sqrt in_lib; lib_secular := lib_secular in_lib; lib_spline := lin; lib_pchip := lin3; lib_rational := lib_rational in_lib;
     lib_slope := lib_slope in_lib; lib_ecc := lib_ecc in_lib; lib_zero := lib_zero in_lib; lib_negative := lib_negative in_lib;
     lib_peaks := lib_peaks in_lib; lib_fits := lib_fits in_lib; lib_filter := lib_filter in_lib |}.
Definition fo_args (precessing : bool) : args :=
  {| a_tref := Some (RScalar 6); a_fref := None; a_num := None; a_precessing := precessing; a_frame := "inertial"; a_level := 0 |}.
Definition fo_run m d := measure_eccentricity fo_lib m (fo_args true) 0 {| wd_heap := [OTop ex_c d]; wd_extra := Some in_spline |}.
Definition fo_plain m d := measure_eccentricity fo_lib m (fo_args false) 0 {| wd_heap := [OTop ex_c d]; wd_extra := Some in_spline |}.
Lemma fo_numbers : polar_numbers fo_lib.
Proof. intros [a q]. reflexivity. Qed.
Ltac absent := let H := fresh in cbn; intros H; decompose [or] H; try discriminate; contradiction.
Ltac distinct := cbn; repeat (constructor; [cbn; let H := fresh in intros H; decompose [or] H; try discriminate; contradiction|]); constructor.
Lemma fo_counterpart : both_forms fo_lib 0 [OTop ex_c fo_complex2] [OTop ex_c fo_polar2] true.
Proof.
  split; [intros [|[|q]] H; [congruence|reflexivity|reflexivity]|]. exists fo_complex2, fo_polar2, fo_wave. split; [reflexivity|]. split; [reflexivity|].
  split; [distinct|]. split; [distinct|]. split; [intros k H; repeat (destruct H as [<-|H]; [reflexivity|]); destruct H|]. split; [distinct|].
  split; [split; [left; reflexivity|split; absent]|]. split; [split; [left; reflexivity|split; [left; reflexivity|absent]]|].
  exists fo_counter. split; [split; [left; reflexivity|split; absent]|]. split; [left; reflexivity|split; [left; reflexivity|absent]].
Qed.
Lemma fo_alone : both_forms fo_lib 0 [OTop ex_c fo_complex] [OTop ex_c fo_polar] false.
Proof.
  split; [intros [|[|q]] H; [congruence|reflexivity|reflexivity]|]. exists fo_complex, fo_polar, fo_wave. split; [reflexivity|]. split; [reflexivity|].
  split; [distinct|]. split; [distinct|]. split; [intros k H; repeat (destruct H as [<-|H]; [reflexivity|]); destruct H|]. split; [distinct|].
  split; [split; [left; reflexivity|split; absent]|]. split; [split; [left; reflexivity|split; [left; reflexivity|absent]]|].
  split; (split; [absent|split; absent]).
Qed.
(** both together, whatever the circular counterpart is *)
Lemma both_other C V (L : library C V) p h h2 : both_forms L p h h2 true -> other_forms L p h h2.
Proof.
  intros [H (d & d2 & m & A & B & _ & _ & S & _ & E & F & z & Ez & Fz)]. split; [exact H|]. exists d, d2. split; [exact A|]. split; [exact B|]. split; [exact S|].
  split; right; [exists m|exists z]; auto.
Qed.
Lemma fo_refuted : exists (L : library ex_c Q) m a h h2 x, polar_numbers L /\ a_level a = 0%Z /\ a_precessing a = true /\
  a_frame a = "inertial" /\ both_forms L 0 h h2 true /\
  let r := measure_eccentricity L m a 0 {| wd_heap := h; wd_extra := x |} in
  let r2 := measure_eccentricity L m a 0 {| wd_heap := h2; wd_extra := x |} in
  in_error r = None /\ in_error r2 = None /\ in_out r <> in_out r2 /\ in_data r <> in_data r2.
Proof.
  exists fo_lib, "ResidualAmplitude", (fo_args true), [OTop ex_c fo_complex2], [OTop ex_c fo_polar2], (Some in_spline).
  split; [exact fo_numbers|]. split; [reflexivity|]. split; [reflexivity|]. split; [reflexivity|]. split; [exact fo_counterpart|].
  vm_compute. split; [reflexivity|]. split; [reflexivity|]. split; discriminate.
Qed.
