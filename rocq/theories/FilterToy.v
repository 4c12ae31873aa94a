(** Small data and stand-ins for the external code, for the examples of Props_Filter.v: the trend is constant, peaks are strict
    local maxima, the spacing of crossings is constant, the low-pass halves the residual. *)
From Coq Require Import Lia Lqa.
From Verif Require Import Base BaseLemmas UtilsModel UtilsSpec MeasureModel AverageLemmas SegmentModel DataModel DataSpec DataTotal Toy InitModel InitToy FilterModel FilterSpec.
Open Scope string_scope.
Open Scope nat_scope.

Definition fx : fourier :=
  {| fo_trend := fun _ _ _ _ => Ok (fun _ => 2%Q); fo_peaks := fun l _ => Ok (maxima 0 l); fo_cubic := fun _ _ _ => 4%Q;
     fo_hamming := fun n => repeat 1%Q n;
     fo_hanning := fun n => map (fun k => if (1 <? n) && ((k =? 0) || (S k =? n)) then 0%Q else 1%Q) (seq 0 n);
     fo_cos := fun x => (1 - (2 / np_pi) * x)%Q; fo_abs_rfft := fun l => map (fun k => inject_Z (Z.of_nat (k mod 3))) (seq 0 (S (length l / 2)));
     fo_lowpass := fun data _ => map (fun x => (1 # 2) * x)%Q data |}.
Definition fx_t : list Q := ex_n 24.
Definition flip (a b : Q) : list Q := map (fun k => if Nat.even k then a else b) (seq 0 24).
Definition fx_modes (a b : list Q) : dval ex_c := VReal ex_c [((2, 2)%Z, a); ((2, -2)%Z, b)].
(** asymmetric amplitudes, frequencies and phases *)
Definition fx_d : sdict (dval ex_c) :=
  [("t", VArr ex_c fx_t); ("amplm", fx_modes (flip 3 1) (flip 1 3)); ("omegalm", fx_modes (flip 3 1) (flip (-1) (-3)));
   ("phaselm", fx_modes fx_t (map Qopp fx_t))].
(** the frequencies are almost symmetric *)
Definition fx_mild : sdict (dval ex_c) :=
  [("t", VArr ex_c fx_t); ("amplm", fx_modes (flip 3 1) (flip 1 3)); ("omegalm", fx_modes (flip 3 1) (flip (-299 # 100) (-101 # 100)));
   ("phaselm", fx_modes fx_t (map Qopp fx_t))].
(** the default options with little padding *)
Definition fx_with (more : sdict leaf) : sdict leaf :=
  fold_right (fun kv d => sset d (fst kv) (snd kv)) default_filter (more ++ [("padding_length", LNum 2); ("segment_size", LNum 7); ("alpha", LNum 1)])%list.
Definition fx_run (d : sdict (dval ex_c)) (more : sdict leaf) := snd (check_and_filter fx 30 d "" (Some 100%Q) (fx_with more)).
Definition fx_kind (r : res (sdict fentry)) : res (list (string * Z)) :=
  match r with
  | Ok d => Ok (map (fun kv => (fst kv, match snd kv with FArr l => Z.of_nat (length l) | FNone => (-1)%Z | FSegments l => (-2 - Z.of_nat (length l))%Z end)) d)
  | Err e => Err e
  end.
(** a measurement: the two modes of InitToy.v made different by e *)
Definition shift (e : Q) (l : list Q) : list Q := map (fun kx => if Nat.even (fst kx) then snd kx + e else snd kx - e)%Q (combine (seq 0 24) l).
Definition fx_heap (e : Q) : heap ex_c :=
  [OTop ex_c in_plain; OReal ex_c [((2, 2)%Z, shift e in_amp); ((2, -2)%Z, shift (- e) in_amp)]; OReal ex_c (both neg in_ph);
   OReal ex_c [((2, 2)%Z, shift e in_om); ((2, -2)%Z, map Qopp (shift (- e) in_om))]].
Definition fx_lib : library ex_c Q :=
  {| lib_abs := lib_abs in_lib; lib_phase := lib_phase in_lib; lib_polar := lib_polar in_lib; lib_rotate := lib_rotate in_lib; lib_sqrt := lib_sqrt in_lib;
     lib_secular := lib_secular in_lib; lib_spline := lib_spline in_lib; lib_pchip := lib_pchip in_lib; lib_rational := lib_rational in_lib;
     lib_slope := lib_slope in_lib; lib_ecc := lib_ecc in_lib; lib_zero := lib_zero in_lib; lib_negative := lib_negative in_lib;
     lib_peaks := lib_peaks in_lib; lib_fits := lib_fits in_lib; lib_filter := spin_filter fx 60 |}.
Definition fx_args (n : option Q) : args :=
  {| a_tref := Some (RScalar 8); a_fref := None; a_num := n; a_precessing := true; a_frame := "coprecessing"; a_level := 0 |}.
Definition fx_extra (thr : Q) : kwargs :=
  [("filter_kwargs", Dict [("filter_threshold", LNum thr); ("padding_length", LNum 2); ("segment_size", LNum 7); ("alpha", LNum 1)])].
Definition fx_measure (e thr : Q) (n : option Q) :=
  measure_eccentricity fx_lib "Amplitude" (fx_args n) 0 {| wd_heap := fx_heap e; wd_extra := Some (fx_extra thr) |}.
Definition fx_seen (r : world ex_c * lg (sdict (entry Q))) : res (bool * nat * list Q) :=
  match snd (snd r) with
  | Ok d => match slookup d "gwecc_object" with
            | Some (EObject o _) => Ok (c_filtered (b_config (o_base o)), length (w_t (b_wave (o_base o))), map Qred (firstn 4 (o_data o)))
            | _ => Err KeyError
            end
  | Err e => Err e
  end.
(** two overlapping segments and samples without weight *)
Definition piece (lo n : nat) (v : Q) : segment * nat :=
  ({| sg_t := firstn n (skipn lo fx_t); sg_data := repeat v n; sg_secular := repeat v n; sg_residual := repeat 0%Q n; sg_smooth := repeat 0%Q n;
      sg_filtered := repeat v n; sg_freqs := []; sg_spectrum := []; sg_spin := 1; sg_ecc := 1; sg_guess := 1; sg_cutoff := 1 |}, lo).
Definition fx_pieces : list (segment * nat) := [piece 0 8 2%Q; piece 4 7 4%Q; piece 12 6 6%Q].
(** symmetric modes *)
Definition fx_mirror : sdict (dval ex_c) :=
  [("t", VArr ex_c fx_t); ("amplm", fx_modes (flip 3 1) (flip 3 1)); ("omegalm", fx_modes (flip 3 1) (flip (-3) (-1)));
   ("phaselm", fx_modes fx_t (map Qopp fx_t))].
Definition fx_segment (r : res segment) :=
  match r with
  | Ok s => Ok (sg_t s, map Qred (sg_residual s), map Qred (sg_filtered s), Qred (sg_guess s), map Qred [nth 1 (sg_freqs s) 0%Q; sg_ecc s; sg_spin s])
  | Err e => Err e
  end.
(** the same with zeroecc data *)
Definition fx_zero : heap ex_c := set_nth (fx_heap 1) 0 (OTop ex_c ((in_plain ++ [("amplm_zeroecc", VRef ex_c 1); ("phaselm_zeroecc", VRef ex_c 2); ("t_zeroecc", VArr ex_c in_t)])%list)).
Definition fx_out (h : heap ex_c) := in_out (measure_eccentricity fx_lib "Frequency" (fx_args (Some 1%Q)) 0 {| wd_heap := h; wd_extra := Some (fx_extra (1 # 1000)) |}).
