(** Specification of the values of loaded waveforms and of the warnings about their counterparts. *)
From Coq Require Import Qabs.
From Verif Require Import Base UtilsModel UtilsSpec DataModel HelperModel HelperSpec LoadModel LoadSpec.
Open Scope string_scope.
Open Scope nat_scope.

(** The samples z have amplitude A and phase P at the times t. *)
Definition polar (S : sources) (A P : Q -> Q) (t : list Q) (z : list cnum) : Prop :=
  length z = length t /\
  forall n x, nth_error t n = Some x -> nth_error z n = Some (A x * fst (so_exp S (P x)), A x * snd (so_exp S (P x)))%Q.
(** f is a spline through the samples y at the times x *)
Definition spline_of (S : sources) (x y : list Q) (f : Q -> Q) : Prop := exists k, f = so_spline S x y k.
(** the first i samples are the requested number of orbits by the phase of mode (2, 2) *)
Definition phase_junk (S : sources) (d : modes) (orbits : Q) (i : nat) : Prop :=
  exists h p0, mode_of d (2, 2)%Z h /\ nth_error (map Qopp (so_phase S h)) 0 = Some p0 /\ nearest (map Qopp (so_phase S h)) (p0 + orbits * 4 * np_pi) i.
(** the call of the reader of LVCNR files: 10 solar masses at 1 megaparsec; the file's own starting frequency if Momega0 is 0 *)
Definition lvcnr_call (S : sources) (f : lvcnr) (dt omega : Q) (step m1 m2 dist flow : Q) : Prop :=
  (step == dt * (10 * so_mtsun S))%Q /\ (m1 * nr_m2 f == m2 * nr_m1 f)%Q /\ (~ nr_m1 f + nr_m2 f == 0 -> m1 + m2 == 10 * so_msun S)%Q /\
  (dist == 1000000 * so_pc S)%Q /\ (omega == 0 -> flow == nr_flower f / 10)%Q /\ (~ omega == 0 -> flow * np_pi * (10 * so_mtsun S) == omega)%Q.
(** the parameters that an LVCNR file gives *)
Definition file_params (S : sources) (origin : string) (kw : lkwargs) (ecc ano : option lv) : Prop :=
  exists path, asked origin kw "filepath" (Some (AStr path)) /\
    ((origin = "LVCNR" /\ exists f, so_lvcnr S path = Ok f /\ ecc = option_map ANum (nr_ecc f) /\ ano = option_map ANum (nr_anomaly f)) \/
     (origin = "LVCNR_hack" /\ exists f, so_raw S path = Ok f /\ ecc = Some (ANum (ra_ecc f)) /\ ano = Some (ANum (ra_anomaly f)))).
(** the warnings about the quasi-circular counterpart of numerical data *)
Definition circle_warnings : list string := ["zeroecc waveform is too long"; "too many tries"].
(** n is the least number of retries after which a waveform starts no later than t0; those before it can be generated and start later *)
Definition least_tries (S : sources) (try : nat -> lkwargs) (t0 : Q) (n : nat) : Prop :=
  (exists t d, generates S (try n) t d /\ no_later t t0) /\ forall m, m < n -> exists t d, generates S (try m) t d /\ later t t0.
