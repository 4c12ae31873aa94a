(** The envelope A*(T-t)^n over the reals.  Definitions only. *)
From Coq Require Import Reals.
Open Scope R_scope.

(** eccDefinitionUsingFrequencyFits.py 36-37 (the same in 29-30), envelope_fitting_function. *)
Definition fit_exponent (t0 f0 f1 T : R) : R := - (T - t0) * f1 / f0.
Definition fit_amplitude (t0 f0 f1 T : R) : R := f0 * Rpower (T - t0) (- fit_exponent t0 f0 f1 T).
(** 47.  For a positive base ** is Rpower; a base of 0 or below gives inf, 0 or nan in numpy and is left out. *)
Definition fit_value (t0 f0 f1 T t : R) : R := fit_amplitude t0 f0 f1 T * Rpower (T - t) (fit_exponent t0 f0 f1 T).

(** utils.py 427-433, QusicircularFitForMappingFrequencyToTime.model. *)
Definition secular_exponent (t0 f0 f1 T : R) : R := - (T - t0) * (f1 / f0).
Definition secular_value (t0 f0 f1 T t : R) : R :=
  f0 * Rpower (T - t0) (- secular_exponent t0 f0 f1 T) * Rpower (T - t) (secular_exponent t0 f0 f1 T).
