(** Specification vocabulary for the degree search. *)
From Verif Require Import Base.
Open Scope Z_scope.
(** More data points than the m + n + 1 parameters of a rational fit. *)
Definition well_determined (n_points : Z) (d : Z * Z) : Prop := fst d + snd d + 1 < n_points.
(** Every (degrees, flag) of the list says what the monotonicity check returned for these degrees. *)
Definition truthful_record {F} (fit_for : Z * Z -> res F) (nonmono : F -> res bool)
  (h : list ((Z * Z) * bool)) : Prop :=
  forall d b, In (d, b) h -> exists f, fit_for d = Ok f /\ nonmono f = Ok b.
Definition all_flagged (h : list ((Z * Z) * bool)) : Prop := forall p, In p h -> snd p = true.
