(** Vocabulary for the eccentricity formulas, written without the model: the quadrupole waveform of a
    Kepler orbit.  Units G = M = 1, semi-latus rectum p, true anomaly phi, eccentricity e.
      r = p / (1 + e cos phi),   phi' = (1 + e cos phi)^2 / p^(3/2),   r' = e sin phi / p^(1/2).
    The (2,2) mode is proportional to exp(-2 i phi) (1/r + r^2 phi'^2 - r'^2 + 2 i r r' phi'). *)
From Coq Require Import Reals.
Open Scope R_scope.

(** d phi / d t *)
Definition kepler_rate (p e phi : R) : R := (1 + e * cos phi) * (1 + e * cos phi) / (p * sqrt p).
(** p (1/r + r^2 phi'^2 - r'^2) *)
Definition mode22_re (e phi : R) : R :=
  (1 + e * cos phi) + (1 + e * cos phi) * (1 + e * cos phi) - (e * sin phi) * (e * sin phi).
(** p (2 r r' phi') *)
Definition mode22_im (e phi : R) : R := 2 * (e * sin phi) * (1 + e * cos phi).
(** Minus the phase of the mode; the real part is positive near pericenter (phi = 0) and apocenter
    (phi = pi), so the arctangent is the argument there. *)
Definition gw_phase (e phi : R) : R := 2 * phi - atan (mode22_im e phi / mode22_re e phi).
(** [w] is the frequency of the (2,2) mode where the true anomaly is [phi]. *)
Definition gw_frequency (p e phi w : R) : Prop :=
  exists d, derivable_pt_lim (gw_phase e) phi d /\ w = d * kepler_rate p e phi.
