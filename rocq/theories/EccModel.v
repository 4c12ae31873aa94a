(** Model over the real numbers of the eccentricity formulas, eccDefinition.py 2540-2585.
    Definitions only.  Floating point rounding is not modelled here. *)
From Coq Require Import Reals.
Open Scope R_scope.

(** np.arctan2 *)
Definition arctan2 (y x : R) : R :=
  if Rlt_dec 0 x then atan (y / x)
  else if Rlt_dec x 0 then (if Rle_dec 0 y then atan (y / x) + PI else atan (y / x) - PI)
  else if Rlt_dec 0 y then PI / 2 else if Rlt_dec y 0 then - (PI / 2) else 0.

(** eccDefinition.py 2540-2556, et_from_ew22_0pn. *)
Definition et_from_ew22_0pn (ew22 : R) : R :=
  let psi := arctan2 (1 - ew22 * ew22) (2 * ew22) in
  cos (psi / 3) - sqrt 3 * sin (psi / 3).

(** eccDefinition.py 2578-2585, the elementwise part of compute_eccentricity: from the values of the
    pericenter and apocenter interpolants at one time. *)
Definition e_omega_gw (wp wa : R) : R := (sqrt wp - sqrt wa) / (sqrt wp + sqrt wa).
Definition ecc_from_extrema (wp wa : R) : R := et_from_ew22_0pn (e_omega_gw wp wa).
