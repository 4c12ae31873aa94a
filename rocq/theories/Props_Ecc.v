(** Properties C21-C23 of the eccentricity formula, over the real numbers. *)
From Coq Require Import Reals Lra.
From Verif Require Import EccModel EccSpec EccLemmas.
Open Scope R_scope.

(** C21.  For any positive frequencies the eccentricity is in (-1, 1); its sign is the sign of
    wp - wa, so it is in [0, 1) when wa <= wp and 0 exactly when they are equal. *)
Theorem C21_range_and_sign : forall wp wa, 0 < wp -> 0 < wa ->
  -1 < ecc_from_extrema wp wa < 1 /\
  (0 < ecc_from_extrema wp wa <-> wa < wp) /\ (ecc_from_extrema wp wa = 0 <-> wp = wa) /\
  (ecc_from_extrema wp wa < 0 <-> wp < wa).
Proof. exact ecc_range. Qed.
Print Assumptions C21_range_and_sign.
(** C21.  The eccentricity orders pairs of frequencies exactly as their ratio does. *)
Theorem C21_increasing_in_ratio : forall wp wa wp' wa', 0 < wp -> 0 < wa -> 0 < wp' -> 0 < wa' ->
  (ecc_from_extrema wp wa < ecc_from_extrema wp' wa' <-> wp / wa < wp' / wa').
Proof. exact ecc_monotone. Qed.
Print Assumptions C21_increasing_in_ratio.
Example C21_ex : 0 < ecc_from_extrema 2 1 < ecc_from_extrema 3 1 /\ ecc_from_extrema 3 1 < 1.
Proof.
  destruct (C21_range_and_sign 2 1) as (_ & P & _); try lra.
  destruct (C21_range_and_sign 3 1) as (R & _); try lra.
  assert (M := proj2 (C21_increasing_in_ratio 2 1 3 1 ltac:(lra) ltac:(lra) ltac:(lra) ltac:(lra)) ltac:(lra)).
  assert (Q := proj2 P ltac:(lra)). lra.
Qed.

(** C22.  On the quadrupole waveform of a Kepler orbit of eccentricity e and any size, the frequencies
    at pericenter and apocenter give back exactly e. *)
Theorem C22_newtonian_orbit : forall p e wp wa, 0 < p -> 0 <= e < 1 ->
  gw_frequency p e 0 wp -> gw_frequency p e PI wa ->
  ecc_from_extrema wp wa = e.
Proof. exact ecc_kepler. Qed.
Print Assumptions C22_newtonian_orbit.
(** C22.  Such frequencies exist for every orbit. *)
Theorem C22_frequencies_exist : forall p e, 0 <= e < 1 ->
  (exists wp, gw_frequency p e 0 wp) /\ (exists wa, gw_frequency p e PI wa).
Proof. exact kep_exists. Qed.
Print Assumptions C22_frequencies_exist.
(** At e = 1/2 the two frequencies are in the ratio 27/5. *)
Example C22_ex : ecc_from_extrema 27 5 = 1 / 2.
Proof.
  replace 27 with (30 * ((1 + 1 / 2) * (1 + 1 / 2) / (2 + 1 / 2))) by field.
  replace 5 with (30 * ((1 - 1 / 2) * (1 - 1 / 2) / (2 - 1 / 2))) at 1 by field.
  apply ecc_newtonian; lra.
Qed.

(** C23.  Rescaling all frequencies changes nothing. *)
Theorem C23_scale_free : forall k wp wa, 0 < k -> 0 < wp -> 0 < wa ->
  ecc_from_extrema (k * wp) (k * wa) = ecc_from_extrema wp wa.
Proof. exact ecc_scale. Qed.
Print Assumptions C23_scale_free.
Example C23_ex : ecc_from_extrema (2 * 27) (2 * 5) = 1 / 2.
Proof. rewrite C23_scale_free by lra. exact C22_ex. Qed.
