(** The low-pass mask over the reals.  Definitions only. *)
From Coq Require Import Reals List.
Open Scope R_scope.

(** spin_filter.py 363-375, _make_lowpass_mask, for one frequency. *)
Definition mask_at (f_cutoff taper_width f : R) : R :=
  let f_low := f_cutoff * (1 - taper_width) in
  let f_high := f_cutoff * (1 + taper_width) in
  if Rlt_dec f_high f then 0
  else if Rle_dec f_low f then 1 / 2 * (1 + cos (PI * (f - f_low) / (f_high - f_low))) else 1.
(** spin_filter.py 345-377, _make_lowpass_mask *)
Definition lowpass_mask (frequencies : list R) (f_cutoff taper_width : R) : list R := map (mask_at f_cutoff taper_width) frequencies.
