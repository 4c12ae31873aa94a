(** Model of the short-segment option (use_only_these_many_orbits):
    /repo/gw_eccentricity/eccDefinition.py 508-520 and 1914-2135.  Definitions only; debug plots are left out. *)
From Verif Require Import Base UtilsModel.
Open Scope nat_scope.

(** self.t, self.amp_gw, self.phase_gw, self.omega_gw *)
Record wave := { w_t : list Q; w_amp : list Q; w_phase : list Q; w_omega : list Q }.

(** np.argmin(np.abs(l - x)) *)
Definition nearest (l : list Q) (x : Q) : res nat := argmin (map (fun y => Qabs (y - x)) l).

(** np.searchsorted(l, v): the first position with v <= l[i], for sorted l.  (Binary search on unsorted data is not
    modelled: there this scan may differ from numpy.) *)
Definition searchsorted (l : list Q) (v : Q) : nat :=
  match find_index (fun x => Qle_bool v x) l with Some i => i | None => length l end.

(** eccDefinition.py 2064-2068, _get_phase_bounds, for one of the two times. *)
Definition phase_bound (w : wave) (t_ref : Q) : res Q := do i <- nearest (w_t w) t_ref; get (w_phase w) i.

(** eccDefinition.py 2093-2094: FOUR_PI_K = 4 * 1.1 * pi *)
Definition four_pi_k : Q := 4 * (11 # 10) * np_pi.

(** eccDefinition.py 2070-2089, _compute_additional_orbits: [available] is the phase difference before the division. *)
Definition additional_orbits (n_orbits available orbits_between : Q) : Q :=
  Qmaxb ((1 # 2) * n_orbits - available / four_pi_k - orbits_between) 0.

(** eccDefinition.py 2091-2129, _get_segment_indices: start, and the end index or -1. *)
Definition segment_indices (n_orbits : Q) (phase : list Q) (phase_left phase_right : Q) : res (nat * Z) :=
  let between := ((phase_right - phase_left) / four_pi_k)%Q in
  let width := (inject_Z (q_ceil (n_orbits / 2)) * four_pi_k)%Q in
  let start := searchsorted phase (phase_left - width) - 1 in
  do extra_right <- (if start =? 0 then do p0 <- get phase 0; Ok (additional_orbits n_orbits (phase_left - p0) between)
                     else Ok 0%Q);
  match find_index (fun x => Qle_bool (phase_right + width + extra_right * four_pi_k) x) phase with
  | Some e => Ok (start, Z.of_nat e)
  | None =>
      do pn <- last_of phase;
      let extra_left := additional_orbits n_orbits (pn - phase_right) between in
      let start' := match find_index (fun x => Qle_bool (phase_left - width - extra_left * four_pi_k) x) phase with
                    | Some i => i | None => 0 end in
      Ok (start', (-1)%Z)
  end.

(** eccDefinition.py 2131-2135, _update_waveform_data_segment. *)
Definition cut_wave (w : wave) (s : nat) (e : Z) : wave :=
  {| w_t := zslice (w_t w) (Z.of_nat s) e; w_amp := zslice (w_amp w) (Z.of_nat s) e;
     w_phase := zslice (w_phase w) (Z.of_nat s) e; w_omega := zslice (w_omega w) (Z.of_nat s) e |}.

(** l[::step] *)
Fixpoint every_from {A} (step k : nat) (l : list A) : list A :=
  match l with
  | [] => []
  | x :: r => match k with O => x :: every_from step (step - 1) r | S j => every_from step j r end
  end.
Definition every {A} (step : nat) (l : list A) : list A := every_from step 0 l.

Section Segment.
  (** QusicircularFitForMappingFrequencyToTime(time, omega): least_square_fit, then the fitted model at the same times
      (utils.py 406-460); scipy's least_squares is external. *)
  Variable secular : list Q -> list Q -> res (list Q).

  (** eccDefinition.py 1914-1991, get_approximate_tref_for_fref_using_secular_trend. *)
  Definition approximate_tref (w : wave) (fref : Q) : res Q :=
    let omega_ref := (2 * np_pi * fref)%Q in
    let left_indices := where_idx (fun x => Qle_bool omega_ref x) (w_omega w) in
    let right_indices := where_idx (fun x => Qle_bool x omega_ref) (w_omega w) in
    do lr <- (match right_indices with
              | [] => do l <- get left_indices 0; Ok (l, l)
              | _ => match left_indices with
                     | [] => do r <- last_of right_indices; Ok (r, r)
                     | _ => do l <- get left_indices 0; do r <- last_of right_indices; Ok (l, r)
                     end
              end);
    do pl <- get (w_phase w) (fst lr); do pr <- get (w_phase w) (snd lr);
    let lz :=
      if Qlt_bool ((pr - pl) / (4 * np_pi)) 5 then
        let li := where_idx (fun x => Qle_bool (pl - (5 # 2) * 4 * np_pi) x) (w_phase w) in
        let ri := where_idx (fun x => Qle_bool (pr + (5 # 2) * 4 * np_pi) x) (w_phase w) in
        (if 1 <? length li then hd 0 li else 0, if 1 <? length ri then Z.of_nat (hd 0 ri) else (-1)%Z)
      else (fst lr, Z.of_nat (snd lr)) in
    let time := zslice (w_t w) (Z.of_nat (fst lz)) (snd lz) in
    let omega := zslice (w_omega w) (Z.of_nat (fst lz)) (snd lz) in
    let step := if 1000 <=? length time then length time / 1000 else 1 in
    let time := every step time in let omega := every step omega in
    do m <- secular time omega;
    do i <- nearest m omega_ref;
    get time i.

  (** eccDefinition.py 2050-2062, _get_reference_bounds. *)
  Definition reference_bounds (w : wave) (is_time : bool) (ref : list Q) : res (Q * Q) :=
    if is_time then do a <- get ref 0; do b <- last_of ref; Ok (a, b)
    else
      do f0 <- get ref 0; do a <- approximate_tref w f0;
      if 1 <? length ref then do fn <- last_of ref; do b <- approximate_tref w fn; Ok (a, b) else Ok (a, a).

  (** eccDefinition.py 1993-2048, get_amp_phase_omega_gw_segments. *)
  Definition segments (n_orbits : Q) (w : wave) (is_time : bool) (ref : list Q) : res wave :=
    do b <- reference_bounds w is_time ref;
    do pl <- phase_bound w (fst b); do pr <- phase_bound w (snd b);
    do se <- segment_indices n_orbits (w_phase w) pl pr;
    Ok (cut_wave w (fst se) (snd se)).

  (** eccDefinition.py 508-520: the test whether a segment is used at all.  [n_orbits = None] is the default; 0 counts
      as not set. *)
  Definition use_segment (level : Z) (n_orbits : option Q) (w : wave) (is_time : bool) (ref : list Q) : lg wave :=
    match n_orbits with
    | None => lret w
    | Some n =>
        if Qeq_bool n 0 then lret w
        else
          let! pn := lift (last_of (w_phase w)) in let! p0 := lift (get (w_phase w) 0) in
          if Qle_bool n ((pn - p0) / (4 * np_pi)) then lift (segments n w is_time ref)
          else let! _ := dbg "fewer orbits than requested, using the full waveform" level true in lret w
    end.
End Segment.
