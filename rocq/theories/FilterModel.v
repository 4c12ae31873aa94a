(** spin_filter.py: the filter for spin-induced oscillations.  Definitions only.
    Numbers are exact rationals.  The Fourier transforms, windows, cosine, cubic interpolation, peak finder and least-squares
    fit are external (record [fourier]).  Prints and debug plots are left out. *)
From Verif Require Import Base UtilsModel MeasureModel SegmentModel DataModel InitModel.
Open Scope string_scope.
Open Scope nat_scope.

(** External code. *)
Record fourier := {
  fo_trend : bool -> Q -> list Q -> list Q -> res (Q -> Q);
    (* scipy.optimize.least_squares for the power law, given whether the data is an amplitude, the time of merger, the times
       and the data; the exceptions include the pseudo-exception for a non-finite trend *)
  fo_peaks : list Q -> Z -> res (list nat);         (* scipy.signal.find_peaks(data, distance=.)[0], distance >= 1 *)
  fo_cubic : list Q -> list Q -> Q -> Q;            (* interp1d(x, y, kind='cubic', fill_value='extrapolate') *)
  fo_hamming : nat -> list Q; fo_hanning : nat -> list Q;
  fo_cos : Q -> Q;
  fo_abs_rfft : list Q -> list Q;                   (* np.abs(np.fft.rfft(.)) *)
  fo_lowpass : list Q -> list Q -> list Q           (* np.fft.irfft(np.fft.rfft(data) * mask, n=len(data)) *)
}.

(** np.sign *)
Definition sign (x : Q) : Z := Z.sgn (Qnum x).
Fixpoint zdiff (l : list Z) : list Z :=
  match l with a :: ((b :: _) as r) => (b - a)%Z :: zdiff r | _ => [] end.
(** 0.5 * (l[:-1] + l[1:]) *)
Fixpoint midpoints_of (l : list Q) : list Q :=
  match l with a :: ((b :: _) as r) => ((1 # 2) * (a + b))%Q :: midpoints_of r | _ => [] end.
(** np.mean of a non-empty array *)
Definition mean_of (l : list Q) : Q := (qsum l / inject_Z (Z.of_nat (length l)))%Q.
(** np.cumsum *)
Fixpoint cumsum_from (acc : Q) (l : list Q) : list Q :=
  match l with [] => [] | a :: r => (acc + a)%Q :: cumsum_from (acc + a) r end.
Definition cumsum (l : list Q) : list Q := cumsum_from 0 l.
(** np.searchsorted(l, v, side='right') for sorted l *)
Definition searchsorted_right (l : list Q) (v : Q) : nat :=
  match find_index (fun x => Qlt_bool v x) l with Some i => i | None => length l end.

(** spin_filter.py 16-46, _find_intersection_points: t_cross, t_mid, delta_t. *)
Definition find_intersection_points (t x y : list Q) : res (list Q * list Q * list Q) :=
  do diff <- zip_with Qminus x y;
  let idx := where_idx (fun d => negb (Z.eqb d 0)) (zdiff (map sign diff)) in
  if length idx <? 2 then Err ValueError
  else do tc <- gather t idx; Ok (tc, midpoints_of tc, qdiff tc).

(** +1 for amplitudes, -1 for frequencies *)
Definition combination (amp : bool) : Q := if amp then 1 else -1.

(** rfftfreq(n, d): k / (n d) for k = 0 .. n // 2; a zero step is left out *)
Definition rfftfreq (n : nat) (d : Q) : res (list Q) :=
  let nd := (inject_Z (Z.of_nat n) * d)%Q in
  if Qeq_bool nd 0 then Err NonFinite
  else Ok (map (fun k => inject_Z (Z.of_nat k) / nd)%Q (seq 0 (S (n / 2)))).

(** np.pad(data, (p, p), mode='constant', constant_values=0) *)
Definition pad (data : list Q) (p : Z) : res (list Q) :=
  if (p <? 0)%Z then Err ValueError
  else let z := repeat 0%Q (Z.to_nat p) in Ok (z ++ data ++ z)%list.

(** the frequency chosen among those in [lo, hi]: where the spectrum is largest (or smallest), if there is any *)
Definition pick (choose : list Q -> res nat) (freqs spectrum : list Q) (lo hi : Q) : res (option Q) :=
  match where_idx (fun f => Qle_bool lo f && Qle_bool f hi) freqs with
  | [] => Ok None
  | idx => do fs <- gather freqs idx; do ss <- gather spectrum idx; do i <- choose ss; do f <- get fs i; Ok (Some f)
  end.
Definition or_else (x : option Q) (d : Q) : Q := match x with Some f => f | None => d end.
(** spin_filter.py 242-342, _get_fcut_fecc_fspin for given frequencies and spectrum: f_cutoff, f_ecc, f_spin. *)
Definition get_fcut (freqs spectrum : list Q) (guess s_lo s_hi e_lo e_hi : Q) : res (Q * Q * Q) :=
  do s <- pick argmax freqs spectrum (s_lo * guess) (s_hi * guess);
  let f_spin := or_else s guess in
  do e <- pick argmax freqs spectrum (e_lo * f_spin) (e_hi * f_spin);
  let f_ecc := or_else e (f_spin / (5 # 2))%Q in
  do c <- pick argmin freqs spectrum f_ecc f_spin;
  Ok (or_else c ((1 # 2) * (f_spin + f_ecc))%Q, f_ecc, f_spin).

(** Options: spin_filter.py 823-838; those that must be numbers are read when the filter starts. *)
Record filter_options := {
  k_threshold : Q; k_alpha : Q; k_size : Q; k_check : leaf; k_fspin : leaf; k_level : Z; k_skip : bool; k_pad : Z;
  k_taper : Q; k_s_lo : Q; k_s_hi : Q; k_e_lo : Q; k_e_hi : Q
}.
Definition num_at (d : sdict leaf) (k : string) : res Q := do v <- sget d k; leaf_num v.
Definition filter_options_of (d : sdict leaf) : res filter_options :=
  do thr <- num_at d "filter_threshold"; do al <- num_at d "alpha"; do sz <- num_at d "segment_size";
  do chk <- sget d "data_type_for_filter_requirement_check"; do fsp <- sget d "data_type_for_fspin_estimate";
  do lv <- num_at d "debug_level"; do sk <- sget d "do_not_filter"; do pd <- num_at d "padding_length";
  do tw <- num_at d "taper_width"; do sl <- num_at d "f_spin_lo_frac"; do sh <- num_at d "f_spin_hi_frac";
  do el <- num_at d "fecc_lo_frac"; do eh <- num_at d "fecc_hi_frac";
  Ok {| k_threshold := thr; k_alpha := al; k_size := sz; k_check := chk; k_fspin := fsp; k_level := Qfloor lv;
        k_skip := leaf_truthy sk; k_pad := Qfloor pd; k_taper := tw; k_s_lo := sl; k_s_hi := sh; k_e_lo := el; k_e_hi := eh |}.

(** FilterSegmentResult, spin_filter.py 224-239. *)
Record segment := {
  sg_t : list Q; sg_data : list Q; sg_secular : list Q; sg_residual : list Q; sg_smooth : list Q; sg_filtered : list Q;
  sg_freqs : list Q; sg_spectrum : list Q; sg_spin : Q; sg_ecc : Q; sg_guess : Q; sg_cutoff : Q
}.
(** The attributes of FilterSpinInducedOscillations that are used later; the interpolant only if filtering is required. *)
Record filter_obj := {
  ob_amp : bool; ob_t : list Q; ob_data : list Q; ob_t_merger : Q; ob_required : bool; ob_delta_T : Q -> Q
}.
(** Values of the returned dictionary. *)
Inductive fentry := FArr (l : list Q) | FNone | FSegments (l : list segment).

Section Filter.
  Variable F : fourier.
  Context {C : Type}.

  (** spin_filter.py 97-143, _pn_fit_for_secular_trend: scipy refuses an initial guess with a non-finite residual, and the
      power law is not finite at and after the merger. *)
  Definition pn_fit (amp : bool) (t_merger : Q) (t x : list Q) : res (Q -> Q) :=
    if existsb (fun s => Qle_bool t_merger s) t then Err ValueError else fo_trend F amp t_merger t x.

  (** spin_filter.py 145-222, check_filter_requirement.  The mean of no peaks is nan, and then nothing exceeds the
      threshold; a mean of zero gives an infinite ratio or nan. *)
  Definition check_filter_requirement (t d22 d2m2 : list Q) (t_merger : Q) (amp : bool) (threshold : Q) : res bool :=
    do asym <- zip_with (fun a b => (1 # 2) * (a - combination amp * b))%Q d22 d2m2;
    do trend <- pn_fit amp t_merger t d22;
    do residual <- zip_with Qminus d22 (map trend t);
    do cross <- find_intersection_points t d22 (map (fun b => combination amp * b)%Q d2m2);
    do gap <- last_of (snd cross); do t1 <- get t 1; do t0 <- get t 0;
    if Qeq_bool (t1 - t0) 0 then Err NonFinite
    else
      let distance := q_int (2 * gap / (t1 - t0)) in
      if (distance <? 1)%Z then Err ValueError
      else
        do rp <- fo_peaks F residual distance; do ap <- fo_peaks F asym distance;
        do rv <- gather residual rp; do av <- gather asym ap;
        match rv, av with
        | [], _ | _, [] => Ok false
        | _, _ => if Qeq_bool (mean_of rv) 0 then Ok (Qlt_bool 0 (mean_of av))
                  else Ok (Qlt_bool threshold (mean_of av / mean_of rv))
        end.

  (** spin_filter.py 345-377, _make_lowpass_mask *)
  Definition make_lowpass_mask (freqs : list Q) (fc w : Q) : res (list Q) :=
    let lo := (fc * (1 - w))%Q in let hi := (fc * (1 + w))%Q in
    let band f := Qle_bool lo f && Qle_bool f hi in
    if Qeq_bool (hi - lo) 0 && existsb band freqs then Err NonFinite
    else Ok (map (fun f => if Qlt_bool hi f then 0%Q
                           else if band f then ((1 # 2) * (1 + fo_cos F (np_pi * (f - lo) / (hi - lo))))%Q else 1%Q) freqs).

  (** "amp" or "omega", None for the data that is filtered; spin_filter.py 466-480 *)
  Definition data_type_of (amp : bool) (l : leaf) : res bool :=
    match l with
    | LNone => Ok amp
    | LStr s => if String.eqb s "amp" then Ok true else if String.eqb s "omega" then Ok false else Err ValueError
    | _ => Err ValueError
    end.
  Definition type_key (amp : bool) (tag : string) : string := (if amp then "amplm" else "omegalm") ++ tag.
  (** data_dict[key][(2, 2)] and data_dict[key][(2, -2)].  (The dictionary is a deep copy, so no other object is needed.) *)
  Definition pair_at (d : sdict (dval C)) (k : string) : res (list Q * list Q) :=
    do m <- modes_at C [] d k; do a <- mget m (2, 2)%Z; do b <- mget m (2, -2)%Z; Ok (a, b).

  (** spin_filter.py 395-524, FilterSpinInducedOscillations.__init__ *)
  Definition make_filter (d : sdict (dval C)) (tag : string) (t_merger : option Q) (o : filter_options) (amp : bool) : lg filter_obj :=
    let! fspin := lift (if existsb (String.eqb tag) [""; "_zeroecc"] then data_type_of amp (k_fspin o) else Err ValueError) in
    let! chk := lift (data_type_of amp (k_check o)) in
    let! t := lift (do v <- sget d "t"; arr_of C v) in
    let! p := lift (pair_at d (type_key amp tag)) in
    let! tm := lift match t_merger with
                    | Some x => Ok x
                    | None => do q <- pair_at d (type_key true tag); do s <- zip_with Qplus (fst q) (snd q); do i <- argmax s; get t i
                    end in
    let! data := lift (zip_with (fun a b => (1 # 2) * (a + combination amp * b))%Q (fst p) (snd p)) in
    let! c := lift (pair_at d (type_key chk tag)) in
    let! required := lift (check_filter_requirement t (fst c) (snd c) tm chk (k_threshold o)) in
    if negb required then
      lret {| ob_amp := amp; ob_t := t; ob_data := data; ob_t_merger := tm; ob_required := false; ob_delta_T := fun _ => 0%Q |}
    else
      let! f := lift (pair_at d (type_key fspin tag)) in
      let! x := lift (find_intersection_points t (fst f) (map (fun b => b * combination fspin)%Q (snd f))) in
      let '(tc, tmid, dT) := x in
      let! _ := (if 100 <? length tc then dbg "crossing points found" (k_level o) false else lret tt) in
      (* interp1d of kind cubic needs four points *)
      let! _ := lift (if length tmid <? 4 then Err ValueError else Ok tt) in
      lret {| ob_amp := amp; ob_t := t; ob_data := data; ob_t_merger := tm; ob_required := true; ob_delta_T := fo_cubic F tmid dT |}.

  (** spin_filter.py 526-542, _make_segment *)
  Definition make_segment (b : filter_obj) (size t_mid : Q) : res (list Q * list Q) :=
    let half := ((1 # 2) * size * ob_delta_T b t_mid)%Q in
    do t0 <- get (ob_t b) 0; do tn <- last_of (ob_t b);
    let i := searchsorted (ob_t b) (Qmaxb t0 (t_mid - half)) in
    let j := Nat.min (searchsorted_right (ob_t b) (Qminb tn (t_mid + half))) (length (ob_t b)) in
    Ok (slice (ob_t b) i j, slice (ob_data b) i j).

  (** spin_filter.py 555-601, _filter_segment, with 544-553.  The reciprocal of a zero spacing is infinite in numpy and first
      used after the times were read; it is computed there. *)
  Definition filter_segment (b : filter_obj) (o : filter_options) (t_mid : Q) : res segment :=
    do s <- make_segment b (k_size o) t_mid;
    let '(ts, ds) := s in
    do trend <- pn_fit (ob_amp b) (ob_t_merger b) ts ds;
    let secular := map trend ts in
    do residual <- zip_with Qminus ds secular;
    do windowed <- (do w <- zip_with Qmult (fo_hamming F (length residual)) residual; pad w (k_pad o));
    do plain <- pad residual (k_pad o);
    do _ <- (if length windowed =? 0 then Err ValueError else Ok tt); (* np.fft.rfft of no data *)
    do t1 <- get ts 1; do t0 <- get ts 0;
    do guess <- (if Qeq_bool (ob_delta_T b t_mid) 0 then Err NonFinite else Ok (1 / ob_delta_T b t_mid)%Q);
    do freqs <- rfftfreq (length windowed) (t1 - t0);
    let spectrum := map (fun x => x / inject_Z (Z.of_nat (length windowed)))%Q (fo_abs_rfft F windowed) in
    do f <- get_fcut freqs spectrum guess (k_s_lo o) (k_s_hi o) (k_e_lo o) (k_e_hi o);
    let '(cutoff, ecc, spin) := f in
    do freqs' <- rfftfreq (length plain) (t1 - t0);
    do mask <- make_lowpass_mask freqs' cutoff (k_taper o);
    let smooth := zslice (fo_lowpass F plain mask) (k_pad o) (- k_pad o) in
    do filtered <- zip_with Qplus secular smooth;
    Ok {| sg_t := ts; sg_data := ds; sg_secular := secular; sg_residual := residual; sg_smooth := smooth; sg_filtered := filtered;
          sg_freqs := freqs; sg_spectrum := spectrum; sg_spin := spin; sg_ecc := ecc; sg_guess := guess; sg_cutoff := cutoff |}.

  (** full[start:start+len(v)] += v *)
  Definition add_at (full : list Q) (start : nat) (v : list Q) : list Q :=
    (firstn start full ++ map2 Qplus (skipn start full) v ++ skipn (start + length v) full)%list.
  (** spin_filter.py 613-624, one pass of the loop *)
  Definition add_segment (t : list Q) (acc : list Q * list Q) (s : segment) : res (list Q * list Q) :=
    do first <- get (sg_t s) 0;
    let i := searchsorted t first in
    let n := Nat.min (i + length (sg_filtered s)) (length t) - i in
    let w := fo_hanning F n in
    do yw <- zip_with Qmult (firstn n (sg_filtered s)) w;
    Ok (add_at (fst acc) i yw, add_at (snd acc) i w).
  Fixpoint add_segments (t : list Q) (acc : list Q * list Q) (l : list segment) : res (list Q * list Q) :=
    match l with [] => Ok acc | s :: r => do acc' <- add_segment t acc s; add_segments t acc' r end.
  (** spin_filter.py 603-633, _combine_segments.  np.interp raises ValueError if no sample is covered. *)
  Definition combine_segments (t : list Q) (l : list segment) : res (list Q) :=
    let zeros := map (fun _ => 0%Q) t in
    do acc <- add_segments t (zeros, zeros) l;
    let covered := where_idx (fun w => Qlt_bool 0 w) (snd acc) in
    do xp <- gather t covered; do yc <- gather (fst acc) covered; do wc <- gather (snd acc) covered;
    let fp := map2 Qdiv yc wc in
    match xp with
    | [] => Err ValueError
    | _ => Ok (map2 (fun s yw => if Qlt_bool 0 (snd yw) then (fst yw / snd yw)%Q else np_interp s xp fp) t
                    (combine (fst acc) (snd acc)))
    end.

  (** spin_filter.py 644-658, the loop of apply_filter *)
  Fixpoint sweep (fuel : nat) (b : filter_obj) (o : filter_options) (t_end ts : Q) : res (list segment) :=
    if Qlt_bool ts t_end then
      match fuel with
      | O => Err OutOfFuel
      | S n => do s <- filter_segment b o ts; do r <- sweep n b o t_end (ts + k_alpha o * ob_delta_T b ts)%Q; Ok (s :: r)
      end
    else Ok [].
  (** spin_filter.py 635-668, apply_filter *)
  Definition apply_filter (fuel : nat) (b : filter_obj) (o : filter_options) : res (list Q * list segment) :=
    do t0 <- get (ob_t b) 0; do tn <- last_of (ob_t b);
    do l <- sweep fuel b o tn t0;
    do y <- combine_segments (ob_t b) l;
    Ok (y, l).

  (** spin_filter.py 891-940, one pass of the loop over amplitude and frequency; the second result is filter_obj.t *)
  Definition filter_one (fuel : nat) (d : sdict (dval C)) (tag : string) (t_merger : option Q) (o : filter_options) (amp : bool)
    : lg (list (string * fentry) * list Q) :=
    let! b := make_filter d tag t_merger o amp in
    let key := ((if amp then "amp_gw" else "omega_gw") ++ tag)%string in
    let! _ := (if ob_required b && k_skip o then dbg "filtering is skipped" (k_level o) true else lret tt) in
    if ob_required b && negb (k_skip o) then
      let! y := lift (apply_filter fuel b o) in
      lret ([(key, FArr (fst y)); (key ++ "_original", FArr (ob_data b)); (key ++ "_filtered", FArr (fst y));
             (key ++ "_filter_segment_results", FSegments (snd y))]%string, ob_t b)
    else
      lret ([(key, FArr (ob_data b)); (key ++ "_original", FArr (ob_data b)); (key ++ "_filtered", FNone);
             (key ++ "_filter_segment_results", FNone)]%string, ob_t b).

  (** spin_filter.py 841-955, check_and_filter_spin_induced_oscillations.  Without filtering the code adds the last two
      entries in the other order, which is not modelled. *)
  Definition check_and_filter (fuel : nat) (d : sdict (dval C)) (tag : string) (t_merger : option Q) (kw : sdict leaf)
    : lg (sdict fentry) :=
    let! o := lift (filter_options_of kw) in
    let! a := filter_one fuel d tag t_merger o true in
    let! w := filter_one fuel d tag t_merger o false in
    let! p := lift (pair_at d ("phaselm" ++ tag)) in
    let! original := lift (zip_with (fun x y => (1 # 2) * (x - y))%Q (fst p) (snd p)) in
    let key := ("phase_gw" ++ tag)%string in
    let! phase := lift (match slookup (fst w) ("omega_gw" ++ tag ++ "_filtered") with
                        | Some (FArr y) => do t1 <- get (snd w) 1; do t0 <- get (snd w) 0; Ok (Some (map (fun x => x * (t1 - t0))%Q (cumsum y)))
                        | _ => Ok None
                        end) in
    lret (fst a ++ fst w ++ [(key ++ "_original", FArr original);
          (key ++ "_filtered", match phase with Some y => FArr y | None => FNone end);
          (key, FArr match phase with Some y => y | None => original end)]%string)%list.

  (** eccDefinition.py 490-500: what the measuring object keeps of it. *)
  Definition spin_filter (fuel : nat) (d : sdict (dval C)) (t_merger : Q) (kw : sdict leaf) : lg filtered :=
    let! r := check_and_filter fuel d "" (Some t_merger) kw in
    let arr k := match slookup r k with Some (FArr l) => l | _ => [] end in
    lret {| fl_amp := arr "amp_gw"; fl_phase := arr "phase_gw"; fl_omega := arr "omega_gw";
            fl_omega_filtered := match slookup r "omega_gw_filtered" with Some (FArr _) => true | _ => false end |}.
End Filter.
