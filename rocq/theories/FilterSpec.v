(** Specification of the filter for spin-induced oscillations, independent of the functions that compute it. *)
From Coq Require Import Sorted.
From Verif Require Import Base UtilsModel UtilsSpec DataModel DataSpec InitModel FilterModel.
Open Scope string_scope.
Open Scope nat_scope.

(** ** Crossings of two sampled curves *)
Definition same_sign (a b : Q) : Prop := ((a < 0 /\ b < 0) \/ (a == 0 /\ b == 0) \/ (0 < a /\ 0 < b))%Q.
(** From sample i to the next one the difference of the curves changes its sign, zero being a sign of its own. *)
Definition crosses (x y : list Q) (i : nat) : Prop :=
  exists a b c d, nth_error x i = Some a /\ nth_error x (S i) = Some b /\ nth_error y i = Some c /\ nth_error y (S i) = Some d /\
    ~ same_sign (a - c) (b - d).
(** idx lists the crossings in order, tc the times of the samples before them. *)
Definition crossing_times (t x y : list Q) (idx : list nat) (tc : list Q) : Prop :=
  StronglySorted lt idx /\ (forall i, In i idx <-> crosses x y i) /\
  length tc = length idx /\ forall k i, nth_error idx k = Some i -> nth_error tc k = nth_error t i /\ nth_error tc k <> None.
(** neighbouring entries of l, seen through f, are the entries of r *)
Definition pairwise (f : Q -> Q -> Q) (l r : list Q) : Prop :=
  length r = length l - 1 /\
  forall k a b, nth_error l k = Some a -> nth_error l (S k) = Some b -> exists v, nth_error r k = Some v /\ (v == f a b)%Q.

(** ** Frequencies *)
(** f is a frequency of the window [lo, hi] where the spectrum is largest. *)
Definition strongest (freqs spectrum : list Q) (lo hi f : Q) : Prop :=
  exists i a, nth_error freqs i = Some f /\ nth_error spectrum i = Some a /\ (lo <= f <= hi)%Q /\
    forall j g b, nth_error freqs j = Some g -> nth_error spectrum j = Some b -> (lo <= g <= hi)%Q -> (b <= a)%Q.
Definition weakest (freqs spectrum : list Q) (lo hi f : Q) : Prop :=
  exists i a, nth_error freqs i = Some f /\ nth_error spectrum i = Some a /\ (lo <= f <= hi)%Q /\
    forall j g b, nth_error freqs j = Some g -> nth_error spectrum j = Some b -> (lo <= g <= hi)%Q -> (a <= b)%Q.
Definition none_within (freqs : list Q) (lo hi : Q) : Prop := forall f, In f freqs -> ~ (lo <= f <= hi)%Q.

(** ** Mask *)
(** What is used of the cosine: its values between 0 and np.pi fall from 1 to -1. *)
Definition cosine_like (c : Q -> Q) : Prop :=
  (forall x y, 0 <= x -> x <= y -> y <= np_pi -> -1 <= c y /\ c y <= c x /\ c x <= 1)%Q /\
  (forall x, x == 0 -> c x == 1)%Q /\ (forall x, x == np_pi -> c x == -1)%Q.

(** ** Recombination *)
(** A window is non-negative and has the requested length. *)
Definition window (h : nat -> list Q) : Prop := forall n, length (h n) = n /\ Forall (fun w => 0 <= w)%Q (h n).
(** Segment s consists of the samples j, j+1, ... of t. *)
Definition placed (t : list Q) (s : segment) (j : nat) : Prop :=
  length (sg_t s) = length (sg_filtered s) /\ 0 < length (sg_t s) /\
  forall k, k < length (sg_t s) -> nth_error (sg_t s) k = nth_error t (j + k) /\ nth_error t (j + k) <> None.
(** The weight and the value that the segment at j has at sample i. *)
Definition share (h : nat -> list Q) (i : nat) (p : segment * nat) : list (Q * Q) :=
  let '(s, j) := p in
  if i <? j then []
  else match nth_error (h (length (sg_filtered s))) (i - j), nth_error (sg_filtered s) (i - j) with
       | Some w, Some y => [(w, y)]
       | _, _ => []
       end.
Definition shares (h : nat -> list Q) (i : nat) (l : list (segment * nat)) : list (Q * Q) := flat_map (share h i) l.
Definition total_weight (l : list (Q * Q)) : Q := fold_right (fun p s => fst p + s)%Q 0%Q l.
Definition weighted_sum (l : list (Q * Q)) : Q := fold_right (fun p s => fst p * snd p + s)%Q 0%Q l.
(** Sample i has a segment with positive weight. *)
Definition covered (h : nat -> list Q) (l : list (segment * nat)) (i : nat) : Prop := (0 < total_weight (shares h i l))%Q.
(** No sample strictly between a and b (exclusive) is covered. *)
Definition none_between (cov : nat -> Prop) (a b : nat) : Prop := forall c, a < c < b -> ~ cov c.
(** Sample i is interpolated from the covered samples nearest to it, and constant beyond the outermost ones. *)
Definition filled (t r : list Q) (cov : nat -> Prop) (i : nat) : Prop :=
  (exists b v, i < b /\ cov b /\ (forall c, c < b -> ~ cov c) /\ nth_error r b = Some v /\ nth_error r i = Some v) \/
  (exists a v, a < i /\ cov a /\ (forall c, a < c -> ~ cov c) /\ nth_error r a = Some v /\ nth_error r i = Some v) \/
  (exists a b ta tb ti u v y, a < i < b /\ cov a /\ cov b /\ none_between cov a b /\
     nth_error t a = Some ta /\ nth_error t b = Some tb /\ nth_error t i = Some ti /\
     nth_error r a = Some u /\ nth_error r b = Some v /\ nth_error r i = Some y /\ (y == u + (v - u) * ((ti - ta) / (tb - ta)))%Q).

(** ** Segments *)
(** ts and ds are the samples j, j+1, ... of t and data: exactly those whose time lies in [lo, hi]. *)
Definition cut (t data : list Q) (lo hi : Q) (ts ds : list Q) (j : nat) : Prop :=
  length ds = length ts /\
  (forall i a, nth_error t i = Some a -> ((lo <= a <= hi)%Q <-> j <= i < j + length ts)) /\
  (forall k, k < length ts -> nth_error ts k = nth_error t (j + k) /\ nth_error ds k = nth_error data (j + k) /\ nth_error t (j + k) <> None).
(** the centres start at t0, advance by step, stay below tn and stop when the next one is not *)
Definition centres (step : Q -> Q) (t0 tn : Q) (cs : list Q) : Prop :=
  (cs = [] -> (tn <= t0)%Q) /\
  (forall c, nth_error cs 0 = Some c -> c = t0) /\
  (forall k c c', nth_error cs k = Some c -> nth_error cs (S k) = Some c' -> c' = (c + step c)%Q) /\
  (forall c, In c cs -> (c < tn)%Q) /\
  (forall c, nth_error cs (length cs - 1) = Some c -> (tn <= c + step c)%Q).
(** neighbouring times are at least (at most) d apart *)
Definition gaps_at_least (t : list Q) (d : Q) : Prop :=
  forall i a b, nth_error t i = Some a -> nth_error t (S i) = Some b -> (d <= b - a)%Q.
Definition gaps_at_most (t : list Q) (d : Q) : Prop :=
  forall i a b, nth_error t i = Some a -> nth_error t (S i) = Some b -> (b - a <= d)%Q.
(** np.hanning: zero at both ends if there is more than one sample, positive elsewhere *)
Definition hann_like (h : nat -> list Q) : Prop :=
  forall n k w, nth_error (h n) k = Some w -> ((0 < k /\ S k < n) -> (0 < w)%Q) /\ (1 < n -> (k = 0 \/ S k = n) -> (w == 0)%Q).

(** ** Is filtering called for? *)
Definition average (l : list Q) (m : Q) : Prop := l <> [] /\ (m * inject_Z (Z.of_nat (length l)) == fold_right Qplus 0 l)%Q.
Definition values_at (x : list Q) (idx : list nat) (v : list Q) : Prop :=
  length v = length idx /\ forall k i, nth_error idx k = Some i -> nth_error v k = nth_error x i /\ nth_error v k <> None.
(** the average over the peaks of x that the peak finder reports, if it reports any *)
Definition peak_mean (find_peaks : list Q -> Z -> res (list nat)) (x : list Q) (distance : Z) (m : option Q) : Prop :=
  exists pk v, find_peaks x distance = Ok pk /\ values_at x pk v /\ match m with Some a => average v a | None => v = [] end.
(** sample by sample *)
Definition pointwise (f : Q -> Q -> Q) (a b r : list Q) : Prop :=
  length a = length b /\ length r = length a /\
  forall k x y, nth_error a k = Some x -> nth_error b k = Some y -> nth_error r k = Some (f x y).
(** amplitudes are compared with the (2,-2) mode, frequencies with minus the (2,-2) mode *)
Definition mirrored (amp : bool) (y : list Q) : list Q := map (fun b => (if amp then 1 else -1) * b)%Q y.
(** Average peak of what is left of x after taking away the trend (mr) and of the asymmetry (x - y)/2 (ma), the peaks
    being at least as far apart as the last two crossings, twice over. *)
Definition peak_means (find_peaks : list Q -> Z -> res (list nat)) (trend : Q -> Q) (t x y : list Q) (mr ma : option Q) : Prop :=
  exists idx tc ca cb t0 t1 residual asymmetry,
    crossing_times t x y idx tc /\ nth_error tc (length tc - 2) = Some ca /\ nth_error tc (length tc - 1) = Some cb /\ 2 <= length tc /\
    nth_error t 0 = Some t0 /\ nth_error t 1 = Some t1 /\
    pointwise (fun a s => a - trend s)%Q x t residual /\ pointwise (fun a b => (1 # 2) * (a - b))%Q x y asymmetry /\
    let distance := q_int (2 * (cb - ca) / (t1 - t0)) in
    (1 <= distance)%Z /\ peak_mean find_peaks residual distance mr /\ peak_mean find_peaks asymmetry distance ma.
Definition exceeds (threshold : Q) (mr ma : option Q) : Prop :=
  match mr, ma with
  | Some r, Some a => (r == 0 -> 0 < a)%Q /\ (~ r == 0 -> threshold < a / r)%Q
  | _, _ => False
  end.
(** The verdict for the (2,2) mode x and the (2,-2) mode y. *)
Definition called_for (F : fourier) (t x y : list Q) (t_merger : Q) (amp : bool) (threshold : Q) (verdict : bool) : Prop :=
  exists trend mr ma, (forall s, In s t -> (s < t_merger)%Q) /\ fo_trend F amp t_merger t x = Ok trend /\
    peak_means (fo_peaks F) trend t x (mirrored amp y) mr ma /\ (verdict = true <-> exceeds threshold mr ma).

(** ** The dictionary returned *)
Definition type_name (amp : bool) : string := if amp then "amp" else "omega".
(** option [key] selects type c when type amp is filtered: None stands for the type that is filtered *)
Definition selects (kw : sdict leaf) (key : string) (amp c : bool) : Prop :=
  (slookup kw key = Some LNone /\ c = amp) \/ slookup kw key = Some (LStr (type_name c)).
Definition outcome (r : sdict fentry) (base : string) (orig : list Q) (res : option (list Q * list segment)) : Prop :=
  slookup r (base ++ "_original") = Some (FArr orig) /\
  match res with
  | Some (y, segs) => slookup r base = Some (FArr y) /\ slookup r (base ++ "_filtered") = Some (FArr y) /\
                      slookup r (base ++ "_filter_segment_results") = Some (FSegments segs)
  | None => slookup r base = Some (FArr orig) /\ slookup r (base ++ "_filtered") = Some FNone /\
            slookup r (base ++ "_filter_segment_results") = Some FNone
  end.
(** p starts at y_0 dt and rises by y_k dt at every sample *)
Definition accumulated (y p : list Q) (dt : Q) : Prop :=
  length p = length y /\
  (forall a b, nth_error y 0 = Some a -> nth_error p 0 = Some b -> b == a * dt)%Q /\
  (forall k a b c, nth_error y (S k) = Some a -> nth_error p k = Some b -> nth_error p (S k) = Some c -> c - b == a * dt)%Q.
(** the given time of merger, or the time at which the sum of the two amplitudes is largest *)
Definition merger_time {C} (d : sdict (dval C)) (tag : string) (t : list Q) (given : option Q) (tm : Q) : Prop :=
  match given with
  | Some x => tm = x
  | None => exists s i m, combined [] d ("amplm" ++ tag) Qplus s /\ nth_error t i = Some tm /\ nth_error s i = Some m /\ forall x, In x s -> (x <= m)%Q
  end.
(** ** Options *)
(** The defaults as documented (spin_filter.py 775-838). *)
Definition documented_filter : list (string * leaf) :=
  [("filter_threshold", LNum (1 # 5)); ("alpha", LNum 2); ("segment_size", LNum 15); ("data_type_for_filter_requirement_check", LNone);
   ("data_type_for_fspin_estimate", LNone); ("debug_level", LNum 0); ("debug_plots", LBool false); ("do_not_filter", LBool false);
   ("padding_length", LNum 20000); ("taper_width", LNum (1 # 5)); ("f_spin_lo_frac", LNum (3 # 4)); ("f_spin_hi_frac", LNum (5 # 4));
   ("fecc_lo_frac", LNum (1 # 4)); ("fecc_hi_frac", LNum (1 # 2))].
(** the same option, numbers being compared as numbers *)
Definition same_option (a b : option leaf) : Prop :=
  match a, b with
  | Some (LNum x), Some (LNum y) => (x == y)%Q
  | _, _ => a = b
  end.
(** The filter options that the caller put into extra_kwargs; None and a missing entry count as no options. *)
Definition given_filter (extra : option kwargs) (u : sdict leaf) : Prop :=
  match extra with
  | None => u = []
  | Some e => match slookup e "filter_kwargs" with
              | None => u = [] | Some (Leaf LNone) => u = [] | Some (Dict d) => u = d | Some (Leaf _) => False
              end
  end.
Definition completed_filter (u d : sdict leaf) : Prop :=
  forall k, match slookup u k with Some v => slookup d k = Some v | None => same_option (slookup d k) (slookup documented_filter k) end.
(** o holds the options in kw. *)
Definition reads (kw : sdict leaf) (o : filter_options) : Prop :=
  slookup kw "filter_threshold" = Some (LNum (k_threshold o)) /\ slookup kw "alpha" = Some (LNum (k_alpha o)) /\
  slookup kw "segment_size" = Some (LNum (k_size o)) /\ slookup kw "data_type_for_filter_requirement_check" = Some (k_check o) /\
  slookup kw "data_type_for_fspin_estimate" = Some (k_fspin o) /\
  (exists v, slookup kw "do_not_filter" = Some v /\ k_skip o = match v with LNone => false | LBool b => b | LNum q => negb (Qeq_bool q 0) | LStr s => negb (String.eqb s "") | _ => true end) /\
  (exists v, slookup kw "padding_length" = Some (LNum v) /\ k_pad o = Qfloor v) /\ slookup kw "taper_width" = Some (LNum (k_taper o)) /\
  slookup kw "f_spin_lo_frac" = Some (LNum (k_s_lo o)) /\ slookup kw "f_spin_hi_frac" = Some (LNum (k_s_hi o)) /\
  slookup kw "fecc_lo_frac" = Some (LNum (k_e_lo o)) /\ slookup kw "fecc_hi_frac" = Some (LNum (k_e_hi o)).
(** b describes the data of type amp: half the sum (difference for frequencies) of the two modes, the time of merger, whether
    filtering is called for, and if so the spacing of the crossings, interpolated. *)
Definition subject (F : fourier) {C} (d : sdict (dval C)) (tag : string) (given : option Q) (kw : sdict leaf) (amp : bool) (b : filter_obj) : Prop :=
  In tag [""; "_zeroecc"] /\ exists chk fsp x y u v thr,
    selects kw "data_type_for_filter_requirement_check" amp chk /\ selects kw "data_type_for_fspin_estimate" amp fsp /\
    slookup kw "filter_threshold" = Some (LNum thr) /\ ob_amp b = amp /\ times_of d (ob_t b) /\
    combined [] d (type_name amp ++ "lm" ++ tag) (fun p q => (1 # 2) * (p + (if amp then 1 else -1) * q))%Q (ob_data b) /\
    merger_time d tag (ob_t b) given (ob_t_merger b) /\
    array_of [] d (type_name chk ++ "lm" ++ tag) (2, 2)%Z x /\ array_of [] d (type_name chk ++ "lm" ++ tag) (2, -2)%Z y /\
    called_for F (ob_t b) x y (ob_t_merger b) chk thr (ob_required b) /\
    (ob_required b = true -> array_of [] d (type_name fsp ++ "lm" ++ tag) (2, 2)%Z u /\ array_of [] d (type_name fsp ++ "lm" ++ tag) (2, -2)%Z v /\
       exists idx tc tmid dT, crossing_times (ob_t b) u (map (fun q => q * (if fsp then 1 else -1))%Q v) idx tc /\ 5 <= length tc /\
         pairwise (fun p q => (p + q) / 2)%Q tc tmid /\ pairwise (fun p q => q - p)%Q tc dT /\ ob_delta_T b = fo_cubic F tmid dT).
(** Sample i of y is the average of the segments' values there, weighted with the windows h. *)
Definition averaged (h : nat -> list Q) (l : list (segment * nat)) (i : nat) (v : Q) : Prop :=
  covered h l i /\ (v * total_weight (shares h i l) == weighted_sum (shares h i l))%Q.
(** The keys of the returned dictionary. *)
Definition result_keys (tag : string) : list string :=
  ["amp_gw" ++ tag; "amp_gw" ++ tag ++ "_original"; "amp_gw" ++ tag ++ "_filtered"; "amp_gw" ++ tag ++ "_filter_segment_results";
   "omega_gw" ++ tag; "omega_gw" ++ tag ++ "_original"; "omega_gw" ++ tag ++ "_filtered"; "omega_gw" ++ tag ++ "_filter_segment_results";
   "phase_gw" ++ tag; "phase_gw" ++ tag ++ "_original"; "phase_gw" ++ tag ++ "_filtered"].
(** ** A segment in detail *)
(** the frequencies k / (n dt) of a transform of n samples dt apart, k = 0 .. n/2 *)
Definition frequencies_of (n : nat) (dt : Q) (freqs : list Q) : Prop :=
  length freqs = S (n / 2) /\
  forall k f, nth_error freqs k = Some f -> (f * (inject_Z (Z.of_nat n) * dt) == inject_Z (Z.of_nat k))%Q.
(** v divided by n is the spectrum *)
Definition normalized (n : nat) (v spectrum : list Q) : Prop :=
  length spectrum = length v /\
  forall k a b, nth_error v k = Some a -> nth_error spectrum k = Some b -> (b == a / inject_Z (Z.of_nat n))%Q.
(** a between p zeros on either side *)
Definition padded (p : nat) (a : list Q) : list Q := (repeat 0%Q p ++ a ++ repeat 0%Q p)%list.
(** f_cutoff, f_ecc and f_spin for a guess of f_spin *)
Definition cutoff_of (freqs spectrum : list Q) (guess : Q) (o : filter_options) (fc fe fs : Q) : Prop :=
  (strongest freqs spectrum (k_s_lo o * guess) (k_s_hi o * guess) fs \/ (fs = guess /\ none_within freqs (k_s_lo o * guess) (k_s_hi o * guess))) /\
  (strongest freqs spectrum (k_e_lo o * fs) (k_e_hi o * fs) fe \/ (fe = (fs / (5 # 2))%Q /\ none_within freqs (k_e_lo o * fs) (k_e_hi o * fs))) /\
  (weakest freqs spectrum fe fs fc \/ (fc = ((1 # 2) * (fs + fe))%Q /\ none_within freqs fe fs)).
(** the mask: 1, then half a period of the cosine from fc (1 - w) to fc (1 + w), then 0 *)
Definition tapered (c : Q -> Q) (freqs : list Q) (fc w : Q) (m : list Q) : Prop :=
  length m = length freqs /\
  forall k f v, nth_error freqs k = Some f -> nth_error m k = Some v ->
    ((fc * (1 + w) < f -> v = 0) /\
     (fc * (1 - w) <= f -> f <= fc * (1 + w) -> v = (1 # 2) * (1 + c (np_pi * (f - fc * (1 - w)) / (fc * (1 + w) - fc * (1 - w))))) /\
     (f < fc * (1 - w) -> f <= fc * (1 + w) -> v = 1))%Q.
