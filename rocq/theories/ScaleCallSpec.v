(** The same waveform in other units of time, at the level of the caller: dictionaries, arguments, options and the returned
    dictionary of measure_eccentricity.  [kinds p] says what the caller's dictionaries of modes hold.  [o] says whether the
    amplitudes are in another unit, and whether every mode may have its phase counted from an origin of its own. *)
From Verif Require Import Base UtilsModel UtilsSpec RationalModel MeasureModel SegmentModel DataModel InitModel ScaleSpec.
Open Scope string_scope.
Open Scope nat_scope.
Open Scope list_scope.

(** The numbers in an array of times are evenly spaced. *)
Definition evenly (l : list Q) : Prop := exists s, forall d, In d (qdiff l) -> (d == s)%Q.
(** Times: the unit a and the origin b changed.  When the unit changes, the steps are asked to be exactly equal, because the
    code tests this with an absolute tolerance. *)
Definition same_clock (a b : Q) (l l' : list Q) : Prop := same_times a b l l' /\ (a == 1 \/ evenly l)%Q.
(** What else may change: the unit of the amplitudes, the origin of the phase of every mode. *)
Record change := { ch_amps : option Q; ch_phases : bool }.
Definition kept : change := {| ch_amps := None; ch_phases := false |}.
Definition same_amps (c : option Q) (l l' : list Q) : Prop :=
  match c with Some k => Forall2 (fun y y' => y' == k * y)%Q l l' | None => l' = l end.
Definition amp_unit (c : change) : Q := match ch_amps c with Some k => k | None => 1 end.
Inductive kind := Frequencies | Phases | Amplitudes | OtherKind.
Definition kind_of (k : string) : kind :=
  if String.eqb k "omegalm" || String.eqb k "omegalm_zeroecc" then Frequencies
  else if String.eqb k "phaselm" || String.eqb k "phaselm_zeroecc" then Phases
  else if String.eqb k "amplm" || String.eqb k "amplm_zeroecc" then Amplitudes else OtherKind.
Definition same_modes {A A'} (R : A -> A' -> Prop) (d : mdict A) (d' : mdict A') : Prop :=
  Forall2 (fun x x' => fst x' = fst x /\ R (snd x) (snd x')) d d'.

Section World.
  Context {C : Type}.
  Variables (a b : Q) (o : change) (kinds : nat -> kind).
  Definition same_kind (k : kind) (d d' : mdict (list Q)) : Prop :=
    match k with Frequencies => same_modes (same_freqs a) d d' | Phases => same_modes (same_phases (ch_phases o)) d d'
    | Amplitudes => same_modes (same_amps (ch_amps o)) d d' | OtherKind => d' = d end.
  (** The entry under key k.  The circular counterpart may have an origin of its own. *)
  Definition same_value (k : string) (v v' : dval C) : Prop :=
    match v, v' with
    | VArr _ l, VArr _ l' => if String.eqb k "t" then same_clock a b l l'
                             else if String.eqb k "t_zeroecc" then exists b0, same_clock a b0 l l' else l' = l
    | VReal _ d, VReal _ d' => same_kind (kind_of k) d d'
    | VCplx _ d, VCplx _ d' => d' = d /\ ch_amps o = None
    | VRef _ p, VRef _ p' => p' = p /\ kinds p = kind_of k
    | VOther _, VOther _ => True
    | _, _ => False
    end.
  Definition same_dict (d d' : sdict (dval C)) : Prop :=
    Forall2 (fun x x' => fst x' = fst x /\ same_value (fst x) (snd x) (snd x')) d d'.
  Definition same_obj (f : kind) (x x' : obj C) : Prop :=
    match x, x' with
    | OReal _ d, OReal _ d' => same_kind f d d'
    | OCplx _ d, OCplx _ d' => d' = d /\ ch_amps o = None
    | OTop _ d, OTop _ d' => same_dict d d'
    | _, _ => False
    end.
  Definition same_heap (h h' : heap C) : Prop := forall p, same_option (same_obj (kinds p)) (nth_error h p) (nth_error h' p).
  Record same_world (w w' : world C) : Prop := {
    sw_heap : same_heap (wd_heap w) (wd_heap w'); sw_extra : wd_extra w' = wd_extra w }.

  Inductive same_refin (R : Q -> Q -> Prop) : refin -> refin -> Prop :=
  | same_rscalar x x' : R x x' -> same_refin R (RScalar x) (RScalar x')
  | same_rarr l l' : Forall2 R l l' -> same_refin R (RArr l) (RArr l').
  Record same_args (x x' : args) : Prop := {
    sa_tref : same_option (same_refin (same_time a b)) (a_tref x) (a_tref x');
    sa_fref : same_option (same_refin (same_freq a)) (a_fref x) (a_fref x');
    sa_rest : (a_num x', a_precessing x', a_frame x', a_level x') = (a_num x, a_precessing x, a_frame x, a_level x) }.

  Context {V : Type}.
  (** The entries of the returned dictionary; the object is compared only in being there. *)
  Definition same_entry (x x' : string * entry V) : Prop :=
    fst x' = fst x /\
    match snd x, snd x' with
    | EEcc e, EEcc e' => e' = e
    | ERef r, ERef r' =>
        if String.eqb (fst x) "tref_out" then same_out (same_time a b) r r'
        else if String.eqb (fst x) "fref_out" then same_out (same_freq a) r r' else same_out Qeq r r'
    | EObject _ _, EObject _ _ => True
    | _, _ => False
    end.
  Definition same_return : sdict (entry V) -> sdict (entry V) -> Prop := Forall2 same_entry.
End World.

(** What is asked of the outside code. *)
Definition plain_levels (kw : sdict leaf) : Prop :=
  forall k, In k ["height"; "threshold"; "prominence"] -> slookup kw k = Some LNone.
(** find_peaks finds the peaks of scaled data at the same samples, unless it was given levels in the unit of the data. *)
Definition peaks_scale (peaks : list Q -> sdict leaf -> res (list nat)) : Prop :=
  forall r y y' kw, (0 < r)%Q -> Forall2 (same_time r 0) y y' -> (r == 1 \/ plain_levels kw)%Q -> peaks y' kw = peaks y kw.
(** The search of the fit methods. *)
Definition fits_scale (a b : Q) (o : change) (fits : list Q -> Q -> list Q -> list Q -> sdict leaf -> bool -> bool -> res (list nat)) : Prop :=
  forall t tm ph y kw rf p t' tm' ph' y', same_times a b t t' -> same_time a b tm tm' -> same_phases (ch_phases o) ph ph' ->
    Forall2 Qeq y y' \/ same_freqs a y y' ->
    fits t' tm' ph' y' kw rf p = fits t tm ph y kw rf p.
(** The fit of the secular frequency. *)
Definition secular_scale (a b : Q) (secular : list Q -> list Q -> res (list Q)) : Prop :=
  forall t w t' w', same_times a b t t' -> same_freqs a w w' -> same_res (same_freqs a) (secular t w) (secular t' w').
(** The filter of spin-induced oscillations. *)
Record same_filtered (a : Q) (o : change) (x x' : filtered) : Prop := {
  sf_amp : same_amps (ch_amps o) (fl_amp x) (fl_amp x'); sf_phase : same_phases (ch_phases o) (fl_phase x) (fl_phase x'); sf_omega : same_freqs a (fl_omega x) (fl_omega x');
  sf_flag : fl_omega_filtered x' = fl_omega_filtered x }.
Definition filter_scale {C} (a b : Q) (o : change) (kinds : nat -> kind) (flt : sdict (dval C) -> Q -> sdict leaf -> lg filtered) : Prop :=
  forall d d' tm tm' kw, same_dict a b o kinds d d' -> same_time a b tm tm' ->
    fst (flt d' tm' kw) = fst (flt d tm kw) /\ same_res (same_filtered a o) (snd (flt d tm kw)) (snd (flt d' tm' kw)).
(** The coprecessing frame does not depend on the unit and origin of time. *)
Definition rotation_scale {C} (a : Q) (rotate : list Q -> list C -> res (list C)) : Prop :=
  forall b t t' c, same_times a b t t' -> rotate t' c = rotate t c.
(** Asked always; asked of fit methods; asked when a segment is cut out around a reference frequency; asked of precessing
    systems, where a change of frame needs the origins of the phases to be kept. *)
(** The square root of a number k times as large is larger by a factor that depends on k only. *)
Definition root_scale (k : Q) (root : Q -> Q) : Prop :=
  exists r, (0 < r)%Q /\ forall x x', (x' == k * x)%Q -> (root x' == r * root x)%Q.
Record library_scale {C V} (a b : Q) (L : library C V) : Prop := {
  ls_spline : spline_affine (lib_spline L); ls_ecc : ecc_ratio a (lib_ecc L); ls_slope : slope_affine a b (lib_slope L);
  ls_peaks : peaks_scale (lib_peaks L) }.
Record calls_scale {C V} (a b : Q) (o : change) (kinds : nat -> kind) (L : library C V) (m : string) (x : args) : Prop := {
  cs_fits : ~ In m ["AmplitudeFits"; "FrequencyFits"] \/ fits_scale a b o (lib_fits L);
  cs_secular : a_fref x = None \/ secular_scale a b (lib_secular L);
  cs_precessing : a_precessing x = false \/
    ((a_frame x <> "inertial" \/ (o = kept /\ rotation_scale a (lib_rotate L))) /\ filter_scale a b o kinds (lib_filter L));
  cs_amps : match ch_amps o with Some k => (0 < k)%Q /\ root_scale (k * k) (lib_sqrt L) | None => True end }.

(** Options of the caller. *)
Definition spline_chosen (extra : option kwargs) : Prop :=
  exists e, extra = Some e /\ slookup e "omega_gw_extrema_interpolation_method" = Some (Leaf (LStr "spline")).
(** No levels for find_peaks. *)
Definition levels_unset (extra : option kwargs) : Prop :=
  forall e u, extra = Some e -> slookup e "extrema_finding_kwargs" = Some (Dict u) ->
    forall k, In k ["height"; "threshold"; "prominence"] -> slookup u k = None \/ slookup u k = Some LNone.
(** The search of extrema is free of units: no levels were given, or it is a fit method, or the unit of what is searched is
    kept. *)
Definition free_search (a : Q) (o : change) (m : string) (extra : option kwargs) : Prop :=
  levels_unset extra \/ In m ["AmplitudeFits"; "FrequencyFits"] \/ (a == 1 /\ amp_unit o == 1)%Q \/
  (In m ["Amplitude"; "ResidualAmplitude"] /\ amp_unit o == 1)%Q \/ (In m ["Frequency"; "ResidualFrequency"] /\ a == 1)%Q.
