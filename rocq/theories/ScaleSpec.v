(** What it means that two measurements are of the same waveform, written in different units of time and counted from a
    different origin.  A time t of the first becomes a * t + b, with a > 0, a frequency w becomes w / a; phases have no unit
    and may be counted from another origin. *)
From Verif Require Import Base UtilsModel UtilsSpec MeasureModel.
Open Scope nat_scope.
Open Scope Q_scope.

Definition same_time (a b t t' : Q) : Prop := t' == a * t + b.
Definition same_freq (a w w' : Q) : Prop := w' == w / a.
Definition same_times (a b : Q) : list Q -> list Q -> Prop := Forall2 (same_time a b).
Definition same_freqs (a : Q) : list Q -> list Q -> Prop := Forall2 (same_freq a).
(** Phases: with [other] counted from another origin, otherwise unchanged. *)
Definition same_phases (other : bool) (l l' : list Q) : Prop :=
  if other then exists k, Forall2 (fun y y' => y' == y + k) l l' else l' = l.

(** Exceptions: the same class, except that Exception and ValueError may stand for each other. *)
Definition same_exn (e e' : exn) : Prop :=
  e = e' \/ (In e [GenericException; ValueError] /\ In e' [GenericException; ValueError]).
Inductive same_res {A A'} (R : A -> A' -> Prop) : res A -> res A' -> Prop :=
| same_ok x x' : R x x' -> same_res R (Ok x) (Ok x')
| same_err e e' : same_exn e e' -> same_res R (Err e) (Err e').
(** Two interpolants of the frequency: at the same instant the same frequency, or both raise. *)
Definition same_curve (a b : Q) (f f' : curve) : Prop :=
  forall t t', same_time a b t t' -> same_res (same_freq a) (f t) (f' t').
Inductive same_option {A A'} (R : A -> A' -> Prop) : option A -> option A' -> Prop :=
| same_none : same_option R None None
| same_some x x' : R x x' -> same_option R (Some x) (Some x').

(** The reference points asked for. *)
Inductive same_reference (a b : Q) : reference -> reference -> Prop :=
| same_tref l l' : same_times a b l l' -> same_reference a b (TimeRef l) (TimeRef l')
| same_fref l l' : same_freqs a l l' -> same_reference a b (FreqRef l) (FreqRef l').
(** The object the constructor left: times, frequencies and reference points in the other units, phases with any origin, all
    else equal. *)
Record same_config (a b : Q) (c c' : config) : Prop := {
  sc_t : same_times a b (c_t c) (c_t c');
  sc_data_t : same_times a b (c_data_t c) (c_data_t c');
  sc_phase : same_phases true (c_phase c) (c_phase c');
  sc_omega : same_freqs a (c_omega c) (c_omega c');
  sc_ref : same_reference a b (c_ref c) (c_ref c');
  sc_zeroecc : same_option (fun z z' => same_times a b (fst z) (fst z') /\ same_freqs a (snd z) (snd z')) (c_zeroecc c) (c_zeroecc c');
  sc_rest : (c_scalar c', c_precessing c', c_filtered c', c_midpoints c', c_return_zero c') =
            (c_scalar c, c_precessing c, c_filtered c, c_midpoints c, c_return_zero c) /\
            (c_interp c', c_average c', c_use_only c', c_special c', c_general c') =
            (c_interp c, c_average c, c_use_only c, c_special c, c_general c) }.

(** Results: the same eccentricities and mean anomalies, the reference points in the other units. *)
Inductive same_out {A A'} (R : A -> A' -> Prop) : out A -> out A' -> Prop :=
| same_scalar x x' : R x x' -> same_out R (Scalar x) (Scalar x')
| same_arr l l' : Forall2 R l l' -> same_out R (Arr l) (Arr l').
Record same_result {V} (a b : Q) (r r' : result V) : Prop := {
  sr_ecc : r_eccentricity r' = r_eccentricity r;
  sr_mean : same_out Qeq (r_mean_anomaly r) (r_mean_anomaly r');
  sr_tref : same_option (same_out (same_time a b)) (r_tref_out r) (r_tref_out r');
  sr_fref : same_option (same_out (same_freq a)) (r_fref_out r) (r_fref_out r') }.
Inductive same_reply {V} (a b : Q) : reply V -> reply V -> Prop :=
| same_measure r r' : same_res (same_result a b) r r' -> same_reply a b (RMeasure r) (RMeasure r')
| same_bounds r r' : same_res (fun x x' => same_freq a (fst x) (fst x') /\ same_freq a (snd x) (snd x')) r r' ->
    same_reply a b (RBounds r) (RBounds r')
| same_nothing : same_reply a b (@RNone V) (@RNone V).

(** What is asked of the code outside the model. *)
(** The interpolating spline through (x, y): stretching and shifting either axis stretches and shifts the curve. *)
Definition spline_affine (spline_val : list Q -> list Q -> nat -> Q -> Q) : Prop :=
  forall p q r s x y k t x' y' t', 0 < p -> 0 < r -> increasing x -> length x = length y -> (k < length x)%nat ->
    Forall2 (same_time p q) x x' -> Forall2 (same_time r s) y y' -> same_time p q t t' ->
    same_time r s (spline_val x y k t) (spline_val x' y' k t').
(** The rational fitter. *)
Definition fit_affine (a b : Q) (rfit : list Q -> list Q -> Z * Z -> res curve) : Prop :=
  forall x y d x' y', same_times a b x x' -> same_freqs a y y' -> same_res (same_curve a b) (rfit x y d) (rfit x' y' d).
(** The eccentricity depends on the ratio of the two frequencies. *)
Definition ecc_ratio {V} (a : Q) (ecc_of : Q -> Q -> V) : Prop :=
  forall w v w' v', same_freq a w w' -> same_freq a v v' -> ecc_of w' v' = ecc_of w v.
(** The sign of the slope of e(t). *)
Definition slope_affine {V} (a b : Q) (slope : list Q -> list V -> list bool) : Prop :=
  forall t t' e, same_times a b t t' -> slope t' e = slope t e.
